(** Property C175: the heading of each Python thread (see properties.jsonl). *)
From Coq Require Import Ascii String Sorted.
From Verif Require Import Base MapsSpec DwarfReaderProofs CfiSpec CfiProofs ElfHash Json Args ArgsSpec ArgsProofs Python PythonSpec PythonProofs PythonProofs3 PythonProofs4 FrameText FrameTextSpec FrameTextProofs2 Main MainSpec Props_Main2 PyFind Props_PyFind PyThreads Props_Python.
Open Scope Z_scope.
Notation length := List.length.
Notation lit := FrameTextSpec.lit.

(** ** What the theorems are stated with *)
(** A libc or thread library, and the process' descriptor of where a thread id is within a pthread: three 4-byte numbers, the last of which is its offset *)
Definition isThreadLib (n : list Z) : Prop := contains (lit "libc.") n \/ contains (lit "libpthread") n \/ contains (lit "libthread") n.
Definition describes (p : pyproc) (k : Z) : Prop :=
  exists base n ob y, byAddress (ppObjs p) /\ In (base, (n, Some ob)) (ppObjs p) /\ isThreadLib n /\ Defines true ob (lit "_thread_db_pthread_tid") y /\
    (forall b n' o', In (b, (n', Some o')) (ppObjs p) -> b < base -> isThreadLib n' -> Lacks true o' (lit "_thread_db_pthread_tid")) /\
    0 <= base /\ 0 <= svValue y /\ readable (ppMem p) (base + svValue y) 12 /\ field (ppMem p) (base + svValue y + 8) 4 k.
Definition noDescriptor (p : pyproc) : Prop := forall b n o, In (b, (n, Some o)) (ppObjs p) -> isThreadLib n -> Lacks true o (lit "_thread_db_pthread_tid").
(** The thread state at [t]: the pthread it belongs to ([id], 0 if none), its frame and the next thread *)
Definition threadState (p : pyproc) (t id f next : Z) : Prop :=
  t <> 0 /\ readable (ppMem p) t (ppSize p) /\ field (ppMem p) (t + ppIdOff p) 8 id /\ field (ppMem p) (t + ppFrameOff p) 8 f /\ field (ppMem p) (t + ppNextOff p) 8 next.
(** The heading of a thread of a process whose pthreads hold their kernel thread id [k] bytes in *)
Definition headingIs (p : pyproc) (k id : Z) (s : list Z) : Prop :=
  (id = 0 /\ s = lit "anonymous thread") \/
  (id <> 0 /\ exists tid h d, id + k + 4 <= W64 /\ - 2 ^ 31 <= tid < 2 ^ 31 /\ field (ppMem p) (id + k) 4 (tid mod 2 ^ 32) /\ canonical 16 h id /\ decimal d tid /\
     s = lit "pthread: 0x" ++ h ++ lit ", lwp " ++ d).
(** A null-terminated list of threads, and what is to be said of them: each one's heading on a line, its frame, an empty line; [H] relates a pthread to its heading *)
Inductive threadsSay (p : pyproc) (H : Z -> list Z -> Prop) : Z -> list Z -> list Z -> Prop :=
| TsNil : threadsSay p H 0 [] []
| TsCons t id f next s l out : threadState p t id f next -> H id s -> threadsSay p H next l out -> threadsSay p H t (t :: l) (s ++ [10] ++ ppShow p t f ++ [10] ++ out).
Inductive interpsSay (p : pyproc) (H : Z -> list Z -> Prop) : Z -> list Z -> list Z -> Prop :=
| IsNil : interpsSay p H 0 [] []
| IsCons a next head h ts out1 l out : a <> 0 -> readable (ppMem p) a 24 -> field (ppMem p) a 8 next -> field (ppMem p) (a + 8) 8 head -> canonical 16 h a ->
    threadsSay p H head ts out1 -> zlen ts < 128 -> interpsSay p H next l out ->
    interpsSay p H a (a :: l) (lit "---- interpreter @" ++ h ++ lit " -----" ++ [10] ++ out1 ++ out).
Definition wellLaid (p : pyproc) : Prop :=
  0 <= ppIdOff p /\ ppIdOff p + 8 <= ppSize p /\ 0 <= ppFrameOff p /\ ppFrameOff p + 8 <= ppSize p /\ 0 <= ppNextOff p /\ ppNextOff p + 8 <= ppSize p.
Definition processSays (p : pyproc) (H : Z -> list Z -> Prop) (out : list Z) : Prop :=
  wellLaid p /\ exists a l, readable (ppMem p) (ppHead p) 8 /\ field (ppMem p) (ppHead p) 8 a /\ interpsSay p H a l out.

(** ** Proofs *)
Lemma readT_image m a n : readable m a n -> 0 < n -> exists buf, readT m a n = retT buf /\ image m a n buf.
Proof.
  intros (Ha & Hn & Hw & H) Hp. destruct (memread_all m a (Z.to_nat n)) as (buf & E); [intros k Hk; apply H; lia|]. exists buf. split.
  - unfold readT. rewrite u64_id by (unfold isU64; lia). rewrite E. reflexivity.
  - split; [|exact E]. destruct (memread_nth m _ _ _ E) as (L & _). unfold zlen. lia.
Qed.
Lemma field_readable m a n v : 0 <= a -> a + Z.of_nat n <= W64 -> field m a n v -> readable m a (Z.of_nat n).
Proof.
  intros Ha Hw (Hv & H). split; [exact Ha|]. split; [lia|]. split; [exact Hw|]. intros k Hk. pose proof (leBytes_len n v) as L. unfold zlen in L.
  destruct (nth_error (leBytes n v) (Z.to_nat (k - a))) as [b|] eqn:E; [|apply nth_error_None in E; lia]. apply H in E. replace (a + Z.of_nat (Z.to_nat (k - a))) with k in E by lia. congruence.
Qed.
Lemma lib_iff n : threadLib n = true <-> isThreadLib n.
Proof.
  unfold threadLib, isThreadLib. rewrite !Bool.orb_true_iff. change FrameText.txt with lit. rewrite !has_iff by discriminate. tauto.
Qed.
Definition good (k : Z) (st : tidStatus) : Prop := st = NotDone \/ st = Found k.
Lemma offset_known p k st : describes p k -> good k st -> tidOffset p st = ([], Found k, Ok (Some k)).
Proof.
  intros (base & n & ob & y & St & Hin & Hn & D & L & H1 & H2 & R & F) [->| ->]; [|reflexivity]. unfold tidOffset. change FrameText.txt with lit. pose proof R as (_ & _ & Hw & _).
  rewrite (C128_resolve_partial _ true threadLib (ppObjs p) base n ob y St Hin); [|apply lib_iff; exact Hn|exact D| |exact H1|exact H2|lia].
  2:{ intros b n' o' I B A1. apply (L b n' o' I B). now apply lib_iff. }
  cbn [bind]. rewrite u64_id by (unfold isU64; lia). destruct (readT_image _ _ _ R ltac:(lia)) as (buf & _ & Im). pose proof Im as (_ & M). change (Z.to_nat 12) with 12%nat in M. rewrite M.
  change 4 with (Z.of_nat 4) at 1. rewrite (fld_image _ _ _ buf 8 4%nat k Im F) by lia. reflexivity.
Qed.
Lemma offset_none p st : noDescriptor p -> st = NotDone \/ st = NotFound -> tidOffset p st = ([], NotFound, Ok None).
Proof.
  intros N [->| ->]; [|reflexivity]. unfold tidOffset. change FrameText.txt with lit. rewrite (C128_resolve_none _ true threadLib (ppObjs p)); [reflexivity|]. intros b n o I A1. apply (N b n o I). now apply lib_iff.
Qed.
Lemma s32_mod tid : - 2 ^ 31 <= tid < 2 ^ 31 -> s32 (tid mod 2 ^ 32) = tid.
Proof.
  intros R. unfold s32. change (2 ^ 32) with 4294967296. change (2 ^ 31) with 2147483648 in R. destruct (Z_lt_le_dec tid 0).
  - replace (tid mod 4294967296) with (tid + 4294967296) by (apply Z.mod_unique with (-1); lia). replace (tid + 4294967296 <? 2147483648) with false by lia. lia.
  - rewrite Z.mod_small by lia. replace (tid <? 2147483648) with true by lia. reflexivity.
Qed.
(** [inv]: the values the static variables can have; [K]: what a heading depends on *)
Section Run.
Context (p : pyproc) (H : Z -> list Z -> Prop) (inv : tidStatus -> Prop) (WL : wellLaid p).
Hypothesis Hhead : forall t id f next s st, threadState p t id f next -> H id s -> inv st ->
  exists st', inv st' /\ printThread p t st = (s ++ [10] ++ ppShow p t f, st', Ok next).
Lemma say_threads h l out : threadsSay p H h l out -> threadsAt (ppMem p) (ppSize p) (ppNextOff p) l h.
Proof.
  induction 1 as [|t id f next s l out (T1 & T2 & T3 & T4 & T5) Hh Hs IH]; [reflexivity|]. cbn [threadsAt]. destruct WL as (W1 & W2 & W3 & W4 & W5 & W6). split; [reflexivity|]. split; [exact T1|]. split; [exact T2|]. split; [exact W5|]. split; [exact W6|].
  exists next. split; [exact T5|exact IH].
Qed.
Lemma say_hd h l out : threadsSay p H h l out -> hd 0 l = h.
Proof. now destruct 1. Qed.
Lemma loop_says : forall n h l out seen st, threadsSay p H h l out -> (length l < n)%nat -> (forall x, In x (0 :: tl l) -> ~ In x seen) -> (Z.of_nat (length seen) + zlen l <= 128) -> inv st ->
  exists st', inv st' /\ threadLoop n p seen h st = (out, st', Ok tt).
Proof.
  induction n as [|n IH]; intros h l out seen st HS Hn Hseen Hl I; [lia|]. pose proof (threads_nodup _ _ _ _ _ (say_threads _ _ _ HS)) as (Nd & N0). destruct HS as [|t id f next s l out TS Hh HS]; cbn [threadLoop]; [exists st; split; [exact I|reflexivity]|].
  pose proof TS as (T1 & _). replace (t =? 0) with false by lia. destruct (Hhead t id f next s st TS Hh I) as (st1 & I1 & E1). unfold bindT at 1. rewrite E1. pose proof (say_hd _ _ _ HS) as Hd.
  assert (Hin : ~ In next seen). { apply Hseen. cbn [tl]. destruct l as [|y l]; [left; now rewrite <- Hd|right; left; exact Hd]. }
  destruct (existsb (Z.eqb next) seen) eqn:Ex; [apply existsb_exists in Ex as (z & Z1 & Z2); apply Z.eqb_eq in Z2; subst z; contradiction|].
  rewrite zlen_cons in Hl. pose proof (zlen_nonneg l). replace (Z.of_nat (S (length seen)) >? 128) with false by lia.
  destruct l as [|y l].
  - inversion HS; subst. exists st1. split; [exact I1|]. unfold bindT, say. destruct n; [cbn in Hn; lia|]. cbn [threadLoop]. change (0 =? 0) with true. unfold retT. rewrite <- !app_assoc. reflexivity.
  - cbn [hd] in Hd. subst y. destruct (IH next (next :: l) out (next :: seen) st1 HS) as (st2 & I2 & E2); [cbn [length] in *; lia| |rewrite zlen_cons in *; cbn [length]; lia|exact I1|].
    + cbn [tl] in *. intros x Hx [<-|X].
      * apply NoDup_cons_iff in Nd as (_ & Nd). apply NoDup_cons_iff in Nd as (Nd & _). destruct Hx as [Hx|Hx]; [|contradiction]. apply N0. right. left. now symmetry.
      * apply (Hseen x); [|exact X]. destruct Hx as [Hx|Hx]; [now left|right; now right].
    + exists st2. split; [exact I2|]. unfold bindT, say. rewrite E2. rewrite <- !app_assoc. reflexivity.
Qed.
Lemma interp_says a next head h ts out1 n st : a <> 0 -> readable (ppMem p) a 24 -> field (ppMem p) a 8 next -> field (ppMem p) (a + 8) 8 head -> canonical 16 h a ->
  threadsSay p H head ts out1 -> zlen ts < 128 -> (200 <= n)%nat -> inv st ->
  exists st', inv st' /\ printInterp n p a st = (lit "---- interpreter @" ++ h ++ lit " -----" ++ [10] ++ out1, st', Ok next).
Proof.
  intros Ha R F1 F2 C TS L Hn I. unfold printInterp. destruct (readT_image _ _ _ R ltac:(lia)) as (buf & -> & Im). unfold bindT at 1, retT at 1.
  pose proof (fld_image _ _ _ buf 0 8%nat next Im) as G1. rewrite Z.add_0_r in G1. pose proof (fld_image _ _ _ buf 8 8%nat head Im F2 ltac:(lia) ltac:(lia)) as G2. change (Z.of_nat 8) with 8 in G1, G2. rewrite G1, G2 by (assumption || lia). unfold bindT at 1, liftT at 1. unfold bindT at 1, liftT at 1. unfold bindT at 1, say.
  destruct R as (R1 & _ & R2 & _). rewrite (hexText_ok h a C) by lia. pose proof (zlen_nonneg ts).
  assert (X : exists st', inv st' /\ threadLoop n p [head] head st = (out1, st', Ok tt)).
  { destruct TS as [|t id f next' s l out T1 T2 T3]; [exists st; split; [exact I|]; destruct n; [lia|reflexivity]|].
    pose proof (TsCons p H t id f next' s l out T1 T2 T3) as TS. apply (loop_says n t (t :: l) _ [t] st TS); [unfold zlen in L; lia| |cbn [length]; lia|exact I].
    intros x Hx [<-|[]]. pose proof (threads_nodup _ _ _ _ _ (say_threads _ _ _ TS)) as (Nd & N0). destruct T1 as (T1 & _). cbn [tl] in Hx. destruct Hx as [Hx|Hx]; [now apply T1|]. now apply NoDup_cons_iff in Nd as (Nd & _). }
  destruct X as (st' & I' & E).
  exists st'. split; [exact I'|]. unfold bindT. rewrite E. unfold retT. rewrite !app_nil_r, <- !app_assoc. reflexivity.
Qed.
Lemma interps_say a l out : interpsSay p H a l out -> forall n st, (200 + length l < n)%nat -> inv st -> exists st', inv st' /\ interpLoop n p a st = (out, st', Ok tt).
Proof.
  induction 1 as [|a next head h ts out1 l out Ha R F1 F2 C TS L HS IH]; intros n st Hn I; (destruct n as [|n]; [lia|]); cbn [interpLoop]; [exists st; split; [exact I|reflexivity]|].
  replace (a =? 0) with false by lia. cbn [length] in Hn. destruct (interp_says a next head h ts out1 n st Ha R F1 F2 C TS L ltac:(lia) I) as (st1 & I1 & E1). unfold bindT. rewrite E1.
  destruct (IH n st1 ltac:(lia) I1) as (st2 & I2 & E2). rewrite E2. exists st2. split; [exact I2|]. rewrite <- !app_assoc. reflexivity.
Qed.
Lemma process_says out : processSays p H out -> exists n, forall fuel st, (n <= fuel)%nat -> inv st -> exists st', inv st' /\ traceProc fuel p st = (out, st', Ok tt).
Proof.
  intros (_ & a & l & R & F & HS). exists (201 + length l)%nat. intros fuel st Hn I. unfold traceProc. destruct (readT_image _ _ _ R ltac:(lia)) as (buf & -> & Im). unfold bindT at 1, retT.
  pose proof (fld_image _ _ _ buf 0 8%nat a Im) as G1. rewrite Z.add_0_r in G1. change (Z.of_nat 8) with 8 in G1. rewrite G1 by (assumption || lia). unfold bindT, liftT.
  destruct (interps_say a l out HS fuel st ltac:(lia) I) as (st' & I' & E). rewrite E. exists st'. split; [exact I'|reflexivity].
Qed.
End Run.

Lemma thread_reads p t id f next st : wellLaid p -> threadState p t id f next -> printThread p t st =
  bindT (if id =? 0 then retT None else tidOffset p) (fun off =>
   bindT match off with
        | Some k => w <~ readT (ppMem p) (id + k) 4; say (lit "pthread: 0x" ++ hexText 16 id ++ lit ", lwp " ++ intText (s32 (le w)))
        | None => say (lit "anonymous thread")
        end (fun _ => bindT (say [10]) (fun _ => bindT (say (ppShow p t f)) (fun _ => retT next)))) st.
Proof.
  intros (W1 & W2 & W3 & W4 & W5 & W6) (T1 & R & F1 & F2 & F3). unfold printThread. destruct (readT_image _ _ _ R ltac:(lia)) as (buf & -> & Im). unfold bindT at 1, retT at 1.
  pose proof (fld_image _ _ _ buf _ 8%nat id Im F1 W1 W2) as G1. pose proof (fld_image _ _ _ buf _ 8%nat f Im F2 W3 W4) as G2. pose proof (fld_image _ _ _ buf _ 8%nat next Im F3 W5 W6) as G3. change (Z.of_nat 8) with 8 in *.
  rewrite G1, G2, G3. unfold bindT at 1, liftT at 1. unfold bindT at 1, liftT at 1. unfold bindT at 1, liftT at 1.
  match goal with |- _ = ?y => destruct y as ((o1 & s1) & r1) eqn:E end. change FrameText.txt with lit in *. rewrite E. reflexivity.
Qed.
Lemma head_known p k : wellLaid p -> 0 <= k -> describes p k -> forall t id f next s st, threadState p t id f next -> headingIs p k id s -> good k st ->
  exists st', good k st' /\ printThread p t st = (s ++ [10] ++ ppShow p t f, st', Ok next).
Proof.
  intros WL Hk D t id f next s st TS HI G. rewrite (thread_reads p t id f next st WL TS). destruct HI as [[-> ->]|(Hid & tid & h & d & Hw & Ht & F & C & Dd & ->)].
  - exists st. split; [exact G|]. cbn [Z.eqb]. unfold bindT, retT, say. rewrite !app_nil_r. reflexivity.
  - exists (Found k). split; [now right|]. replace (id =? 0) with false by lia. unfold bindT at 1. rewrite (offset_known p k st D G).
    destruct TS as (_ & _ & ((R1 & R2) & _) & _). destruct (readT_image (ppMem p) (id + k) 4 (field_readable (ppMem p) (id + k) 4 _ ltac:(lia) ltac:(lia) F) ltac:(lia)) as (buf & E & Im). rewrite E.
    pose proof (fld_image _ _ _ buf 0 4%nat (tid mod 2 ^ 32) Im) as G1. rewrite Z.add_0_r in G1. specialize (G1 F ltac:(lia) ltac:(lia)). unfold Python.fld in G1.
    unfold bindT, retT, say. 
    assert (L : le buf = tid mod 2 ^ 32).
    { destruct Im as (L & _). rewrite zdrop_neg, ztake_all in G1 by lia. rewrite L in G1. cbn [Z.leb andb Z.of_nat] in G1. rewrite Z.eqb_refl in G1. now injection G1. }
    rewrite L, s32_mod by exact Ht. rewrite (hexText_ok h id C) by (unfold W64 in *; lia). rewrite (intText_dec d tid) by (assumption || lia).
    rewrite !app_nil_r, <- !app_assoc. reflexivity.
Qed.
Lemma head_none p : wellLaid p -> noDescriptor p -> forall t id f next s st, threadState p t id f next -> s = lit "anonymous thread" -> st = NotDone \/ st = NotFound ->
  exists st', (st' = NotDone \/ st' = NotFound) /\ printThread p t st = (s ++ [10] ++ ppShow p t f, st', Ok next).
Proof.
  intros WL N t id f next s st TS -> G. rewrite (thread_reads p t id f next st WL TS). destruct (id =? 0).
  - exists st. split; [exact G|]. unfold bindT, retT, say. rewrite !app_nil_r. reflexivity.
  - exists NotFound. split; [now right|]. unfold bindT at 1. rewrite (offset_none p st N G). unfold bindT, retT, say. rewrite !app_nil_r. reflexivity.
Qed.
Lemma head_lost p : wellLaid p -> forall t id f next s st, threadState p t id f next -> s = lit "anonymous thread" -> st = NotFound ->
  exists st', st' = NotFound /\ printThread p t st = (s ++ [10] ++ ppShow p t f, st', Ok next).
Proof.
  intros WL t id f next s st TS -> ->. rewrite (thread_reads p t id f next NotFound WL TS). exists NotFound. split; [reflexivity|]. destruct (id =? 0); unfold bindT, retT, say, tidOffset; rewrite !app_nil_r; reflexivity.
Qed.
Lemma all_say (inv : tidStatus -> Prop) (H : pyproc -> Z -> list Z -> Prop) :
  forall ps outs, Forall2 (fun p out => processSays p (H p) out) ps outs ->
  (forall p, In p ps -> wellLaid p -> forall t id f next s st, threadState p t id f next -> H p id s -> inv st -> exists st', inv st' /\ printThread p t st = (s ++ [10] ++ ppShow p t f, st', Ok next)) ->
  exists n, forall fuel st, (n <= fuel)%nat -> inv st -> traceAll fuel ps st = map (fun o => (o, Ok tt)) outs.
Proof.
  intros ps outs F. induction F as [|p out ps outs P F IH]; intros HH; [exists 0%nat; reflexivity|].
  destruct IH as (n1 & E1); [intros q Hq; apply HH; now right|]. pose proof P as (WL & _). destruct (process_says p (H p) inv WL (HH p (or_introl eq_refl) WL) out P) as (n2 & E2).
  exists (n1 + n2)%nat. intros fuel st Hn I. cbn [traceAll map]. destruct (E2 fuel st ltac:(lia) I) as (st' & I' & E). rewrite E. f_equal. apply E1; [lia|exact I'].
Qed.

(** ** The headings of the threads *)
(** However many processes are traced in one run, if each describes its pthreads, all in the same way, every thread of each is headed by its own pthread and its own kernel thread id.
    Partial: see the refutations below. *)
Theorem C175_headings_partial : forall k ps outs, 0 <= k -> Forall (fun p => describes p k) ps -> Forall2 (fun p out => processSays p (headingIs p k) out) ps outs ->
  exists n, forall fuel, (n <= fuel)%nat -> traceAll fuel ps NotDone = map (fun o => (o, Ok tt)) outs.
Proof.
  intros k ps outs Hk D F. destruct (all_say (good k) (fun p => headingIs p k) ps outs F) as (n & E).
  - intros p Hp WL. rewrite Forall_forall in D. exact (head_known p k WL Hk (D p Hp)).
  - exists n. intros fuel Hn. apply E; [exact Hn|now left].
Qed.
Print Assumptions C175_headings_partial.
(** The threads of processes that do not describe their pthreads are all said to be anonymous. *)
Theorem C175_anonymous : forall ps outs, Forall noDescriptor ps -> Forall2 (fun p out => processSays p (fun _ s => s = lit "anonymous thread") out) ps outs ->
  exists n, forall fuel, (n <= fuel)%nat -> traceAll fuel ps NotDone = map (fun o => (o, Ok tt)) outs.
Proof.
  intros ps outs D F. destruct (all_say (fun st => st = NotDone \/ st = NotFound) (fun p _ s => s = lit "anonymous thread") ps outs F) as (n & E).
  - intros p Hp WL. rewrite Forall_forall in D. exact (head_none p WL (D p Hp)).
  - exists n. intros fuel Hn. apply E; [exact Hn|now left].
Qed.
Print Assumptions C175_anonymous.
(** Once decided, the offset is never looked at again. *)
Definition decided {A} (x : T A) : Prop := forall st, st <> NotDone -> snd (fst (x st)) = st.
Lemma dec_ret {A} (a : A) : decided (retT a). Proof. intros st _. reflexivity. Qed.
Lemma dec_lift {A} (r : res A) : decided (liftT r). Proof. intros st _. reflexivity. Qed.
Lemma dec_say x : decided (say x). Proof. intros st _. reflexivity. Qed.
Lemma dec_bind {A B} (x : T A) (f : A -> T B) : decided x -> (forall a, decided (f a)) -> decided (bindT x f).
Proof.
  intros Hx Hf st D. unfold bindT. specialize (Hx st D). destruct (x st) as ((o & s1) & [a| | |]); cbn [fst snd] in *; subst; try reflexivity.
  specialize (Hf a st D). destruct (f a st) as ((o2 & s2) & r). exact Hf.
Qed.
Ltac dec := repeat match goal with |- decided (bindT _ _) => apply dec_bind; [|intros ?] | |- decided (retT _) => apply dec_ret | |- decided (liftT _) => apply dec_lift | |- decided (say _) => apply dec_say end.
Lemma dec_thread p t : decided (printThread p t).
Proof.
  unfold printThread, readT. dec; [|destruct a3; dec]. destruct (a0 =? 0); dec. intros st D. destruct st; [now destruct D|reflexivity|reflexivity].
Qed.
Lemma dec_loop p : forall n seen t, decided (threadLoop n p seen t).
Proof.
  induction n as [|n IH]; intros seen t; cbn [threadLoop]; dec. destruct (t =? 0); dec; [apply dec_thread|]. destruct (existsb _ _); dec. destruct (_ >? 128); dec. apply IH.
Qed.
Lemma dec_interps p : forall n a, decided (interpLoop n p a).
Proof. induction n as [|n IH]; intros a; cbn [interpLoop]; dec. destruct (a =? 0); dec; [|apply IH]. unfold printInterp, readT. dec. apply dec_loop. Qed.
(** A process whose first thread belongs to a pthread *)
Definition firstPthread (p : pyproc) : Prop := exists a head t next f id n,
  readable (ppMem p) (ppHead p) 8 /\ field (ppMem p) (ppHead p) 8 a /\ a <> 0 /\ readable (ppMem p) a 24 /\ field (ppMem p) a 8 next /\ field (ppMem p) (a + 8) 8 head /\ head = t /\ threadState p t id f n /\ id <> 0.
Lemma first_decides p fuel : (2 < fuel)%nat -> wellLaid p -> noDescriptor p -> firstPthread p -> snd (fst (traceProc fuel p NotDone)) = NotFound.
Proof.
  intros Hn WL ND (a & head & t & next & f & id & n' & R0 & F0 & Ha & R & F1 & F2 & -> & TS & Hid). unfold traceProc. destruct (readT_image _ _ _ R0 ltac:(lia)) as (buf & -> & Im). unfold bindT at 1, retT.
  pose proof (fld_image _ _ _ buf 0 8%nat a Im) as G1. rewrite Z.add_0_r in G1. change (Z.of_nat 8) with 8 in G1. rewrite G1 by (assumption || lia). unfold bindT at 1, liftT. clear G1.
  destruct fuel as [|[|fuel]]; [lia|lia|].
  assert (U : interpLoop (S (S fuel)) p a = if a =? 0 then retT tt else q <~ printInterp (S fuel) p a; interpLoop (S fuel) p q) by reflexivity. rewrite U. replace (a =? 0) with false by lia.
  assert (X : snd (fst (printInterp (S fuel) p a NotDone)) = NotFound).
  { unfold printInterp. clear Im buf. destruct (readT_image _ _ _ R ltac:(lia)) as (buf & -> & Im). unfold bindT at 1, retT at 1.
    pose proof (fld_image _ _ _ buf 0 8%nat next Im) as G1. rewrite Z.add_0_r in G1. pose proof (fld_image _ _ _ buf 8 8%nat t Im F2 ltac:(lia) ltac:(lia)) as G2. change (Z.of_nat 8) with 8 in G1, G2. rewrite G1, G2 by (assumption || lia).
    unfold bindT at 1, liftT at 1. unfold bindT at 1, liftT at 1. unfold bindT at 1, say at 1. cbn [threadLoop]. pose proof TS as (T1 & _). replace (t =? 0) with false by lia. unfold bindT at 1. unfold bindT at 1. rewrite (thread_reads p t id f n' NotDone WL TS). replace (id =? 0) with false by lia.
    unfold bindT at 1. rewrite (offset_none p NotDone ND (or_introl eq_refl)). unfold bindT at 1, say at 1. unfold bindT at 1, say at 1. unfold bindT at 1, say at 1, retT at 1. 
    match goal with |- context [(if existsb ?q ?l then ?x else ?y) NotFound] => assert (D : decided (if existsb q l then x else y)) by (destruct (existsb q l); dec; destruct (_ >? 128); dec; apply dec_loop); specialize (D NotFound ltac:(discriminate)); destruct ((if existsb q l then x else y) NotFound) as ((o & s1) & [[]| | |]) end; cbn [fst snd] in *; subst; reflexivity. }
  unfold bindT. destruct (printInterp (S fuel) p a NotDone) as ((o & s1) & [q| | |]); cbn [fst snd] in X; subst; try reflexivity. pose proof (dec_interps p (S fuel) q NotFound ltac:(discriminate)) as D. remember (S fuel) as sf. destruct (interpLoop sf p q NotFound) as ((o2 & s2) & r). exact D.
Qed.
(** Refuted: after a process that does not describe its pthreads (a static executable, a C library without symbols), every thread of every process traced later is said to be anonymous,
    though those processes describe theirs. *)
Theorem C175_earlier_process_refuted : forall p1 out1 ps outs, noDescriptor p1 -> firstPthread p1 -> processSays p1 (fun _ s => s = lit "anonymous thread") out1 ->
  Forall2 (fun p out => processSays p (fun _ s => s = lit "anonymous thread") out) ps outs ->
  exists n, forall fuel, (n <= fuel)%nat -> traceAll fuel (p1 :: ps) NotDone = (out1, Ok tt) :: map (fun o => (o, Ok tt)) outs.
Proof.
  intros p1 out1 ps outs ND FP P F. pose proof P as (WL & _).
  destruct (process_says p1 (fun _ s => s = lit "anonymous thread") (fun st => st = NotDone \/ st = NotFound) WL (head_none p1 WL ND) out1 P) as (n1 & E1).
  destruct (all_say (fun st => st = NotFound) (fun p _ s => s = lit "anonymous thread") ps outs F) as (n2 & E2); [intros p Hp W; exact (head_lost p W)|].
  exists (3 + n1 + n2)%nat. intros fuel Hn. cbn [traceAll]. destruct (E1 fuel NotDone ltac:(lia) (or_introl eq_refl)) as (st' & _ & E). pose proof (first_decides p1 fuel ltac:(lia) WL ND FP) as D. rewrite E in *. cbn [fst snd] in D. subst. f_equal. apply E2; [lia|reflexivity].
Qed.
Print Assumptions C175_earlier_process_refuted.
(** Two threads, the second without a pthread; the pthread at 65536 holds 4242 at offset [k], the thread library says [said] *)
Definition C175_mem (said k : Z) : memory := region [(4096, w8 [8192]); (8192, w8 [0; 12288; 0]); (12288, w8 [16384; 77; 65536; 0]); (16384, w8 [0; 0; 0; 0]);
  (65536 + k, leBytes 4 4242); (1048592, leBytes 4 32 ++ leBytes 4 1 ++ leBytes 4 said)].
Definition C175_libs : sobjs := [(4096, (lit "/usr/bin/python3.9", Some (C128_obj [] []))); (1048576, (lit "/lib/libc.so.6", Some (C128_obj [] [(lit "_thread_db_pthread_tid", mkSymv 9 16)])))].
Definition C175_proc (libs : sobjs) (said k : Z) : pyproc := mkPP (C175_mem said k) libs 4096 32 16 8 0 (fun _ f => if f =? 0 then [] else lit "f in a.py:1" ++ [10]).
Definition C175_text (heading : string) : list Z := lit "---- interpreter @2000 -----" ++ [10] ++ lit heading ++ [10] ++ lit "f in a.py:1" ++ [10; 10] ++ lit "anonymous thread" ++ [10; 10].
Definition C175_noLibs : sobjs := [(4096, (lit "/usr/bin/python3.9", Some (C128_obj [] [])))].
Example C175_describes : describes (C175_proc C175_libs 720 720) 720.
Proof.
  exists 1048576, (lit "/lib/libc.so.6"), (C128_obj [] [(lit "_thread_db_pthread_tid", mkSymv 9 16)]), (mkSymv 9 16). split; [repeat constructor|]. split; [right; now left|]. split; [left; exists (lit "/lib/"), (lit "so.6"); reflexivity|].
  split; [apply (DfDebug _ _ _ _ (mkSymv 0 0)); try reflexivity; discriminate|]. split.
  { intros b n o [E|[E|[]]] L T; injection E as <- <- <-; [|cbn in L; lia]. exfalso. apply lib_iff in T. vm_compute in T. discriminate. }
  split; [lia|]. split; [cbn; lia|]. cbn [svValue ppMem C175_proc]. split; mem_solve.
Qed.
Lemma C175_more b s c v d v' : numeral b s v -> digitOf b c d -> v' = v * b + d -> numeral b (s ++ [c]) v'. Proof. intros H D ->. now apply NumMore. Qed.
Ltac dig := split; [lia|left; lia].
Example C175_says : processSays (C175_proc C175_libs 720 720) (headingIs (C175_proc C175_libs 720 720) 720) (C175_text "pthread: 0x10000, lwp 4242").
Proof.
  split; [unfold wellLaid; cbn; lia|]. exists 8192, [8192]. split; [mem_solve|]. split; [mem_solve|].
  refine (IsCons _ _ 8192 0 12288 (lit "2000") [12288; 16384] (lit "pthread: 0x10000, lwp 4242" ++ [10] ++ (lit "f in a.py:1" ++ [10]) ++ [10] ++ lit "anonymous thread" ++ [10] ++ [] ++ [10] ++ []) [] [] _ _ _ _ _ _ _ _).
  - lia.
  - mem_solve.
  - mem_solve.
  - mem_solve.
  - split; [|discriminate]. change (lit "2000") with ((([50] ++ [48]) ++ [48]) ++ [48]). apply (C175_more 16 _ _ 512 0); [|dig|reflexivity]. apply (C175_more 16 _ _ 32 0); [|dig|reflexivity]. apply (C175_more 16 _ _ 2 0); [|dig|reflexivity]. apply (NumOne 16 _ 2). dig.
  - refine (TsCons _ _ 12288 65536 77 16384 _ _ _ _ _ _).
    + split; [lia|]. cbn [ppMem ppSize ppIdOff ppFrameOff ppNextOff C175_proc]. mem_solve.
    + right. split; [lia|]. exists 4242, (lit "10000"), (lit "4242"). split; [unfold W64; lia|]. split; [lia|]. split; [mem_solve|]. split; [|split; [|reflexivity]].
      * split; [|discriminate]. change (lit "10000") with (((([49] ++ [48]) ++ [48]) ++ [48]) ++ [48]). apply (C175_more 16 _ _ 4096 0); [|dig|reflexivity]. apply (C175_more 16 _ _ 256 0); [|dig|reflexivity]. apply (C175_more 16 _ _ 16 0); [|dig|reflexivity]. apply (C175_more 16 _ _ 1 0); [|dig|reflexivity]. apply (NumOne 16 _ 1). dig.
      * left. split; [lia|]. split; [|discriminate]. change (lit "4242") with ((([52] ++ [50]) ++ [52]) ++ [50]).
        apply (C175_more 10 _ _ 424 2); [|dig|reflexivity]. apply (C175_more 10 _ _ 42 4); [|dig|reflexivity]. apply (C175_more 10 _ _ 4 2); [|dig|reflexivity]. apply (NumOne 10 _ 4). dig.
    + refine (TsCons _ _ 16384 0 0 0 _ [] [] _ _ _).
      * split; [lia|]. cbn [ppMem ppSize ppIdOff ppFrameOff ppNextOff C175_proc]. mem_solve.
      * now left.
      * constructor.
  - vm_compute. reflexivity.
  - constructor.
Qed.
Example C175_nonvacuous : traceAll 300 [C175_proc C175_libs 720 720; C175_proc C175_libs 720 720] NotDone = [(C175_text "pthread: 0x10000, lwp 4242", Ok tt); (C175_text "pthread: 0x10000, lwp 4242", Ok tt)].
Proof. vm_compute. reflexivity. Qed.
(** After a process without the descriptor, which is lost for the rest of the run *)
Example C175_earlier_process_case : noDescriptor (C175_proc C175_noLibs 720 720) /\ firstPthread (C175_proc C175_noLibs 720 720) /\
  traceAll 300 [C175_proc C175_noLibs 720 720; C175_proc C175_libs 720 720] NotDone = [(C175_text "anonymous thread", Ok tt); (C175_text "anonymous thread", Ok tt)].
Proof.
  split; [|split; [|vm_compute; reflexivity]].
  - intros b n o [E|[]]. injection E as <- <- <-. intros T. apply lib_iff in T. vm_compute in T. discriminate.
  - exists 8192, 12288, 12288, 0, 77, 65536, 16384. cbn [ppMem ppHead C175_proc]. do 2 (split; [mem_solve|]). split; [lia|]. do 3 (split; [mem_solve|]). split; [reflexivity|]. split; [|lia].
    split; [lia|]. cbn [ppMem ppSize ppIdOff ppFrameOff ppNextOff C175_proc]. mem_solve.
Qed.
(** Refuted: a process whose C library is another release than that of the process traced before it has its thread ids read from the wrong place: here that is not readable, and the rest of its trace is lost;
    traced alone it is complete. *)
Theorem C175_other_library_refuted :
  traceAll 300 [C175_proc C175_libs 1000 1000] NotDone = [(C175_text "pthread: 0x10000, lwp 4242", Ok tt)] /\
  traceAll 300 [C175_proc C175_libs 720 720; C175_proc C175_libs 1000 1000] NotDone =
    [(C175_text "pthread: 0x10000, lwp 4242", Ok tt); (lit "---- interpreter @2000 -----" ++ [10], Throw)].
Proof. split; vm_compute; reflexivity. Qed.
Print Assumptions C175_other_library_refuted.
(** Refuted: one thread whose pthread is not readable ends the trace of its process: neither its own frames nor the other threads are shown. *)
Theorem C175_unreadable_refuted : forall p k t id f next st, 0 <= k -> wellLaid p -> describes p k -> good k st -> threadState p t id f next -> id <> 0 -> memread (ppMem p) (u64 (id + k)) 4 = None ->
  forall n seen, threadLoop (S n) p seen t st = ([], Found k, Throw).
Proof.
  intros p k t id f next st Hk WL D G TS Hid M n seen. cbn [threadLoop]. pose proof TS as (T1 & _). replace (t =? 0) with false by lia. unfold bindT at 1. rewrite (thread_reads p t id f next st WL TS). replace (id =? 0) with false by lia.
  unfold bindT at 1. rewrite (offset_known p k st D G). unfold bindT at 1 2, readT. change (Z.to_nat 4) with 4%nat. rewrite M. reflexivity.
Qed.
Print Assumptions C175_unreadable_refuted.
Example C175_unreadable_case : memread (ppMem (C175_proc C175_libs 720 1000)) (u64 (65536 + 720)) 4 = None /\ describes (C175_proc C175_libs 720 720) 720.
Proof. split; [vm_compute; reflexivity|exact C175_describes]. Qed.
