(** Theorems that pin down texts, patterns and counters which the theorems of the other files leave open (found by editing the model,
    see seeded/LOG.jsonl). *)
From Coq Require Import Ascii String.
From Verif Require Import Base Leb DwarfReader DwarfReaderProofs MapsSpec CfiSpec Args ArgsSpec ArgsProofs FrameTextSpec FrameText Props_Frame2 Heap HeapSpec HeapProofs.
Open Scope Z_scope.

(** ** C91, C95: values that cannot be shown *)
Section P.
Context (m : memory) (str : Z -> res (list Z)) (types : Z -> option tdie) (dt ft : list Z -> list Z) (what : list Z).
(** A structure, union, array, enumeration ... at a nonzero address: its type is named. *)
Theorem C91_other_types_named : forall name t k d a isv c, strips types t k -> types k = Some d -> a <> 0 -> ~ In (tTag d) [36; 15; 16] ->
  exists n, forall fuel, (n <= fuel)%nat ->
  valueText m str types dt ft what fuel (mkParam name (Some t) (Some (Ok (a, isv))) c) = (lit "=<unprintable type " ++ tName d ++ lit ">", Ok tt).
Proof.
  intros name t k d a isv c Hs Ek Na Ht. destruct (strips_remove _ _ _ Hs) as [n1 R]. exists (n1 + 1)%nat. intros fuel Hf. unfold valueText. cbn [pType pLoc]. rewrite R by lia.
  destruct fuel as [|f]; [lia|]. cbn [rvText]. rewrite Ek. replace (a =? 0) with false by lia. cbn [In] in Ht.
  replace (tTag d =? 36) with false by lia. replace (tTag d =? 16) with false by lia. replace (tTag d =? 15) with false by lia. reflexivity.
Qed.
(** A number of an encoding (complex, decimal float, ...) or a size that is not handled. *)
Theorem C91_other_encodings : forall name t k d n enc a c bs, strips types t k -> types k = Some d -> tTag d = 36 -> a <> 0 -> tEnc d = Some enc -> tSize d = Some n ->
  holds m a bs -> zlen bs = n ->
  (~ In enc [1; 2; 4; 5; 6; 7; 8] \/ In enc [5; 6; 7; 8] /\ ~ In n [1; 2; 4; 8]) ->
  exists N, forall fuel, (N <= fuel)%nat ->
  valueText m str types dt ft what fuel (mkParam name (Some t) (Some (Ok (a, false))) c) = (lit "=<unknown value type>", Ok tt).
Proof.
  intros name t k d n enc a c bs Hs Ek T Na En Sz Hm Hl C. destruct (strips_remove _ _ _ Hs) as [n1 R]. exists (n1 + 1)%nat. intros fuel Hf. unfold valueText. cbn [pType pLoc]. rewrite R by lia.
  destruct fuel as [|f]; [lia|]. cbn [rvText]. rewrite Ek. replace (a =? 0) with false by lia. rewrite T. change (36 =? 36) with true. cbv iota.
  assert (Lb : zlen (rvBuf m a false d) = n).
  { unfold rvBuf. rewrite Sz. cbv zeta. unfold zlen. rewrite app_length, repeat_length. assert (L : (length (prefix m a (Z.to_nat n)) <= Z.to_nat n)%nat).
    { clear. revert a. induction (Z.to_nat n) as [|q IH]; intros a; cbn [prefix]; [cbn; lia|]. destruct (m a); cbn [length]; [|lia]. specialize (IH (a + 1)). lia. }
    pose proof (zlen_nonneg bs). lia. }
  unfold baseText. rewrite En. cbn [In] in C. destruct C as [C|[C1 C2]].
  - replace (enc =? 1) with false by lia. replace (enc =? 2) with false by lia. replace (enc =? 5) with false by lia. replace (enc =? 6) with false by lia. replace (enc =? 7) with false by lia. replace (enc =? 8) with false by lia. replace (enc =? 4) with false by lia. reflexivity.
  - replace (enc =? 1) with false by lia. replace (enc =? 2) with false by lia. rewrite Lb. cbn [In] in C2. replace (n =? 1) with false by lia. replace (n =? 2) with false by lia. replace (n =? 4) with false by lia. replace (n =? 8) with false by lia. cbn [orb].
    destruct C1 as [<-|[<-|[<-|[<-|[]]]]]; reflexivity.
Qed.
(** An exception while a value is printed appears after what had been printed, in angle brackets. *)
Theorem C95_failure_shown : forall fuel name t a isv c k s, removeCV types fuel (Some t) = Ok k -> rvText m str types dt ft fuel a isv k = (s, Throw) ->
  valueText m str types dt ft what fuel (mkParam name (Some t) (Some (Ok (a, isv))) c) = (lit "=" ++ s ++ lit "<" ++ what ++ lit ">", Ok tt).
Proof. intros fuel name t a isv c k s R E. unfold valueText. cbn [pType pLoc]. rewrite R, E. reflexivity. Qed.
(** e.g. a pointer to char whose string cannot be read *)
Theorem C95_string_failure_shown : forall name t k d t' k' d' p ps a c, strips types t k -> types k = Some d -> isPtr (tTag d) -> tSize d = Some 8 -> tRef d = Some t' ->
  strips types t' k' -> types k' = Some d' -> tName d' = lit "char" -> a <> 0 -> 0 <= p < 2 ^ 64 -> holds m a (leBytes 8 p) -> pointer ps p -> str p = Throw ->
  exists N, forall fuel, (N <= fuel)%nat ->
  valueText m str types dt ft what fuel (mkParam name (Some t) (Some (Ok (a, false))) c) = (lit "=" ++ ps ++ lit "<" ++ what ++ lit ">", Ok tt).
Proof.
  intros name t k d t' k' d' p ps a c Hs Ek T S R0 Hs' Ek' N' Na P Hm Hp St. destruct (strips_remove _ _ _ Hs) as [n1 R]. destruct (strips_remove _ _ _ Hs') as [n2 R']. exists (n1 + n2 + 2)%nat. intros fuel Hf.
  apply (C95_failure_shown fuel name t a false c (Some k) ps); [apply R; lia|]. destruct fuel as [|f]; [lia|].
  rewrite (rv_ptr m str types dt ft f a k d p Na Ek T S P Hm). rewrite R0. rewrite R' by lia. rewrite Ek'. rewrite N'.
  destruct (list_eq_dec Z.eq_dec (lit "char") charTxt) as [_|X]; [|now elim X]. rewrite St. unfold andThen, emit. cbn [fst snd]. rewrite app_nil_r. f_equal. now apply ptrText_ptr.
Qed.
End P.
Print Assumptions C91_other_types_named.
Print Assumptions C91_other_encodings.
Print Assumptions C95_failure_shown.
Print Assumptions C95_string_failure_shown.
(** A structure [s], a complex number of 16 bytes, a pointer to char whose target is missing. *)
Definition C91b_types (k : Z) : option tdie :=
  nth_error [mkT 19 (lit "s") (Some 24) None None; mkT 36 (lit "complex") (Some 16) (Some 3) None; mkT 15 [] (Some 8) None (Some 3); mkT 36 (lit "char") (Some 1) (Some 6) None] (Z.to_nat k).
Definition C91b_show (t : Z) : wr :=
  valueText (fun a => znth (a - 4096) (leBytes 8 4104 ++ repeat 7 8)) (fun _ => Throw) C91b_types (fun _ => []) (fun _ => []) (lit "IO error") 5 (mkParam [120] (Some t) (Some (Ok (4096, false))) None).
Example C91_other_nonvacuous : C91b_show 0 = (lit "=<unprintable type s>", Ok tt) /\ C91b_show 1 = (lit "=<unknown value type>", Ok tt) /\ C91b_show 2 = (lit "=0x1008<IO error>", Ok tt) /\
  strips C91b_types 0 0 /\ strips C91b_types 2 2 /\ pointer (lit "0x1008") 4104.
Proof.
  split; [vm_compute; reflexivity|]. split; [vm_compute; reflexivity|]. split; [vm_compute; reflexivity|]. split; [|split].
  - eapply stEnd; [reflexivity|]. intros [X|[X|X]]; discriminate.
  - eapply stEnd; [reflexivity|]. intros [X|[X|X]]; discriminate.
  - right. split; [lia|]. exists [49; 48; 48; 56]. split; [reflexivity|]. split; [|discriminate]. change 4104 with (((1 * 16 + 0) * 16 + 0) * 16 + 8).
    change [49; 48; 48; 56] with ((([49] ++ [48]) ++ [48]) ++ [56]). do 3 (apply NumMore; [|split; [lia|left; lia]]). apply NumOne. split; [lia|left; lia].
Qed.

(** ** C122: the line of a thread *)
(** What is said of a thread: its pthread (handle and kind) if known, its kernel id, its name if known. *)
Inductive ThreadLine : lwpHead -> list Z -> Prop :=
| TLine th id name tht idt : decimal idt id ->
    (match th with None => tht = [] | Some (h, kind) => exists ht, 0 <= h < 2 ^ 64 /\ pointer ht h /\ tht = lit "thread: " ++ ht ++ lit ", type: " ++ kind ++ lit ", " end) ->
    - 2 ^ 31 <= id < 2 ^ 31 ->
    ThreadLine (mkLwp th id name) (tht ++ lit "lwp: " ++ idt ++ (match name with Some n => lit ", name: " ++ n | None => [] end) ++ [10]).
Theorem C122_thread_line : forall o h fs ts hd, ThreadLine h hd ->
  Forall2 (fun x t => dumpFrame o (Z.of_nat (fst x)) (snd x) = (t, Ok tt)) (combine (seq 0 (List.length fs)) fs) ts ->
  dumpStack o h fs = (hd ++ List.concat ts, Ok tt).
Proof.
  intros o h fs ts hd T F. rewrite (C122_numbering o h fs ts F). f_equal. f_equal. destruct T as [th id name tht idt Hi Hth R]. unfold stackHead. cbn [lwThread lwId lwName].
  rewrite (intText_dec idt id) by (assumption || lia). destruct th as [[hh kind]|]; [|now subst tht]. destruct Hth as (ht & Rh & Hp & ->). rewrite (ptrText_ptr ht hh Rh Hp). reflexivity.
Qed.
Print Assumptions C122_thread_line.
Example C122_thread_nonvacuous : ThreadLine (mkLwp (Some (4104, lit "user")) 42 (Some (lit "w"))) (lit "thread: 0x1008, type: user, lwp: 42, name: w" ++ [10]).
Proof.
  change (lit "thread: 0x1008, type: user, lwp: 42, name: w" ++ [10]) with ((lit "thread: " ++ lit "0x1008" ++ lit ", type: " ++ lit "user" ++ lit ", ") ++ lit "lwp: " ++ lit "42" ++ (lit ", name: " ++ lit "w") ++ [10]).
  apply (TLine (Some (4104, lit "user")) 42 (Some (lit "w"))); [|exists (lit "0x1008"); split; [lia|split; [apply C91_other_nonvacuous|reflexivity]]|lia].
  left. split; [lia|]. split; [|discriminate]. change 42 with (4 * 10 + 2). change (lit "42") with ([52] ++ [50]). apply NumMore; [|split; [lia|left; lia]]. apply NumOne. split; [lia|left; lia].
Qed.

(** ** C45: the bytes around a block *)
(** For the whole life of a block its guard bytes are 165 (0xa5); in quarantine they are 90 (0x5a). *)
Theorem C45_guard_bytes : forall hr max es p m0 level bt mb s, okRun hr max spInit es p -> hrun hr (hinit m0 (Z.of_nat max) level false bt mb 0) es = Ok s ->
  (forall b, In b (spLive p) -> get (hMem s) (bPtr b - 8) 4 = [165; 165; 165; 165] /\ get (hMem s) (bPtr b + bSize b) 4 = [165; 165; 165; 165]) /\
  (forall b, In b (held max (spFreed p)) -> get (hMem s) (bPtr b - 8) 4 = [90; 90; 90; 90] /\ get (hMem s) (bPtr b + bSize b) 4 = [90; 90; 90; 90]).
Proof.
  intros hr max es p m0 level bt mb s R E. destruct (run_ok hr max es _ _ _ (inv_init hr max m0 level bt mb) R) as (s' & E' & I). rewrite E in E'. injection E' as <-. split; intros b Hb.
  - destruct (inv_mem hr max s p b I Hb) as (id & ser & (_ & _ & _ & A1 & A2) & _). split; assumption.
  - destruct I. apply in_rev in Hb. apply in_split in Hb. destruct Hb as (l1 & l2 & El). rewrite El in iFree. destruct (Forall2_mid _ _ _ _ _ iFree) as (h1 & id & h2 & _ & _ & (_ & _ & _ & A1 & A2) & _). split; assumption.
Qed.
Print Assumptions C45_guard_bytes.

(** ** C71: the counters after any correct history *)
Definition cnt5 (s : hst) := (hMallocs s, hFrees s, hCallocs s, hReallocs s, hAligned s).
Definition plus5 (s : hst) (m f c r : Z) := (u32 (hMallocs s + m), u32 (hFrees s + f), u32 (hCallocs s + c), u32 (hReallocs s + r), hAligned s).
Lemma build_cnt s b g z d s' : buildAlloc s b g z d = Ok s' -> cnt5 s' = cnt5 s.
Proof.
  unfold buildAlloc. destruct (match hPool s with [] => _ | _ => _ end) as (id & pool). destruct (id =? 0); [discriminate|]. destruct (g =? 0); [discriminate|].
  destruct (_ && _); [discriminate|]. intros [= <-]. reflexivity.
Qed.
Lemma malloc_cnt s z r d s' p : malloc s z r d = Ok (s', p) -> cnt5 s' = plus5 s 1 0 0 0.
Proof. unfold malloc. destruct (useHdmp s); cbn [bind]; try discriminate. destruct (buildAlloc _ _ _ _ _) as [t| | |] eqn:E; cbn [bind]; try discriminate. intros [= <- _]. rewrite (build_cnt _ _ _ _ _ _ E). reflexivity. Qed.
Lemma free_cnt hr s p s' : free hr s p = Ok s' -> cnt5 s' = if p =? 0 then cnt5 s else (hMallocs s, u32 (hFrees s + 1), hCallocs s, hReallocs s, hAligned s).
Proof.
  unfold free. destruct (p =? 0); [intros [= <-]; reflexivity|]. destruct (useHdmp s); cbn [bind]; try discriminate. unfold withDesc at 1. destruct (hDescs s _) as [dd|]; [|discriminate].
  destruct (getState _ _); cbn [bind]; try discriminate. destruct (negb _); [discriminate|]. destruct (negb _); [discriminate|]. cbv zeta. destruct (hSize s =? hMax s).
  - unfold freeDesc. unfold withDesc. cbn [hDescs]. destruct (hDescs s _); [|discriminate]. destruct (sanityFree _ _ _); cbn [bind]; try discriminate. intros [= <-]. reflexivity.
  - intros [= <-]. reflexivity.
Qed.
Lemma u32_u32 a b : u32 (u32 a + b) = u32 (a + b).
Proof. unfold u32. apply Z.add_mod_idemp_l. unfold W32. lia. Qed.
Lemma live_id hr max s p b c : inv hr max s p -> In b (spLive p) -> In c (spLive p) -> bPtr c = bPtr b -> bSize c = bSize b.
Proof.
  intros I Hb Hc Ec. destruct (inv_mem hr max s p b I Hb) as (id & ser & Hl & Ed). destruct (inv_mem hr max s p c I Hc) as (id' & ser' & Hl' & Ed').
  pose proof (linked_ptr _ _ _ _ _ Hl) as P1. pose proof (linked_ptr _ _ _ _ _ Hl') as P2. rewrite Ec, P1 in P2. subst id'. rewrite Ed in Ed'. now injection Ed'.
Qed.
(** Blocks obtained so far. *)
Definition obtained (p : sp) : Z := zlen (spLive p) + zlen (spFreed p).
Definition isAligned (e : hev) : Z := match e with EAligned _ _ _ _ => 1 | _ => 0 end.
Definition isCalloc (e : hev) : Z := match e with ECalloc _ _ _ _ => 1 | _ => 0 end.
Definition isRealloc (e : hev) : Z := match e with ERealloc _ _ _ _ => 1 | _ => 0 end.
Definition sumOf (f : hev -> Z) (es : list hev) : Z := fold_right (fun e n => f e + n) 0 es.
Definition cntIs (s : hst) (m f c r : Z) : Prop := cnt5 s = (u32 m, u32 f, u32 c, u32 r, 0).
Lemma cnt_plus s s' m f c r a b d e : cntIs s m f c r -> cnt5 s' = plus5 s a b d e -> cntIs s' (m + a) (f + b) (c + d) (r + e).
Proof. unfold cntIs, cnt5, plus5. intros [= -> -> -> -> ->] E. rewrite !u32_u32 in E. exact E. Qed.
Ltac cntEq X := match goal with |- cntIs _ ?a ?b ?c ?d => match type of X with cntIs _ ?a' ?b' ?c' ?d' => replace a with a' by lia; replace b with b' by lia; replace c with c' by lia; replace d with d' by lia end end; exact X.
Lemma step_cnt hr max s p e r p' s' m f c q : inv hr max s p -> okEv hr max p e r p' -> hstep hr s e = Ok (s', r) -> cntIs s m f c q ->
  cntIs s' (m + (obtained p' - obtained p - isAligned e)) (f + (zlen (spFreed p') - zlen (spFreed p))) (c + isCalloc e + isAligned e) (q + isRealloc e).
Proof.
  intros I Ev E C. assert (Free : forall t t' b m f c q, bPtr b <> 0 -> free hr t (bPtr b) = Ok t' -> cntIs t m f c q -> cntIs t' m (f + 1) c q).
  { clear. intros t t' b m f c q N E C. apply free_cnt in E. replace (bPtr b =? 0) with false in E by lia. unfold cntIs in *. rewrite E. unfold cnt5 in C. injection C as -> -> -> -> ->. now rewrite u32_u32. }
  assert (N0 : forall b, In b (spLive p) -> bPtr b <> 0) by (intros b Hb; pose proof (inv_layout hr max s p b I ltac:(apply in_or_app; now left)) as (L1 & L2 & L3 & L4); lia).
  destruct Ev as [p z rr d Hz F D S|p al z rr d Ha Hz F D S|p n z rr d Hz F D S|p|p l1 b l2 El|p z rr d Hz F D S|p b z rr d Hb Hs|p l1 b l2 z rr d El Hs F D S|p b a v Hb Hr];
    unfold isAligned, isCalloc, isRealloc, obtained; cbn [hstep addBlock spLive spFreed] in *.
  - pose proof (cnt_plus _ _ _ _ _ _ 1 0 0 0 C (malloc_cnt _ _ _ _ _ _ E)) as X. rewrite zlen_cons. cntEq X.
  - unfold alignedAlloc in E. destruct (useHdmp s); cbn [bind] in E; try discriminate. destruct (al =? 0); [discriminate|]. destruct (buildAlloc _ _ _ _ _) as [t| | |] eqn:B; cbn [bind] in E; try discriminate.
    injection E as <- _. pose proof (cnt_plus _ t _ _ _ _ 0 0 1 0 C ltac:(rewrite (build_cnt _ _ _ _ _ _ B); reflexivity)) as X. rewrite zlen_cons. cntEq X.
  - unfold calloc in E. destruct (useHdmp s); cbn [bind] in E; try discriminate. destruct (malloc _ _ _ _) as [[t pp]| | |] eqn:B; cbn [bind] in E; try discriminate.
    injection E as <- _. pose proof (cnt_plus s (counts s 0 0 1 0) _ _ _ _ 0 0 1 0 C eq_refl) as X. pose proof (cnt_plus _ t _ _ _ _ 1 0 0 0 X (malloc_cnt _ _ _ _ _ _ B)) as Y. rewrite zlen_cons.
    change (cntIs t (m + (zlen (spLive p) + 1 + zlen (spFreed p) - (zlen (spLive p) + zlen (spFreed p)) - 0)) (f + (zlen (spFreed p) - zlen (spFreed p))) (c + 1 + 0) (q + 0)). cntEq Y.
  - injection E as <-. cntEq C.
  - destruct (free hr s (bPtr b)) as [t| | |] eqn:B; cbn [bind] in E; try discriminate. injection E as <-. pose proof (Free _ _ b _ _ _ _ ltac:(apply N0; rewrite El; apply in_or_app; right; now left) B C) as X.
    rewrite El, ?zlen_cons, !zlen_app, !zlen_cons. change (zlen (@nil blk)) with 0. cntEq X.
  - unfold realloc in E. destruct (useHdmp s); cbn [bind] in E; try discriminate. rewrite Z.eqb_refl in E. pose proof (cnt_plus s (counts s 0 0 0 1) _ _ _ _ 0 0 0 1 C eq_refl) as X.
    pose proof (cnt_plus _ _ _ _ _ _ 1 0 0 0 X (malloc_cnt _ _ _ _ _ _ E)) as Y. rewrite zlen_cons. cntEq Y.
  - destruct (inv_mem hr max s p b I Hb) as (id & ser & Hl & Ed). unfold realloc in E. destruct (useHdmp s); cbn [bind] in E; try discriminate. replace (bPtr b =? 0) with false in E by (specialize (N0 b Hb); lia).
    unfold withDesc in E. cbn [counts hMem hDescs] in E. rewrite (linked_ptr _ _ _ _ _ Hl), Ed in E. cbn [dLen] in E. replace (bSize b >=? z) with true in E by lia. injection E as <-.
    pose proof (cnt_plus s (counts s 0 0 0 1) _ _ _ _ 0 0 0 1 C eq_refl) as X. cntEq X.
  - assert (Hb : In b (spLive p)) by (rewrite El; apply in_or_app; right; now left). destruct (inv_mem hr max s p b I Hb) as (id & ser & Hl & Ed). unfold realloc in E. destruct (useHdmp s); cbn [bind] in E; try discriminate. replace (bPtr b =? 0) with false in E by (specialize (N0 b Hb); lia).
    unfold withDesc at 1 in E. cbn [counts hMem hDescs] in E. rewrite (linked_ptr _ _ _ _ _ Hl), Ed in E. cbn [dLen] in E. replace (bSize b >=? z) with false in E by lia.
    pose proof (cnt_plus s (counts s 0 0 0 1) _ _ _ _ 0 0 0 1 C eq_refl) as X.
    match type of E with bind (malloc ?x _ _ _) _ = _ => change x with (counts s 0 0 0 1) in E end.
    destruct (malloc _ _ _ _) as [[t pp]| | |] eqn:B; cbn [bind] in E; try discriminate. pose proof (cnt_plus _ t _ _ _ _ 1 0 0 0 X (malloc_cnt _ _ _ _ _ _ B)) as Y.
    unfold withDesc at 1 in E. destruct (hDescs t _) as [dd|]; [|discriminate]. destruct (free hr _ (bPtr b)) as [u| | |] eqn:B2; cbn [bind] in E; try discriminate. injection E as <- _.
    eapply (Free _ _ b) in B2; [|apply N0; exact Hb|exact Y]. rewrite El, ?zlen_cons, !zlen_app, !zlen_cons. change (zlen (@nil blk)) with 0. cntEq B2.
  - injection E as <-. cntEq C.
Qed.
Lemma run_cnt hr max : forall es p t s s' m f c q, inv hr max s p -> okRun hr max p es t -> hrun hr s es = Ok s' -> cntIs s m f c q ->
  cntIs s' (m + (obtained t - obtained p - sumOf isAligned es)) (f + (zlen (spFreed t) - zlen (spFreed p))) (c + sumOf isCalloc es + sumOf isAligned es) (q + sumOf isRealloc es).
Proof.
  induction es as [|e es IH]; intros p t s s' m f c q I R E C; inversion R as [|? ? ? p1 ? ? Ev R']; subst.
  - injection E as <-. unfold sumOf. cbn [fold_right]. cntEq C.
  - cbn [hrun] in E. destruct (step_ok hr max s p e _ p1 I Ev) as (s1 & Es & I1 & _). rewrite Es in E. cbn [bind] in E. pose proof (IH _ _ _ _ _ _ _ _ I1 R' E (step_cnt hr max s p e _ p1 s1 _ _ _ _ I Ev Es C)) as X.
    unfold sumOf in *. cbn [fold_right]. cntEq X.
Qed.
(** After any correct history [es] from which the blocks [p] result: reallocs counts the calls of realloc, callocs those of calloc and
    of the aligned allocators, frees the blocks released (by free or by realloc), mallocs the blocks obtained other than aligned ones;
    all modulo 2^32. *)
Theorem C71_history_partial : forall hr max es p m0 level bt mb s, okRun hr max spInit es p -> hrun hr (hinit m0 (Z.of_nat max) level false bt mb 0) es = Ok s ->
  hMallocs s = (zlen (spLive p) + zlen (spFreed p) - sumOf isAligned es) mod 2 ^ 32 /\
  hFrees s = zlen (spFreed p) mod 2 ^ 32 /\
  hCallocs s = (sumOf isCalloc es + sumOf isAligned es) mod 2 ^ 32 /\
  hReallocs s = sumOf isRealloc es mod 2 ^ 32 /\ hAligned s = 0.
Proof.
  intros hr max es p m0 level bt mb s R E. pose proof (run_cnt hr max es _ _ _ _ 0 0 0 0 (inv_init hr max m0 level bt mb) R E eq_refl) as X. unfold cntIs, cnt5 in X. injection X as -> -> -> -> ->.
  unfold u32, obtained. cbn [spInit spLive spFreed]. change (zlen (@nil blk)) with 0. change (2 ^ 32) with W32. repeat split; f_equal; lia.
Qed.
Print Assumptions C71_history_partial.
(** Refuted: calloc and realloc are counted as malloc too, and realloc as free: calloc, then realloc of the block to a larger size. *)
Theorem C71_double_counts_refuted : match hrun (fun _ => false) (hinit (fun _ => 0) 4 0 false 100 10 0) [ECalloc 2 5 1000 500; ERealloc 1016 30 2000 501] with
  | Ok s => (hMallocs s, hFrees s, hCallocs s, hReallocs s) = (2, 1, 1, 1) | _ => False end.
Proof. vm_compute. reflexivity. Qed.
Print Assumptions C71_double_counts_refuted.
Example C71_history_case : okRun (fun _ => false) 4 spInit [ECalloc 2 5 1000 500; ERealloc 1016 30 2000 501] (mkSp [mallocBlk 30 2000] [mallocBlk 10 1000] 40 [501; 500]).
Proof.
  change 1016 with (bPtr (mallocBlk 10 1000)).
  eapply RunCons; [apply OkCalloc; try lia; [|split; [unfold W64; lia|intros []]|vm_compute; reflexivity]|].
  - split; [cbn; lia|]. split; [unfold W64; cbn; lia|]. split; [reflexivity|]. intros ? [].
  - eapply RunCons; [eapply (OkReallocMoves _ 4 _ [] (mallocBlk 10 1000) []); try reflexivity; [|split; [unfold W64; lia|]]|apply RunNil].
    + split; [cbn; lia|]. split; [unfold W64; cbn; lia|]. split; [reflexivity|]. intros x [<-|[]]. right. cbn. lia.
    + cbn. lia.
Qed.

(** ** C73: what decides whether the first call is handled by the debugging allocator is that the level is not 0. *)
Theorem C73_level_nonzero : forall level, level <> 0 -> snd (useHdmpStart 2 level) = true.
Proof. intros level H. unfold useHdmpStart. cbn [Z.eqb snd Pos.eqb]. replace (level =? 0) with false by lia. reflexivity. Qed.
Print Assumptions C73_level_nonzero.
