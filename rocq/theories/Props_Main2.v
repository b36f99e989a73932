(** C128-C131: symbols of a process by name, the texts of signals and wait statuses. *)
From Coq Require Import Ascii String Sorted.
From Verif Require Import Base MapsSpec DwarfReaderProofs CfiSpec CfiProofs Json Args ArgsSpec ArgsProofs PythonProofs FrameText FrameTextSpec Main MainSpec.

(** ** C128: symbols by name *)
(** An object defines a symbol: its dynamic symbol table does, or, if that is wanted, its debugging symbol table. *)
Inductive Defines (debug : bool) (ob : sobj) (name : list Z) (y : symv) : Prop :=
| DfDyn : soDyn ob name = Ok y -> svShndx y <> 0 -> Defines debug ob name y
| DfDebug z : soDyn ob name = Ok z -> svShndx z = 0 -> debug = true -> soDebug ob name = Ok y -> svShndx y <> 0 -> Defines debug ob name y.
Definition Lacks (debug : bool) (ob : sobj) (name : list Z) : Prop :=
  (exists z, soDyn ob name = Ok z /\ svShndx z = 0) /\ (debug = true -> exists z, soDebug ob name = Ok z /\ svShndx z = 0).
Definition byAddress (l : sobjs) : Prop := StronglySorted (fun a b => fst a < fst b) l.
Lemma resolve_at name debug accept l base n ob y : byAddress l -> In (base, (n, Some ob)) l -> accept n = true -> Defines debug ob name y ->
  (forall b n' o', In (b, (n', Some o')) l -> b < base -> accept n' = true -> Lacks debug o' name) -> resolveDetail name debug accept l = Ok (base, y).
Proof.
  intros St. revert base n ob y. induction St as [|[b [n1 x]] l St IH F]; intros base n ob y Hin Ha D L; [destruct Hin|].
  cbn [resolveDetail]. destruct Hin as [E|Hin].
  - inversion E; subst. rewrite Ha. cbn [negb]. destruct D as [D1 D2|z D1 D2 Hd D3 D4]; rewrite D1; cbn [bind].
    + now replace (svShndx y =? 0) with false by lia.
    + rewrite D2, Hd, D3. cbn [Z.eqb negb bind]. now replace (svShndx y =? 0) with false by lia.
  - rewrite Forall_forall in F. pose proof (F _ Hin) as Hlt. cbn [fst] in Hlt.
    assert (R : resolveDetail name debug accept l = Ok (base, y)).
    { apply (IH base n ob y Hin Ha D). intros b' n' o' Hb. apply (L b' n' o'). now right. }
    destruct (accept n1) eqn:A1; cbn [negb]; [|exact R]. destruct x as [o1|]; [|exact R].
    destruct (L b n1 o1 (or_introl eq_refl) Hlt A1) as ((z & Z1 & Z2) & Zd). rewrite Z1. cbn [bind]. rewrite Z2. cbn [Z.eqb negb].
    destruct debug; [|exact R]. destruct (Zd eq_refl) as (z' & Z3 & Z4). rewrite Z3. cbn [bind]. rewrite Z4. exact R.
Qed.
(** The address of a symbol is the load address of the first object, in the order of addresses, among those accepted that define it, plus the symbol's value there;
    if none defines it, it is an error.  Partial: the value of an absolute symbol is no offset from the load address, see
    [C128_absolute_refuted]. *)
Theorem C128_resolve_partial : forall name (debug : bool) accept l base n ob y,
  byAddress l -> In (base, (n, Some ob)) l -> accept n = true -> Defines debug ob name y ->
  (forall b n' o', In (b, (n', Some o')) l -> b < base -> accept n' = true -> Lacks debug o' name) ->
  0 <= base -> 0 <= svValue y -> base + svValue y < W64 ->
  resolveSym name debug accept l = Ok (base + svValue y).
Proof.
  intros name debug accept l base n ob y St Hin Ha D L H1 H2 H3. unfold resolveSym. rewrite (resolve_at name debug accept l base n ob y St Hin Ha D L). cbn [bind].
  rewrite u64_id by (unfold isU64; lia). reflexivity.
Qed.
Print Assumptions C128_resolve_partial.
(** Nothing else is answered: an answer comes from an accepted object that defines the symbol. *)
Theorem C128_resolve_sound : forall name (debug : bool) accept l a, resolveSym name debug accept l = Ok a ->
  exists base n ob y, In (base, (n, Some ob)) l /\ accept n = true /\ Defines debug ob name y /\ a = (base + svValue y) mod W64.
Proof.
  intros name debug accept l a H. unfold resolveSym in H. destruct (resolveDetail name debug accept l) as [[base y]| | |] eqn:E; cbn [bind] in H; inversion H; subst. clear H.
  induction l as [|[b [n x]] l IH]; [discriminate E|]. cbn [resolveDetail] in E.
  assert (R : resolveDetail name debug accept l = Ok (base, y) -> exists base0 n0 ob y0, In (base0, (n0, Some ob)) ((b, (n, x)) :: l) /\ accept n0 = true /\ Defines debug ob name y0 /\ u64 (base + svValue y) = (base0 + svValue y0) mod W64).
  { intros R. destruct (IH R) as (b0 & n0 & ob & y0 & I & K). exists b0, n0, ob, y0. split; [now right|exact K]. }
  destruct (accept n) eqn:A1; cbn [negb] in E; [|now apply R]. destruct x as [o1|]; [|now apply R].
  destruct (soDyn o1 name) as [z| | |] eqn:Dz; cbn [bind] in E; try discriminate. destruct (svShndx z =? 0) eqn:Sz; cbn [negb] in E.
  - destruct debug eqn:Hd; [|now apply R]. destruct (soDebug o1 name) as [z'| | |] eqn:Dz'; cbn [bind] in E; try discriminate. destruct (svShndx z' =? 0) eqn:Sz'; cbn [negb] in E; [now apply R|].
    inversion E; subst. exists base, n, o1, y. split; [now left|]. split; [exact A1|]. split; [|reflexivity]. apply (DfDebug _ _ _ _ z); try assumption; lia.
  - inversion E; subst. exists base, n, o1, y. split; [now left|]. split; [exact A1|]. split; [|reflexivity]. apply DfDyn; [assumption|lia].
Qed.
Print Assumptions C128_resolve_sound.
Theorem C128_resolve_none : forall name (debug : bool) accept l, (forall b n o, In (b, (n, Some o)) l -> accept n = true -> Lacks debug o name) -> resolveSym name debug accept l = Throw.
Proof.
  intros name debug accept l H. unfold resolveSym. assert (R : resolveDetail name debug accept l = Throw); [|now rewrite R].
  induction l as [|[b [n x]] l IH]; [reflexivity|]. cbn [resolveDetail]. assert (R : resolveDetail name debug accept l = Throw) by (apply IH; intros b' n' o' I; apply (H b' n' o'); now right).
  destruct (accept n) eqn:A1; cbn [negb]; [|exact R]. destruct x as [o1|]; [|exact R]. destruct (H b n o1 (or_introl eq_refl) A1) as ((z & Z1 & Z2) & Zd). rewrite Z1. cbn [bind]. rewrite Z2. cbn [Z.eqb negb].
  destruct debug; [|exact R]. destruct (Zd eq_refl) as (z' & Z3 & Z4). rewrite Z3. cbn [bind]. rewrite Z4. exact R.
Qed.
Print Assumptions C128_resolve_none.
Definition C128_obj (dyn debug : list (list Z * symv)) : sobj :=
  let f (l : list (list Z * symv)) n := match find (fun e => beqs (fst e) n) l with Some (_, y) => Ok y | None => Ok (mkSymv 0 0) end in mkSobj (f dyn) (f debug).
Definition C128_objs : sobjs :=
  [ (4096, (lit "/bin/x", Some (C128_obj [] [(lit "nptl_version", mkSymv 3 8)])));
    (8192, (lit "/lib/libc.so.6", Some (C128_obj [(lit "malloc", mkSymv 5 256)] [(lit "nptl_version", mkSymv 7 64)])));
    (65536, (lit "/lib/libpthread.so.0", Some (C128_obj [] [(lit "nptl_version", mkSymv 9 32)]))) ].
Example C128_nonvacuous :
  (byAddress C128_objs /\ resolveSym (lit "malloc") false (fun _ => true) C128_objs = Ok 8448 /\ resolveSym (lit "nptl_version") true (fun _ => true) C128_objs = Ok 4104) /\
  resolveSym (lit "nptl_version") false (fun _ => true) C128_objs = Throw.
Proof. split; [split|]; [repeat constructor|split; vm_compute; reflexivity|vm_compute; reflexivity]. Qed.
Theorem C128_absolute_refuted :
  let l := [(4096, (lit "/bin/x", Some (C128_obj [(lit "limit", mkSymv 0xfff1 100)] [])))] in
  resolveSym (lit "limit") false (fun _ => true) l = Ok 4196.
Proof. vm_compute. reflexivity. Qed.
Print Assumptions C128_absolute_refuted.

(** ** C131: libthread_db's lookups *)
Definition baseNameIs (s b : list Z) : Prop := ~ In 47 b /\ (s = b \/ exists d, s = d ++ 47 :: b).
Lemma fileName_is s b : baseNameIs s b -> fileName s = b.
Proof.
  intros [N H].
  assert (E0 : existsb (Z.eqb 47) b = false). { destruct (existsb (Z.eqb 47) b) eqn:E; [|reflexivity]. apply existsb_exists in E as (x & I & Q). destruct N. now replace 47 with x by lia. }
  destruct H as [->|(d & ->)].
  - destruct b as [|c r]; [reflexivity|]. cbn [fileName existsb] in *. apply orb_false_iff in E0 as [E1 E2]. rewrite E2. replace (c =? 47) with false by lia. reflexivity.
  - induction d as [|c d IH]; cbn [app fileName]; [now rewrite E0|]. replace (existsb (Z.eqb 47) (d ++ 47 :: b)) with true; [exact IH|]. symmetry. apply existsb_exists. exists 47. split; [|lia]. apply in_or_app. right. now left.
Qed.
Lemma beqs_iff a : forall b, beqs a b = true <-> a = b.
Proof.
  induction a as [|x a IH]; intros [|y b]; cbn [beqs]; split; intros H; try discriminate; try reflexivity.
  - apply andb_true_iff in H as [H1 H2]. apply IH in H2. f_equal; [lia|exact H2].
  - inversion H; subst. rewrite Z.eqb_refl. now apply IH.
Qed.
(** A symbol looked up for libthread_db in a named object is found in that object (in any, if none is named).
    Partial: the C library is searched too, and wins if it is lower in memory, see [C131_wrong_object_refuted]; so this needs it not to
    define the symbol. *)
Theorem C131_lookup_partial : forall file name l base n ob y,
  byAddress l -> In (base, (n, Some ob)) l -> baseNameIs n file -> Defines true ob name y ->
  (forall b n' o', In (b, (n', Some o')) l -> b < base -> baseNameIs n' file \/ baseNameIs n' (lit "libc.so.6") -> Lacks true o' name) ->
  (forall b n' o', In (b, (n', Some o')) l -> exists f, baseNameIs n' f) ->
  0 <= base -> 0 <= svValue y -> base + svValue y < W64 ->
  globalLookup (Some file) name l = Some (base + svValue y).
Proof.
  intros file name l base n ob y St Hin Hn D L Nm H1 H2 H3. unfold globalLookup. rewrite (C128_resolve_partial name true _ l base n ob y St Hin); [reflexivity| |exact D| |exact H1|exact H2|exact H3].
  - rewrite (fileName_is n file Hn). rewrite (proj2 (beqs_iff file file) eq_refl). reflexivity.
  - intros b n' o' I Hb Ha. apply (L b n' o' I Hb). destruct (Nm b n' o' I) as (f & Hf). rewrite (fileName_is n' f Hf) in Ha. apply orb_true_iff in Ha as [E|E]; apply beqs_iff in E; subst; [now left|now right].
Qed.
Print Assumptions C131_lookup_partial.
Theorem C131_lookup_any : forall name l base n ob y,
  byAddress l -> In (base, (n, Some ob)) l -> Defines true ob name y ->
  (forall b n' o', In (b, (n', Some o')) l -> b < base -> Lacks true o' name) ->
  0 <= base -> 0 <= svValue y -> base + svValue y < W64 ->
  globalLookup None name l = Some (base + svValue y).
Proof. intros name l base n ob y St Hin D L H1 H2 H3. unfold globalLookup. rewrite (C128_resolve_partial name true _ l base n ob y St Hin eq_refl D); [reflexivity| |exact H1|exact H2|exact H3]. intros b n' o' I Hb _. exact (L b n' o' I Hb). Qed.
Print Assumptions C131_lookup_any.
Theorem C131_lookup_error : forall object name l, (forall b n o, In (b, (n, Some o)) l -> Lacks true o name) -> globalLookup object name l = None.
Proof. intros object name l H. unfold globalLookup. rewrite C128_resolve_none; [reflexivity|]. intros b n o I _. exact (H b n o I). Qed.
Print Assumptions C131_lookup_error.
Theorem C131_wrong_object_refuted : globalLookup (Some (lit "libpthread.so.0")) (lit "nptl_version") C128_objs = Some 8256 /\
  globalLookup (Some (lit "libpthread.so.0")) (lit "nptl_version") (tl (tl C128_objs)) = Some 65568.
Proof. split; vm_compute; reflexivity. Qed.
Print Assumptions C131_wrong_object_refuted.

(** ** C129: the text of a signal *)
Lemma leBytes_mod n : forall v, leBytes n (v mod 256 ^ Z.of_nat n) = leBytes n v.
Proof.
  induction n as [|n IH]; intros v; [reflexivity|]. cbn [leBytes]. rewrite Nat2Z.inj_succ, Z.pow_succ_r by lia. assert (P : 0 < 256 ^ Z.of_nat n) by (apply Z.pow_pos_nonneg; lia).
  rewrite Z.rem_mul_r by lia. f_equal.
  - rewrite (Z.mul_comm 256), Z.mod_add by lia. apply Z.mod_mod. lia.
  - rewrite (Z.mul_comm 256), Z.div_add by lia. rewrite (Z.div_small (v mod 256)) by (apply Z.mod_pos_bound; lia). cbn [Z.add]. apply IH.
Qed.
Lemma leBytes_split4 v : leBytes 8 v = leBytes 4 (v mod 2 ^ 32) ++ leBytes 4 (v / 2 ^ 32).
Proof.
  change (2 ^ 32) with (256 ^ Z.of_nat 4). rewrite leBytes_mod. change (256 ^ Z.of_nat 4) with (256 * (256 * (256 * 256))). rewrite <- !Z.div_div by lia. reflexivity.
Qed.
Lemma signed4 bs : Forall isByte bs -> zlen bs <= 4 -> - 2 ^ 63 <= leSigned bs < 2 ^ 63.
Proof.
  intros F L. pose proof (leValue_bound bs F) as R. pose proof (zlen_nonneg bs). assert (256 ^ zlen bs <= 256 ^ 4) by (apply Z.pow_le_mono_r; lia). unfold leSigned. change (256 ^ 4) with 4294967296 in *.
  destruct (2 * leValue bs <? 256 ^ zlen bs); lia.
Qed.
Lemma zdrop0 (l : list Z) : zdrop 0 l = l.
Proof. change 0 with (zlen (@nil Z)). exact (zdrop_app_zlen [] l). Qed.
(** The reason of a fault, and of any other signal the sender.  Partial: a fault signal that was sent rather than raised by the hardware, or
    SIGSEGV's address checks by keys, get no reason, see [C129_sent_fault_refuted]; other signals' own codes are described as if they were SIGIO's,
    see [C129_child_refuted]. *)
Theorem C129_reason_partial : forall signo code text,
  (In (signo, code, text) faultReasons \/ (~ In signo [4; 5; 7; 8; 11; 31] /\ signo <> 0 /\ In (code, text) senders)) ->
  codeText signo code = lit " - " ++ lit text.
Proof.
  intros signo code text [H|(N & N0 & H)].
  - unfold faultReasons in H. cbn [In] in H. repeat destruct H as [H|H]; try (inversion H; subst; reflexivity).
  - unfold codeText. assert (E : assoc signo codes = None).
    { cbn [In] in N. unfold codes. cbn [assoc]. replace (11 =? signo) with false by lia. replace (0 =? signo) with false by lia. replace (4 =? signo) with false by lia.
      replace (8 =? signo) with false by lia. replace (7 =? signo) with false by lia. replace (5 =? signo) with false by lia. replace (31 =? signo) with false by lia. reflexivity. }
    rewrite E. unfold senders in H. cbn [In] in H. repeat destruct H as [H|H]; try (inversion H; subst; reflexivity).
Qed.
Print Assumptions C129_reason_partial.
(** The whole text of a fault at an address. *)
Theorem C129_fault_text_partial : forall signo errno code addr rest ss cs ps fs as' text,
  In (signo, code, text) faultReasons -> 0 <= addr < W64 -> (8 <= zlen rest) -> Forall isByte rest ->
  decimal ss signo -> decimal cs code -> pointer as' addr ->
  decimal ps (leSigned (leBytes 4 (addr mod 2 ^ 32))) -> decimal fs (leSigned (ztake 4 rest)) ->
  sigInfoText (siginfo signo errno code (faultFields addr rest)) =
    lit "si_signo " ++ ss ++ lit ", si_code " ++ cs ++ lit ", si_pid " ++ ps ++ lit ", si_fd " ++ fs ++ lit ", si_addr " ++ as' ++ lit " - " ++ lit text.
Proof.
  intros signo errno code addr rest ss cs ps fs as' text H Ha Lr Fr Ds Dc Da Dp Df.
  assert (Rg : 0 <= signo < 32 /\ 0 <= code < 16) by (unfold faultReasons in H; cbn [In] in H; repeat destruct H as [H|H]; try (inversion H; subst; lia)).
  unfold sigInfoText, siginfo, faultFields.
  set (b0 := leBytes 4 (signo mod 2 ^ 32)). set (b1 := leBytes 4 (errno mod 2 ^ 32)). set (b2 := leBytes 4 (code mod 2 ^ 32)). set (b4 := leBytes 8 addr).
  assert (L0 : zlen b0 = 4) by apply leBytes_len. assert (L1 : zlen b1 = 4) by apply leBytes_len. assert (L2 : zlen b2 = 4) by apply leBytes_len. assert (L4 : zlen b4 = 8) by apply leBytes_len.
  assert (E0 : ztake 4 (zdrop 0 (b0 ++ b1 ++ b2 ++ [0; 0; 0; 0] ++ b4 ++ rest)) = b0) by (rewrite zdrop0; rewrite <- L0 at 1; apply ztake_app_zlen).
  assert (E8 : ztake 4 (zdrop 8 (b0 ++ b1 ++ b2 ++ [0; 0; 0; 0] ++ b4 ++ rest)) = b2).
  { rewrite (app_assoc b0 b1). replace 8 with (zlen (b0 ++ b1)) by (rewrite zlen_app; lia). rewrite zdrop_app_zlen. rewrite <- L2 at 1. apply ztake_app_zlen. }
  assert (E16 : zdrop 16 (b0 ++ b1 ++ b2 ++ [0; 0; 0; 0] ++ b4 ++ rest) = b4 ++ rest).
  { rewrite (app_assoc b0 b1), (app_assoc (b0 ++ b1) b2), (app_assoc ((b0 ++ b1) ++ b2) [0; 0; 0; 0]). replace 16 with (zlen (((b0 ++ b1) ++ b2) ++ [0; 0; 0; 0])) by (rewrite !zlen_app; cbn; lia). apply zdrop_app_zlen. }
  assert (E24 : zdrop 24 (b0 ++ b1 ++ b2 ++ [0; 0; 0; 0] ++ b4 ++ rest) = rest).
  { rewrite (app_assoc b0 b1), (app_assoc (b0 ++ b1) b2), (app_assoc ((b0 ++ b1) ++ b2) [0; 0; 0; 0]), (app_assoc _ b4). replace 24 with (zlen ((((b0 ++ b1) ++ b2) ++ [0; 0; 0; 0]) ++ b4)) by (rewrite !zlen_app; cbn; lia). apply zdrop_app_zlen. }
  rewrite E0, E8, E16, E24. cbn [bind].
  assert (E16a : ztake 8 (b4 ++ rest) = b4) by (rewrite <- L4 at 1; apply ztake_app_zlen).
  assert (E16b : ztake 4 (b4 ++ rest) = leBytes 4 (addr mod 2 ^ 32)).
  { unfold b4. rewrite leBytes_split4. rewrite <- app_assoc. rewrite <- (leBytes_len 4 (addr mod 2 ^ 32)) at 1. apply ztake_app_zlen. }
  rewrite E16a, E16b. unfold b0, b2, b4.
  rewrite (leValue_leBytes 8 addr) by exact Ha.
  pose proof (leSigned_leBytes 4 signo ltac:(cbn; lia) ltac:(lia)) as G1. pose proof (leSigned_leBytes 4 code ltac:(cbn; lia) ltac:(lia)) as G2.
  change (8 * Z.of_nat 4) with 32 in G1, G2. rewrite G1, G2.
  rewrite (intText_dec ss signo) by (assumption || lia). rewrite (intText_dec cs code) by (assumption || lia).
  rewrite (intText_dec ps _) by first [assumption | apply signed4; [apply leBytes_byte|rewrite leBytes_len; lia]].
  rewrite (intText_dec fs _) by first [assumption | apply signed4; [now apply Forall_ztake|rewrite zlen_ztake; lia]].
  rewrite (ptrText_ptr as' addr Ha Da). rewrite (C129_reason_partial signo code text) by now left. reflexivity.
Qed.
Print Assumptions C129_fault_text_partial.
Example C129_nonvacuous :
  sigInfoText (siginfo 11 0 1 (faultFields 4096 (repeat 0 104))) = lit "si_signo 11, si_code 1, si_pid 4096, si_fd 0, si_addr 0x1000 - address not mapped to object" /\
  sigInfoText (siginfo 6 0 (-6) (senderFields 1234 1000 (repeat 0 104))) = lit "si_signo 6, si_code -6, si_pid 1234, si_fd 0, si_addr 0x3e8000004d2 - sent by tkill syscall".
Proof. split; vm_compute; reflexivity. Qed.
(** Refuted: a fault signal sent by kill, raise or by the kernel (such as for an address that is not canonical) has no reason. *)
Theorem C129_sent_fault_refuted : forall signo code, In signo [4; 5; 7; 8; 11; 31] -> code <= 0 \/ code = 0x80 -> codeText signo code = [].
Proof.
  intros signo code H C. unfold codeText. cbn [In] in H.
  assert (G : forall t, (forall k s, In (k, s) t -> 0 < k < 0x80) -> assoc code t = (None : option string)).
  { induction t as [|[k s] t IH]; intros K; [reflexivity|]. cbn [assoc]. pose proof (K k s (or_introl eq_refl)). replace (k =? code) with false by lia. apply IH. intros k' s' I. apply (K k' s'). now right. }
  assert (T : forall t, assoc signo codes = Some t -> forall k s, In (k, s) t -> 0 < k < 0x80).
  { intros t E k s I.
    assert (B : forall g t', In g [4; 5; 7; 8; 11; 31] -> assoc g codes = Some t' -> forallb (fun e => (0 <? fst e) && (fst e <? 0x80)) t' = true).
    { intros g t' Hg. cbn [In] in Hg. destruct Hg as [<-|[<-|[<-|[<-|[<-|[<-|[]]]]]]]; intros E'; assert (X : forall (x y : codeTable), Some x = Some y -> x = y) by congruence; apply X in E'; rewrite <- E'; reflexivity. }
    pose proof (B signo t H E) as Bt. rewrite forallb_forall in Bt. specialize (Bt _ I). cbn [fst] in Bt. lia. }
  destruct (assoc signo codes) as [t|] eqn:E; [now rewrite (G t (T t eq_refl))|]. destruct H as [<-|[<-|[<-|[<-|[<-|[<-|[]]]]]]]; discriminate E.
Qed.
Print Assumptions C129_sent_fault_refuted.
(** Refuted: SIGCHLD (17) of a child that exited (CLD_EXITED, 1), was killed (2), dumped core (3), ...; and the pid shown of a fault is the low half of its address. *)
Theorem C129_child_refuted : codeText 17 1 = lit " - data input available" /\ codeText 17 3 = lit " - input message available" /\
  (exists t, sigInfoText (siginfo 11 0 1 (faultFields 305419896 (repeat 0 104))) = lit "si_signo 11, si_code 1, si_pid 305419896" ++ t).
Proof. split; [vm_compute; reflexivity|]. split; [vm_compute; reflexivity|]. exists (lit ", si_fd 0, si_addr 0x12345678 - address not mapped to object"). vm_compute. reflexivity. Qed.
Print Assumptions C129_child_refuted.

(** ** C130: the text of a wait status *)
(** wait(2): the statuses of a process that exited with [n], that was killed by signal [g] (and dumped core), that stopped with signal [g]. *)
Theorem C130_wait_status : forall name n g t,
  (0 <= n < 256 -> decimal t n -> waitText name (n * 256) = lit "exit(" ++ t ++ lit ")") /\
  (1 <= g < 127 -> waitText name g = lit "signal(" ++ name g ++ lit ")" /\ waitText name (g + 128) = lit "signal(" ++ name g ++ lit ")" ++ lit "(core dumped)") /\
  (0 <= g < 256 -> waitText name (g * 256 + 127) = lit "stop(" ++ name g ++ lit ")") /\
  waitText name 65535 = [].
Proof.
  intros name n g t.
  assert (M7 : forall x, Z.land x 127 = x mod 128) by (intros x; change 127 with (Z.ones 7); now rewrite Z.land_ones by lia).
  assert (M8 : forall x, Z.land x 255 = x mod 256) by (intros x; change 255 with (Z.ones 8); now rewrite Z.land_ones by lia).
  assert (S8 : forall x, Z.shiftr x 8 = x / 256) by (intros x; now rewrite Z.shiftr_div_pow2 by lia).
  split; [|split; [|split]].
  - intros Hn D. unfold waitText. rewrite M7, M8, M8, S8. replace (n * 256 mod 128) with 0 by (symmetry; replace (n * 256) with ((n * 2) * 128) by lia; apply Z.mod_mul; lia).
    replace (n * 256 mod 256) with 0 by (symmetry; apply Z.mod_mul; lia). rewrite Z.div_mul by lia. rewrite (Z.mod_small n) by lia. cbn. rewrite (intText_dec t n) by (assumption || lia). reflexivity.
  - intros Hg. assert (B7 : forall x, 0 <= x < 256 -> Z.land x 128 = if x <? 128 then 0 else 128).
    { intros x Hx. change 128 with (2 ^ 7) at 1. destruct (x <? 128) eqn:E.
      - apply Z.bits_inj'. intros i Hi. rewrite Z.land_spec, Z.bits_0, Z.pow2_bits_eqb by lia. destruct (7 =? i) eqn:Ei; [|apply andb_false_r]. rewrite andb_true_r. replace i with 7 by lia.
        apply Z.testbit_false; [lia|]. rewrite Z.div_small by (change (2 ^ 7) with 128; lia). reflexivity.
      - change 128 with (2 ^ 7). apply Z.bits_inj'. intros i Hi. rewrite Z.land_spec, Z.pow2_bits_eqb by lia. destruct (7 =? i) eqn:Ei; [|apply andb_false_r]. rewrite andb_true_r. replace i with 7 by lia.
        apply Z.testbit_true; [lia|]. change (2 ^ 7) with 128. replace (x / 128) with 1; [reflexivity|]. apply (Z.div_unique x 128 1 (x - 128)); lia. }
    unfold waitText. rewrite !M7. rewrite (Z.mod_small g 128) by lia. rewrite (B7 g) by lia. rewrite (B7 (g + 128)) by lia. replace (g <? 128) with true by lia. replace (g + 128 <? 128) with false by lia.
    replace ((g + 128) mod 128) with g by (replace (g + 128) with (g + 1 * 128) by lia; rewrite Z.mod_add by lia; symmetry; apply Z.mod_small; lia).
    rewrite (Z.mod_small (g + 1)) by lia. replace (g + 1 <? 128) with true by lia. replace ((g + 1) / 2 >? 0) with true by (assert (1 <= (g + 1) / 2) by (apply Z.div_le_lower_bound; lia); lia).
    cbn [Z.eqb]. split; [rewrite app_nil_r|]; reflexivity.
  - intros Hg. unfold waitText. rewrite M7, !M8, S8. replace ((g * 256 + 127) mod 128) with 127 by (replace (g * 256 + 127) with (127 + (g * 2) * 128) by lia; rewrite Z.mod_add by lia; reflexivity).
    replace ((g * 256 + 127) mod 256) with 127 by (rewrite Z.add_comm, Z.mod_add by lia; reflexivity). replace ((g * 256 + 127) / 256) with g by (rewrite Z.add_comm, Z.div_add by lia; reflexivity).
    rewrite (Z.mod_small g) by lia. reflexivity.
  - reflexivity.
Qed.
Print Assumptions C130_wait_status.
Example C130_nonvacuous : waitText (fun g => intText g) 139 = lit "signal(11)(core dumped)" /\ waitText (fun g => intText g) 768 = lit "exit(3)" /\ waitText (fun g => intText g) 4991 = lit "stop(19)".
Proof. repeat split; vm_compute; reflexivity. Qed.

(** ** C132: the text of a process *)
(** A line that names the process (and the signal that ended it), then every thread's stack in order, each followed by an empty line; an error in a
    stack ends the text there. *)
Theorem C132_process_text : forall io sig ts us bad rest,
  pstackText io sig (map emit ts) = (lit "process: " ++ io ++ (match sig with Some si => lit " (terminated with " ++ sigInfoText si ++ lit ")" | None => [] end) ++ [10] ++ List.concat (map (fun t => t ++ [10]) ts), Ok tt) /\
  (snd bad <> Ok tt -> us = map emit ts ->
   pstackText io sig (us ++ bad :: rest) = (fst (pstackText io sig us) ++ fst bad, snd bad)).
Proof.
  intros io sig ts us bad rest. unfold pstackText.
  assert (E : forall z : wr, fold_right (fun w r : wr => andThen w (andThen (emit [10]) r)) z (map emit ts) = (List.concat (map (fun t => t ++ [10]) ts) ++ fst z, snd z)).
  { intros z. induction ts as [|t ts IH]; [now destruct z|]. cbn [map fold_right List.concat]. rewrite IH. unfold andThen, emit. cbn [fst snd]. rewrite <- !app_assoc. reflexivity. }
  split.
  - rewrite E. unfold andThen, emit. cbn [fst snd]. f_equal. rewrite app_nil_r. change lit with txt. rewrite <- !app_assoc. reflexivity.
  - intros Hb ->. rewrite fold_right_app, !E. cbn [fold_right].
    assert (B : forall w, andThen bad w = bad) by (intros w; unfold andThen; destruct bad as [x [u| | |]]; cbn [snd] in Hb |- *; try reflexivity; destruct u; congruence).
    rewrite B. unfold andThen, emit. cbn [fst snd]. rewrite app_nil_r, <- !app_assoc. reflexivity.
Qed.
Print Assumptions C132_process_text.
Example C132_nonvacuous : pstackText (lit "1234") (Some (siginfo 6 0 (-6) (senderFields 7 8 (repeat 0 104)))) [emit (lit "a"); emit (lit "b")] =
  (lit "process: 1234 (terminated with si_signo 6, si_code -6, si_pid 7, si_fd 0, si_addr 0x800000007 - sent by tkill syscall)" ++ [10] ++ lit "a" ++ [10] ++ lit "b" ++ [10], Ok tt).
Proof. vm_compute. reflexivity. Qed.
