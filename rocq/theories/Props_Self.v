(** Property C168: a process that inspects itself (see properties.jsonl). *)
From Verif Require Import Base LebProofs Reader ReaderSpec ReaderProofs DwarfReaderProofs CfiSpec CfiProofs Regs ElfHash ElfObj Core CoreSpec Cfi Expr Unwind Stacks Service ServiceSpec ServiceProofs ArgsSpec HdmpProofs LzmaProofs LoadProofs ElfFileProofs Self.

(** The DWARF registers (psABI, figure 3.36) and the place of their value in the gregset_t that getcontext(3) fills (<sys/ucontext.h>). *)
Definition contextAt : list (Z * nat) :=
  [(0, 13%nat); (1, 12%nat); (2, 14%nat); (3, 11%nat); (4, 9%nat); (5, 8%nat); (6, 10%nat); (7, 15%nat); (8, 0%nat); (9, 1%nat); (10, 2%nat); (11, 3%nat); (12, 4%nat); (13, 5%nat); (14, 6%nat); (15, 7%nat); (16, 16%nat)].

Lemma take_all (l : list Z) n : zlen l = n -> ztake n l = l.
Proof. intros <-. rewrite <- (app_nil_r l) at 2. apply ztake_app_zlen. Qed.
Lemma put_len off v u : 0 <= off -> off + 8 <= zlen u -> zlen (putField off v u) = zlen u.
Proof. intros H1 H2. unfold putField. rewrite !zlen_app, leBytes_len, zlen_ztake, zlen_zdrop by lia. change (Z.of_nat 8) with 8. lia. Qed.
Lemma put_same off v u : 0 <= off -> off + 8 <= zlen u -> fieldOf (putField off v u) off 8 = u64 v.
Proof.
  intros H1 H2. unfold fieldOf, putField. assert (L : zlen (ztake off u) = off) by (rewrite zlen_ztake by lia; lia). rewrite <- L at 1. rewrite zdrop_app_zlen.
  replace 8 with (zlen (leBytes 8 (u64 v))) at 1 by apply leBytes_len. rewrite ztake_app_zlen. apply leValue_leBytes. exact (u64_range v).
Qed.
Lemma put_other off v u o : 0 <= off -> off + 8 <= zlen u -> 0 <= o -> o + 8 <= off \/ off + 8 <= o -> fieldOf (putField off v u) o 8 = fieldOf u o 8.
Proof.
  intros H1 H2 H3 [H|H]; unfold fieldOf, putField; f_equal.
  - assert (L : zlen (ztake off u) = off) by (rewrite zlen_ztake by lia; lia). rewrite zdrop_app_le by lia. rewrite ztake_app_le by (rewrite zlen_zdrop by lia; lia). rewrite zdrop_ztake by lia. apply ztake_ztake. lia.
  - rewrite app_assoc. assert (L : zlen (ztake off u ++ leBytes 8 (u64 v)) = off + 8) by (rewrite zlen_app, leBytes_len, zlen_ztake by lia; change (Z.of_nat 8) with 8; lia). rewrite zdrop_app_ge by lia. rewrite L, zdrop_zdrop by lia. do 2 f_equal. lia.
Qed.
Fixpoint putAll (l : list (Z * Z)) (u : list Z) : list Z := match l with [] => u | (o, v) :: r => putField o v (putAll r u) end.
Lemma putAll_len l u : Forall (fun e => 0 <= fst e /\ fst e + 8 <= zlen u) l -> zlen (putAll l u) = zlen u.
Proof. induction 1 as [|[o v] l [H1 H2] F IH]; [reflexivity|]. cbn [putAll fst] in *. rewrite put_len by lia. exact IH. Qed.
Lemma putAll_field l u o : Forall (fun e => 0 <= fst e /\ fst e + 8 <= zlen u) l -> 0 <= o -> Forall (fun e => fst e = o \/ o + 8 <= fst e \/ fst e + 8 <= o) l ->
  fieldOf (putAll l u) o 8 = match find (fun e => fst e =? o) l with Some e => u64 (snd e) | None => fieldOf u o 8 end.
Proof.
  intros F Ho D. induction l as [|[k v] l IH]; [reflexivity|]. apply Forall_cons_iff in F as [[F1 F2] F]. apply Forall_cons_iff in D as [D1 D]. cbn [putAll find fst snd] in *. pose proof (putAll_len l u F) as L.
  destruct (Z.eqb_spec k o) as [->|N]; [apply put_same; lia|]. rewrite put_other by lia. now apply IH.
Qed.
Definition writes (g : list Z) : list (Z * Z) :=
  [(128, greg g 16); (152, greg g 15); (88, greg g 14); (80, greg g 13); (96, greg g 12); (40, greg g 11); (32, greg g 10); (104, greg g 9); (112, greg g 8);
   (0, greg g 7); (8, greg g 6); (16, greg g 5); (24, greg g 4); (48, greg g 3); (56, greg g 2); (64, greg g 1); (72, greg g 0)].
Lemma user_all g u : gregset2user g u = putAll (writes g) u.
Proof. unfold gregset2user, writes. cbn [putAll]. reflexivity. Qed.
Lemma user_field g u o : zlen u = 216 -> 0 <= o -> o mod 8 = 0 ->
  fieldOf (gregset2user g u) o 8 = match find (fun e => fst e =? o) (writes g) with Some e => u64 (snd e) | None => fieldOf u o 8 end.
Proof.
  intros L Ho M. rewrite user_all. apply putAll_field; [unfold writes; repeat (apply Forall_cons; [cbn [fst]; lia|]); apply Forall_nil|exact Ho|].
  assert (X : exists q, o = 8 * q) by (exists (o / 8); pose proof (Z.div_mod o 8 ltac:(lia)); lia). destruct X as [q ->]. unfold writes. repeat (apply Forall_cons; [cbn [fst]; lia|]). apply Forall_nil.
Qed.
Lemma user_len g u : zlen u = 216 -> zlen (gregset2user g u) = 216.
Proof. intros L. rewrite user_all. rewrite putAll_len; [exact L|]. unfold writes. repeat (apply Forall_cons; [cbn [fst]; lia|]). apply Forall_nil. Qed.

(** The registers asked of a thread are those getcontext(3) stored of the calling thread: each general register is its own element of the context, the floating
    point registers are those of its fxsave area, whatever the structures held before. *)
Theorem C168_registers_partial : forall g fp u0 f0 lwp, zlen fp = 512 -> zlen u0 = 216 -> zlen f0 = 512 ->
  exists regs, selfCoreRegs true g fp u0 f0 lwp = Ok regs /\
  (forall reg i, In (reg, i) contextAt -> getDwarf regs reg = Ok (KU64, (nth i g 0) mod 2 ^ 64)) /\
  (forall reg off w v, floatAt reg off w -> numberAt fp off w v -> exists k, getDwarf regs reg = Ok (k, v)).
Proof.
  intros g fp u0 f0 lwp Lf Lu L0. unfold selfCoreRegs, selfRegs. cbn [negb Z.eqb Pos.eqb NT_FPREGSET userSize bind]. unfold getRegset at 1. cbn [bind]. rewrite user_len by exact Lu. cbn [Z.eqb Z.ltb Z.compare Pos.compare Pos.compare_cont bind userSize].
  unfold getRegset. unfold fpSize. rewrite (take_all fp 512 Lf). cbn [bind]. rewrite Lf. cbn [Z.eqb Z.ltb Z.compare Pos.compare Pos.compare_cont bind].
  eexists. split; [reflexivity|]. split.
  - intros reg i Hi. unfold contextAt in Hi. repeat (destruct Hi as [Hi|Hi]; [injection Hi as <- <-; unfold getDwarf, opReg; cbn [Z.eqb Pos.eqb cells]; rewrite (user_field g u0 _ Lu) by (reflexivity || lia); cbn [find writes fst snd Z.eqb Pos.eqb]; reflexivity|]). destruct Hi.
  - intros reg off w v Hf Hn. apply cells_saved. now apply (SFloat _ _ _ _ off w).
Qed.
Print Assumptions C168_registers_partial.
(** Refuted: (1) the flags, segment registers and their bases are not set: they are what was in the structure before, which is not initialised. *)
Theorem C168_flags_refuted : forall g fp u0 f0 lwp reg off, zlen fp = 512 -> zlen u0 = 216 -> zlen f0 = 512 ->
  In (reg, off) [(49, 144); (50, 192); (51, 136); (52, 160); (53, 184); (54, 200); (55, 208); (58, 168); (59, 176)] ->
  exists regs, selfCoreRegs true g fp u0 f0 lwp = Ok regs /\ forall v, numberAt u0 off 8 v -> getDwarf regs reg = Ok (KU64, v).
Proof.
  intros g fp u0 f0 lwp reg off Lf Lu L0 Hi. unfold selfCoreRegs, selfRegs. cbn [negb Z.eqb Pos.eqb NT_FPREGSET userSize bind]. unfold getRegset at 1. cbn [bind]. rewrite user_len by exact Lu. cbn [Z.eqb Z.ltb Z.compare Pos.compare Pos.compare_cont bind userSize].
  unfold getRegset. unfold fpSize. rewrite (take_all fp 512 Lf). cbn [bind]. rewrite Lf. cbn [Z.eqb Z.ltb Z.compare Pos.compare Pos.compare_cont bind].
  eexists. split; [reflexivity|]. intros v Hn. pose proof (fieldOf_number _ _ _ _ Hn ltac:(lia)) as E.
  repeat (destruct Hi as [Hi|Hi]; [injection Hi as <- <-; unfold getDwarf, opReg; cbn [Z.eqb Pos.eqb Z.leb Z.compare Pos.compare Pos.compare_cont andb cells]; rewrite (user_field g u0 _ Lu) by (reflexivity || lia); cbn [find writes fst snd Z.eqb Pos.eqb]; now rewrite E|]). destruct Hi.
Qed.
Print Assumptions C168_flags_refuted.
(** (2) Asked for another thread, it answers with the registers of the calling one. *)
Theorem C168_other_thread_refuted : forall g fp u0 f0 lwp lwp', selfCoreRegs true g fp u0 f0 lwp = selfCoreRegs true g fp u0 f0 lwp'.
Proof. intros. unfold selfCoreRegs. reflexivity. Qed.
Print Assumptions C168_other_thread_refuted.

(** Memory: what the process itself has at an address, and its strings; (3) anything it has not is a fault, not an exception. *)
Theorem C168_memory : forall m a bs, 0 <= a -> a + zlen bs < 2 ^ 64 -> ArgsSpec.holds m a bs ->
  rread m selfIo a (zlen bs) = Ok bs /\
  (forall t fuel, bs = t ++ [0] -> Forall (fun c => c <> 0) t -> (length t < fuel)%nat -> rstring fuel m selfIo a = Ok t).
Proof.
  intros m a bs Ha Hb H. pose proof (zlen_nonneg bs) as N. split.
  - unfold selfIo. cbn [rread]. replace (a >? W64 - 1) with false by (unfold W64; lia). replace (Z.min (zlen bs) (W64 - 1 - a)) with (zlen bs) by (unfold W64; lia). rewrite Z.add_0_l, u64_id by (unfold isU64, W64; lia).
    rewrite (memread_of_holds m a bs _ H) by (unfold zlen; lia). reflexivity.
  - intros t fuel -> F Hf. unfold selfIo. cbn [rstring]. rewrite Z.add_0_l, u64_id by (unfold isU64, W64; lia). clear Hb N. revert a Ha H fuel Hf. induction F as [|c t Hc F IH]; intros a Ha H fuel Hf; (destruct fuel as [|f]; [lia|]); cbn [cstring app length] in *.
    + pose proof (H 0 ltac:(change (zlen [0]) with 1; lia)) as X. rewrite Z.add_0_r in X. rewrite X. reflexivity.
    + pose proof (zlen_nonneg (t ++ [0])) as N2. pose proof (H 0 ltac:(rewrite zlen_cons; lia)) as X. rewrite Z.add_0_r in X. rewrite X. cbn [znth Z.eqb]. replace (c =? 0) with false by lia.
      rewrite IH; [reflexivity|lia| |lia]. intros i Hi. specialize (H (i + 1) ltac:(rewrite zlen_cons; lia)). replace (a + 1 + i) with (a + (i + 1)) by lia. rewrite H. cbn [znth]. replace (i + 1 =? 0) with false by lia. replace (i + 1 <? 0) with false by lia. f_equal. lia.
Qed.
Print Assumptions C168_memory.
Theorem C168_fault_refuted : forall m a n i, 0 <= a -> 0 <= i < n -> a + n < 2 ^ 64 -> m (a + i) = None -> rread m selfIo a n = UB.
Proof.
  intros m a n i Ha Hi Hn Hm. unfold selfIo. cbn [rread]. replace (a >? W64 - 1) with false by (unfold W64; lia). replace (Z.min n (W64 - 1 - a)) with n by (unfold W64; lia). rewrite Z.add_0_l, u64_id by (unfold isU64, W64; lia).
  destruct (memread m a (Z.to_nat n)) as [bs|] eqn:E; [|reflexivity]. exfalso. apply memread_holds in E as [E1 E2]. specialize (E2 i ltac:(lia)). rewrite Hm in E2. symmetry in E2. destruct (znth_lt i bs ltac:(lia)) as [x X]. congruence.
Qed.
Print Assumptions C168_fault_refuted.
(** Threads: the calling one, with the stack walked from its registers; (4) no other thread of the process. *)
Theorem C168_threads_partial : forall fuel p maxframes tid g fp u0 f0 stacks, selfStacks fuel p maxframes tid true g fp u0 f0 = Ok stacks ->
  stacks = [] \/ exists regs l, selfCoreRegs true g fp u0 f0 tid = Ok regs /\ unwindStack fuel p maxframes regs = Ok (l, false) /\ stacks = [(tid, l)].
Proof.
  intros fuel p mf tid g fp u0 f0 stacks H. unfold selfStacks in H. destruct (selfCoreRegs true g fp u0 f0 tid) as [regs| | |]; try discriminate; cbn [getStacks oneStack fst snd bind] in H; [|injection H as <-; now left..].
  destruct (unwindStack fuel p mf regs) as [[l esc]| | |] eqn:E; cbn [bind] in H; try discriminate. injection H as <-. destruct esc; [now left|]. right. exists regs, l. split; [reflexivity|]. split; [exact E|reflexivity].
Qed.
Print Assumptions C168_threads_partial.
(** A case: a context with 23 different words; the structure held 9s; a process whose memory holds "hi" at 4096. *)
Example C168_case :
  let g := map Z.of_nat (seq 101 23) in
  let m := fun a => if a =? 4096 then Some 104 else if a =? 4097 then Some 105 else if a =? 4098 then Some 0 else None in
  match selfCoreRegs true g (repeat 0 512) (repeat 9 216) (repeat 0 512) 77 with
  | Ok regs => getDwarf regs 7 = Ok (KU64, 116) /\ getDwarf regs 16 = Ok (KU64, 117) /\ getDwarf regs 8 = Ok (KU64, 101) /\ getDwarf regs 51 = Ok (KU64, 651061555542690057)
  | _ => False
  end /\ ArgsSpec.holds m 4096 [104; 105; 0] /\ rstring 10 m selfIo 4096 = Ok [104; 105] /\ rread m selfIo 4097 3 = UB.
Proof.
  cbv zeta. split; [vm_compute; repeat split|]. split; [|split; vm_compute; reflexivity].
  intros i Hi. change (zlen [104; 105; 0]) with 3 in Hi. assert (K : i = 0 \/ i = 1 \/ i = 2) by lia. destruct K as [->|[->| ->]]; reflexivity.
Qed.
