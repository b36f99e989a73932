(** Properties C17, C18, C53 and C63: DWARF expressions and registers. *)
From Verif Require Import Base LebSpec Cfi CfiSpec CfiProofs Regs RegsProofs Expr ExprSpec ExprProofs.

(** C17.  [encodeE p] is the standard's encoding of the operations [p] and [runE] their meaning
    (ExprSpec.v).  [envRel] ties the process to the meaning's environment.  The frame base, if any,
    is the value of the frame base expression [fbP].  Partial: operations on which the code departs
    from the standard are excluded by [safeRun] - see the refuted theorems; operations the code does
    not implement throw. *)
Theorem C17_expression_value_partial : forall data e se off p fbOff fbP fuel stk0 v rest,
  Forall isByte data -> zlen data + 32 < W64 -> envRel e se ->
  (eFb e = None /\ sFrameBase se = 0 /\ fbP = [] \/
   eFb e = Some (fbOff, fbOff + zlen (encodeE fbP)) /\ at_ data fbOff (encodeE fbP) /\ Forall wfO fbP /\
   (forall n, ~ In (PFbreg n) fbP) /\ safeRun se fbP [] = true /\
   exists r, runE se fbP [] = Some (sFrameBase se :: r)) ->
  Forall wfO p -> at_ data off (encodeE p) -> Forall isWord stk0 ->
  safeRun se p stk0 = true -> runE se p stk0 = Some (v :: rest) ->
  (length fbP + length p + 1 < fuel)%nat ->
  evalE fuel data e stk0 off (off + zlen (encodeE p)) = Ok v.
Proof. exact evalE_correct. Qed.
Print Assumptions C17_expression_value_partial.

(** fbreg -24, deref, then (x << 3) - 5 with frame base = rbp + 16, memory holding 7. *)
Definition C17_mem : memory := fun a => if a =? 4088 then Some 7 else if (4089 <=? a) && (a <? 4096) then Some 0 else None.
Definition C17_regs : coreRegs := fun c => if cell_eq_dec c U_rbp then 4096 else 11.
Definition C17_fb : list sop := [PBreg 6 16].
Definition C17_p : list sop := [PFbreg (-24); PDeref; PLit 3; PShl; PConst2s 5; PMinus].
Definition C17_data : list Z := encodeE C17_fb ++ encodeE C17_p.
Definition C17_env : env := mkEnv C17_regs 8192 C17_mem 0 (Some (0, 2)).
Definition C17_senv : senv := mkSenv (fun r => if r =? 6 then Some 4096 else None)
  (fun a => if a =? 4088 then Some 7 else None) 8192 4112 0.
Example C17_nonvacuous :
  Forall isByte C17_data /\ envRel C17_env C17_senv /\ Forall wfO C17_p /\ at_ C17_data 2 (encodeE C17_p) /\
  at_ C17_data 0 (encodeE C17_fb) /\ runE C17_senv C17_fb [] = Some [4112] /\
  safeRun C17_senv C17_p [] = true /\ runE C17_senv C17_p [] = Some [51] /\
  evalE 20 C17_data C17_env [] 2 (2 + zlen (encodeE C17_p)) = Ok 51.
Proof.
  split. { apply Forall_forall. intros x Hx. assert (H : forallb (fun b => (0 <=? b) && (b <? 256)) C17_data = true) by (vm_compute; reflexivity).
           rewrite forallb_forall in H. specialize (H x Hx). unfold isByte. lia. }
  split. { split; [|split; [|split; [reflexivity|split; [unfold isWord, W64; cbn; lia|reflexivity]]]].
           - intros r v H. cbn in H. destruct (r =? 6) eqn:E; [|discriminate]. inversion H; subst.
             replace r with 6 by lia. split; [reflexivity|unfold isWord, W64; lia].
           - intros a v H. cbn in H. destruct (a =? 4088) eqn:E; [|discriminate]. inversion H; subst.
             replace a with 4088 by lia. split; [vm_compute; reflexivity|unfold isWord, W64; lia]. }
  split. { unfold C17_p. repeat constructor; cbn; lia. }
  split. { split; [lia|]. exists []. vm_compute. reflexivity. }
  split. { split; [lia|]. exists (encodeE C17_p). vm_compute. reflexivity. }
  repeat split; vm_compute; reflexivity.
Qed.

Definition C17_env0 : env := mkEnv (fun _ => 0) 0 (fun _ => None) 0 None.
Definition C17_senv0 : senv := mkSenv (fun _ => None) (fun _ => None) 0 0 0.
(** Comparisons are done unsigned: -1 < 0 evaluates to 0. *)
Theorem C17_compare_refuted :
  let p := [PConsts (-1); PLit 0; PLt] in
  runE C17_senv0 p [] = Some [1] /\ evalE 20 (encodeE p) C17_env0 [] 0 (zlen (encodeE p)) = Ok 0.
Proof. split; vm_compute; reflexivity. Qed.
Print Assumptions C17_compare_refuted.
(** Pieces: reg0 piece 4, reg1 piece 4 describes a value whose low half is in reg0; the code puts
    the first piece in the high half. *)
Theorem C17_piece_refuted :
  let regs : coreRegs := fun c => if cell_eq_dec c U_rax then 1 else if cell_eq_dec c U_rdx then 2 else 0 in
  evalE 20 [80; 147; 4; 81; 147; 4] (mkEnv regs 0 (fun _ => None) 0 None) [] 0 6 = Ok (1 * 2 ^ 32 + 2).
Proof. vm_compute. reflexivity. Qed.
Print Assumptions C17_piece_refuted.
(** Entry values: entry_value(rdi) - entry_value(rsi) is rdi - rsi = 42; the code leaves each value on
    the stack twice and answers 0. *)
Theorem C17_entry_value_refuted :
  let regs : coreRegs := fun c => if cell_eq_dec c U_rdi then 100 else if cell_eq_dec c U_rsi then 58 else 0 in
  evalE 20 [163; 1; 85; 163; 1; 84; 28] (mkEnv regs 0 (fun _ => None) 0 None) [] 0 7 = Ok 0.
Proof. vm_compute. reflexivity. Qed.
Print Assumptions C17_entry_value_refuted.
(** DW_OP_dup and 25 other standard operations are rejected. *)
Theorem C17_unimplemented_refuted : forall op, In op [8; 9; 10; 14; 15; 18; 19; 20; 21; 22; 23; 40; 47; 146; 148; 150; 151; 152; 153; 154; 157; 158; 160; 161; 162; 164] ->
  forall fuel e rest, decodeE (op :: rest) 0 = Throw /\ evalE (S fuel) (op :: rest) e [1] 0 (zlen (op :: rest)) = Throw.
Proof.
  intros op H fuel e rest.
  assert (D : forall t, In t [8; 9; 10; 14; 15; 18; 19; 20; 21; 22; 23; 40; 47; 146; 148; 150; 151; 152; 153; 154; 157; 158; 160; 161; 162; 164] ->
     decodeE (t :: rest) 0 = Throw).
  { clear. intros t H.
    assert (G : DwarfReader.getu8 (t :: rest) 0 = Ok (t, 0 + 1)).
    { unfold DwarfReader.getu8, DwarfReader.secBytes, Reader.readObj, DwarfReader.secRead. cbn [Z.eqb].
      change (u64 (1 * 1)) with 1. rewrite zlen_cons. pose proof (zlen_nonneg rest). replace (0 >? zlen rest + 1) with false by lia.
      cbn [bind zdrop Z.leb Z.compare ztake]. change (1 - 1) with 0. rewrite ztake_neg by lia. reflexivity. }
    unfold decodeE. rewrite G. cbn [bind]. cbn [In] in H.
    repeat (destruct H as [H|H]; [subst; reflexivity|]). contradiction. }
  split; [auto|]. unfold evalE. cbn [evalLoop]. rewrite D by exact H.
  rewrite zlen_cons. pose proof (zlen_nonneg rest). replace (0 =? zlen rest + 1) with false by lia. reflexivity.
Qed.
Print Assumptions C17_unimplemented_refuted.

(** C18: the code has undefined behaviour where it should throw. *)
Theorem C18_underflow_refuted : forall fuel e op, In op [6; 25; 26; 27; 28; 29; 30; 31; 32; 33; 34; 36; 37; 38; 39; 41; 42; 43; 44; 45; 46] ->
  evalE (S fuel) [op] e [] 0 1 = UB.
Proof. intros fuel e op H. cbn [In] in H. repeat (destruct H as [H|H]; [subst; reflexivity|]). contradiction. Qed.
Print Assumptions C18_underflow_refuted.
Theorem C18_div_shift_refuted : forall e n,
  evalE 10 [48; 27] e [n] 0 2 = UB /\ evalE 10 [48; 29] e [n] 0 2 = UB /\
  evalE 10 (encodeE [PConstu 64; PShl]) e [n] 0 3 = UB /\ evalE 10 (encodeE [PConstu 64; PShr]) e [n] 0 3 = UB.
Proof. intros. repeat split; vm_compute; reflexivity. Qed.
Print Assumptions C18_div_shift_refuted.
Theorem C18_empty_expression_refuted : forall fuel data e off, evalE (S fuel) data e [] off off = UB.
Proof. intros. unfold evalE. cbn [evalLoop]. rewrite Z.eqb_refl. reflexivity. Qed.
Print Assumptions C18_empty_expression_refuted.
(** What holds: an expression whose meaning is defined and within the agreed operations (C17)
    never goes off its stack, and truncated or unknown operations throw. *)
Theorem C18_defined_is_safe_partial : forall data e se off p fuel stk0 v rest,
  Forall isByte data -> zlen data + 32 < W64 -> envRel e se -> eFb e = None -> sFrameBase se = 0 ->
  Forall wfO p -> at_ data off (encodeE p) -> Forall isWord stk0 ->
  safeRun se p stk0 = true -> runE se p stk0 = Some (v :: rest) -> (length p + 1 < fuel)%nat ->
  evalE fuel data e stk0 off (off + zlen (encodeE p)) <> UB.
Proof.
  intros data e se off p fuel stk0 v rest H1 H2 H3 H4 H5 H6 H7 H8 H9 H10 H11.
  rewrite (evalE_correct data e se off p 0 [] fuel stk0 v rest); try assumption; try discriminate.
  left. auto.
Qed.
Print Assumptions C18_defined_is_safe_partial.

(** C63: evaluation ends on every input, malformed or not, if there is no frame base expression;
    a frame base that refers to itself recurses without end. *)
Theorem C63_evaluation_terminates_partial : forall data e stk0 off end_, eFb e = None -> 0 <= off ->
  evalE (S (length data)) data e stk0 off end_ <> OutOfFuel.
Proof. exact evalE_terminates. Qed.
Print Assumptions C63_evaluation_terminates_partial.
Theorem C63_recursive_frame_base_refuted : forall fuel regs cfa mem reloc s,
  evalLoop fuel [145; 0] (mkEnv regs cfa mem reloc (Some (0, 2))) 2 0 s = OutOfFuel.
Proof.
  induction fuel as [|fuel IH]; intros; [reflexivity|]. cbn [evalLoop Z.eqb].
  replace (decodeE [145; 0] 0) with (@Ok (eop * Z) (OFbreg 0, 2)) by (vm_compute; reflexivity).
  cbn [bind eFb]. rewrite IH. reflexivity.
Qed.
Print Assumptions C63_recursive_frame_base_refuted.
Example C63_nonvacuous : eFb C17_env0 = None /\ evalE 3 [163; 255] C17_env0 [] 0 2 = Throw /\
  evalE (S 4) [163; 2; 49; 50] C17_env0 [] 0 4 = Ok 2.
Proof. repeat split; vm_compute; reflexivity. Qed.

(** C53.  [abiRegs]: the psABI's numbering and the field holding each register (RegsProofs.v). *)
Theorem C53_abi_numbering : forall r n c, In (n, c) abiRegs -> exists k, getDwarf r n = Ok (k, r c).
Proof. exact abi_reads. Qed.
Print Assumptions C53_abi_numbering.
Theorem C53_set_then_get_partial : forall r reg v r', setDwarf r reg v = Ok r' -> opReg reg <> NotUsed ->
  getDwarf r' reg = Ok v /\
  forall reg2, reg2 <> reg -> ~ mmxAlias reg reg2 -> getDwarf r' reg2 = getDwarf r reg2.
Proof. intros r reg v r' H1 H2. split; [eapply set_get; eauto|intros; eapply set_other; eauto]. Qed.
Print Assumptions C53_set_then_get_partial.
Theorem C53_general_registers_settable : forall r reg v, 0 <= reg <= 16 ->
  exists r', setDwarf r reg (KU64, v) = Ok r' /\ gpGet r' reg = Ok v.
Proof.
  intros r reg v H. destruct (gp_range reg H) as [c Hc].
  destruct (set_ok r reg (KU64, v) c KU64 Hc eq_refl) as [r' Hr]. exists r'. split; [exact Hr|].
  unfold gpGet. rewrite (set_get r reg (KU64, v) r' Hr) by congruence. reflexivity.
Qed.
Print Assumptions C53_general_registers_settable.
(** mm0 (41) is a part of st0 (33); the code stores it over xmm0 (17) instead. *)
Theorem C53_mmx_alias_refuted : forall r, exists r', setDwarf r 41 (KSimd64, 5) = Ok r' /\ getDwarf r' 17 = Ok (KSimd128, 5) /\
  getDwarf r' 33 = getDwarf r 33.
Proof. intros r. eexists. split; [reflexivity|]. split; reflexivity. Qed.
Print Assumptions C53_mmx_alias_refuted.
(** Registers 60, 61 and 67-154 are neither stored nor rejected: a write is silently lost. *)
Theorem C53_lost_write_refuted : forall r reg v, 67 <= reg <= 154 ->
  setDwarf r reg (KChar, v) = Ok r /\ getDwarf r reg = Ok (KChar, 0).
Proof.
  intros r reg v H. assert (E : opReg reg = NotUsed).
  { unfold opReg. repeat match goal with |- context [if ?b then _ else _] => destruct b eqn:? end; try reflexivity; lia. }
  unfold setDwarf, getDwarf. rewrite E. split; reflexivity.
Qed.
Print Assumptions C53_lost_write_refuted.
Theorem C53_unknown_rejected : forall r reg v, 154 < reg \/ reg < -5 \/ reg = 56 \/ reg = 57 \/ reg = 62 \/ reg = 63 ->
  getDwarf r reg = Throw /\ setDwarf r reg v = Throw.
Proof.
  intros r reg v H. assert (E : opReg reg = Rejected).
  { unfold opReg. repeat match goal with |- context [if ?b then _ else _] => destruct b eqn:? end; try reflexivity; lia. }
  unfold setDwarf, getDwarf. rewrite E. split; reflexivity.
Qed.
Print Assumptions C53_unknown_rejected.
Example C53_nonvacuous : forall r, exists r', setDwarf r 7 (KU64, 140737488347136) = Ok r' /\ opReg 7 <> NotUsed /\
  gpGet r' 7 = Ok 140737488347136 /\ getDwarf r' 6 = getDwarf r 6.
Proof. intros r. eexists. split; [reflexivity|]. split; [discriminate|]. split; reflexivity. Qed.
