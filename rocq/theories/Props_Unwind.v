(** Properties C20, C21 and C38: unwinding. *)
From Verif Require Import Base Leb LebSpec DwarfReader DwarfReaderProofs Regs Cfi CfiSpec CfiProofs Expr ExprSpec ExprProofs
  ArgsSpec ArgsProofs ReaderArrayProofs Unwind UnwindSpec UnwindProofs UnwindProofs2.

(** C20.  The frame's code has the call frame information [cieP], [fdeP] (encoded in the section);
    [w] is the row in force at its object-relative pc.  [se] describes the callee's registers and
    memory; [C] is the CFA.  [ruleValue] (UnwindSpec.v) is what the standard and the ABI say a
    register holds in the caller.  The step yields that for every general register, and for the pc
    what the rule of the return address column says; there is no caller exactly when that column is
    undefined or the CFA is 0.
    A register other than these (vector, floating point, flags, segments, control words: [saveWidth]) that is saved at an
    offset from the CFA gets the bytes of its own width found there, and keeps its value if it has no rule.
    Partial: rules of other kinds for those registers, and rules of general registers whose value cannot be obtained
    (see below), are excluded. *)
Theorem C20_unwind_step_partial : forall p f ci cieP fdeP ct rows w se C fuel,
  pInfo p (scopeIP p f) = Some ci ->
  let data := ciData ci in let pc := u64 (scopeIP p f - ciReloc ci) in
  let ca := codeAlign (ciParams ci) in let da := dataAlign (ciParams ci) in
  Forall isByte data -> zlen data + 32 < W64 -> (2 * length data + 2 < fuel)%nat -> 0 <= ca ->
  at_ data (ciCieInsns ci) (encodeP cieP) -> ciCieEnd ci = ciCieInsns ci + zlen (encodeP cieP) ->
  at_ data (ciFdeInsns ci) (encodeP fdeP) -> ciFdeEnd ci = ciFdeInsns ci + zlen (encodeP fdeP) ->
  forallb (wfI ca da) cieP = true -> forallb (wfI ca da) fdeP = true ->
  runS ca da noRules (emptyRow, []) cieP = Some ct -> rowLoc (fst ct) < W64 ->
  table ca da (rowRule (fst ct)) (mkRow (ciIloc ci) (rowRule (fst ct)) (rowCfa (fst ct)), []) fdeP = Some rows ->
  locsFit rows -> ciIloc ci <= pc -> rowAt pc rows = Some w ->
  envRel (mkEnv (fRegs f) (fCfa f) (pMem p) (ciReloc ci) None) se -> sFrameBase se = 0 ->
  cfaValue se (rowCfa w) C ->
  (forall r, ~ gp r -> rowRule w r = RuleDefault \/ rowRule w r = RuleUndefined \/ exists n off, saveWidth r = Some n /\ rowRule w r = RuleOffset off) ->
  (forall r, gp r -> rowRule w r = RuleUndefined \/ exists v, ruleValue (withCfa se C) r (rowRule w r) v) ->
  gp (ciRar ci) ->
  exists f' o, unwindFrame fuel p f = (f', Ok o) /\ fCfa f' = C /\ fRegs f' = fRegs f /\
    match o with
    | None => rowRule w (ciRar ci) = RuleUndefined \/ C = 0
    | Some out => rowRule w (ciRar ci) <> RuleUndefined /\ C <> 0 /\
        (forall r v, 0 <= r <= 15 -> ruleValue (withCfa se C) r (rowRule w r) v -> gpGet out r = Ok v) /\
        (forall v, ruleValue (withCfa se C) (ciRar ci) (rowRule w (ciRar ci)) v -> gpGet out 16 = Ok v) /\
        (forall r n, saveWidth r = Some n -> match rowRule w r with
           | RuleOffset off => forall bs, length bs = n -> holds (pMem p) ((C + off) mod 2 ^ 64) bs -> exists k, getDwarf out r = Ok (k, leValue bs)
           | _ => getDwarf out r = getDwarf (fRegs f) r end)
    end.
Proof.
  intros p f ci cieP fdeP ct rows w se C fuel Hci data pc ca da Hd Hw Hfuel Hca Hc1 Hc2 Hf1 Hf2 Hwf1 Hwf2 Hrun Hl Ht Hfit Hpc Hrow He Hs0 HC Hdom Hval Hrar.
  destruct (unwindFrame_correct p f ci cieP fdeP ct rows w se C fuel Hci Hd Hw Hfuel Hca Hc1 Hc2 Hf1 Hf2 Hwf1 Hwf2 Hrun Hl Ht Hfit Hpc Hrow He Hs0 HC Hdom Hval Hrar) as (f' & o & E1 & E2 & E3 & Eo).
  exists f', o. split; [exact E1|]. split; [exact E2|]. split; [exact E3|]. destruct o as [out|]; [|exact Eo]. destruct Eo as (A1 & A2 & A3 & A4 & A5). split; [exact A1|]. split; [exact A2|]. split; [exact A3|]. split; [exact A4|].
  intros r n W. specialize (A5 r n W). destruct (rowRule w r); try exact A5. intros bs L Hm. apply A5. unfold u64. change W64 with (2 ^ 64).
  apply (proj2 (memread_some_iff _ _ n bs)). subst n. split; [now apply holds_prefix|reflexivity].
Qed.
Print Assumptions C20_unwind_step_partial.

(** A frame of a function compiled with frame pointers: CFA = rbp+16, rbp at CFA-16, return address
    at CFA-8; stack at 4096. *)
Definition C20_cie : list sinsn := [SDefCfa 7 8; SOffset 16 1].
Definition C20_fde : list sinsn := [SAdvanceLoc 1; SDefCfaOffset 16; SOffset 6 2; SAdvanceLoc 3; SDefCfaRegister 6].
Definition C20_data : list Z := encodeP C20_cie ++ encodeP C20_fde.
Definition C20_ci : codeInfo :=
  mkCI C20_data (mkCie 1 (-8)) 0 (zlen (encodeP C20_cie)) (zlen (encodeP C20_cie)) (zlen C20_data) 256 16 false 65536.
Definition C20_mem : memory := fun a => znth (a - 4096) (leBytes 8 8192 ++ leBytes 8 66000 ++ leBytes 8 0).
Definition C20_proc : process := mkProc C20_mem (fun a => if (65792 <=? a) && (a <? 66048) then Some C20_ci else None) (fun _ => true).
Definition C20_regs : coreRegs := fun c => if cell_eq_dec c U_rbp then 4096 else if cell_eq_dec c U_rsp then 4000
  else if cell_eq_dec c U_rip then 65800 else 11.
Example C20_nonvacuous :
  let f := newFrame MachineRegs C20_regs in
  pInfo C20_proc (scopeIP C20_proc f) = Some C20_ci /\
  forallb (wfI 1 (-8)) C20_cie = true /\ forallb (wfI 1 (-8)) C20_fde = true /\
  match runS 1 (-8) noRules (emptyRow, []) C20_cie with
  | Some ct => match table 1 (-8) (rowRule (fst ct)) (mkRow 256 (rowRule (fst ct)) (rowCfa (fst ct)), []) C20_fde with
               | Some rows => match rowAt (65800 - 65536) rows with
                              | Some w => rowCfa w = CfaRegOff 6 16 /\ rowRule w 6 = RuleOffset (-16) /\ rowRule w 16 = RuleOffset (-8)
                              | None => False end
               | None => False end
  | None => False end /\
  match unwindFrame 100 C20_proc f with
  | (f', Ok (Some out)) => fCfa f' = 4112 /\ gpGet out 7 = Ok 4112 /\ gpGet out 6 = Ok 8192 /\ gpGet out 16 = Ok 66000 /\ gpGet out 3 = Ok 11
  | _ => False
  end.
Proof. vm_compute. repeat split. Qed.

(** A frame that saves xmm6 (DWARF register 23) at CFA-32 and mxcsr (64) at CFA-40. *)
Definition C20v_fde : list sinsn := [SAdvanceLoc 1; SDefCfaOffset 16; SOffset 6 2; SOffsetExt 23 4; SOffsetExtSf 64 5; SAdvanceLoc 3; SDefCfaRegister 6].
Definition C20v_data : list Z := encodeP C20_cie ++ encodeP C20v_fde.
Definition C20v_ci : codeInfo :=
  mkCI C20v_data (mkCie 1 (-8)) 0 (zlen (encodeP C20_cie)) (zlen (encodeP C20_cie)) (zlen C20v_data) 256 16 false 65536.
Definition C20v_mem : memory := fun a => znth (a - 4072) (leBytes 8 77 ++ leBytes 8 1 ++ leBytes 8 2 ++ leBytes 8 8192 ++ leBytes 8 66000 ++ leBytes 8 0).
Example C20_vector_nonvacuous :
  match unwindFrame 100 (mkProc C20v_mem (fun a => if (65792 <=? a) && (a <? 66048) then Some C20v_ci else None) (fun _ => true)) (newFrame MachineRegs C20_regs) with
  | (f', Ok (Some out)) => fCfa f' = 4112 /\ gpGet out 6 = Ok 8192 /\ getDwarf out 23 = Ok (KSimd128, leValue (leBytes 8 1 ++ leBytes 8 2)) /\ getDwarf out 64 = Ok (KU32, 77) /\ getDwarf out 24 = Ok (KSimd128, 11)
  | _ => False
  end /\
  match runS 1 (-8) noRules (emptyRow, []) C20_cie with
  | Some ct => match table 1 (-8) (rowRule (fst ct)) (mkRow 256 (rowRule (fst ct)) (rowCfa (fst ct)), []) C20v_fde with
               | Some rows => match rowAt (65800 - 65536) rows with
                              | Some w => rowRule w 23 = RuleOffset (-32) /\ rowRule w 64 = RuleOffset (-40) /\ rowRule w 24 = RuleDefault
                              | None => False end
               | None => False end
  | None => False end.
Proof. vm_compute. repeat split. Qed.
(** If the return address slot is unreadable the failure is swallowed and the "caller" is given
    the callee's own pc. *)
Theorem C20_unreadable_return_refuted :
  let p := mkProc (fun _ => None) (pInfo C20_proc) (fun _ => true) in
  match unwindFrame 100 p (newFrame MachineRegs C20_regs) with
  | (f', Ok (Some out)) => gpGet out 16 = gpGet C20_regs 16
  | _ => False
  end.
Proof. vm_compute. reflexivity. Qed.
Print Assumptions C20_unreadable_return_refuted.

(** C21.  A frame's pc is "in signal code" when the frame information of that address is marked as
    a signal frame.  The scope address of: the innermost frame is its pc; a frame whose pc is in
    signal code is its pc; a frame reached by call frame information from a frame in signal code is
    its pc; any other frame's is its pc - 1. *)
Theorem C21_innermost_exact : forall fuel p maxframes regs l b, unwindStack fuel p maxframes regs = Ok (l, b) ->
  exists f rest, l = f :: rest /\ fRegs f = regs /\ scopeIP p f = regs U_rip.
Proof.
  intros fuel p maxframes regs l b H. unfold unwindStack in H.
  destruct (walk_chain fuel p _ [] (newFrame MachineRegs regs) l b eq_refl H) as (a & t & -> & _ & M & R & _).
  exists a, t. split; [reflexivity|]. split; [exact R|]. unfold scopeIP, rawIP. rewrite M, R. cbn.
  now destruct (regs U_rip =? 0).
Qed.
Print Assumptions C21_innermost_exact.
Theorem C21_signal_code_exact : forall p f, infoSig p (rawIP f) = true -> scopeIP p f = rawIP f.
Proof.
  intros p f H. unfold infoSig in H. unfold scopeIP. destruct (rawIP f =? 0); [reflexivity|].
  destruct (pInfo p (rawIP f)) as [ci|]; [|discriminate]. rewrite H.
  destruct (fMech f); try reflexivity; destruct (fSigTramp f); try reflexivity; destruct (fFromTramp f); reflexivity.
Qed.
Print Assumptions C21_signal_code_exact.
Theorem C21_interrupted_exact : forall fuel p maxframes regs l b l1 x y l2,
  unwindStack fuel p maxframes regs = Ok (l, b) -> l = l1 ++ x :: y :: l2 ->
  infoSig p (rawIP x) = true -> fMech y = Dwarf -> scopeIP p y = rawIP y.
Proof.
  intros fuel p maxframes regs l b l1 x y l2 H -> Hsig Hy. unfold unwindStack in H.
  destruct (walk_chain fuel p _ [] (newFrame MachineRegs regs) _ b eq_refl H) as (a & t & El & C & _).
  cbn [rev app] in El. rewrite <- El in C. apply chain_split in C; [|discriminate].
  inversion C as [|? ? ? Hx Hlink Hc]; subst.
  assert (Hxs : fSigTramp x = true).
  { rewrite Hx. pose proof (C21_signal_code_exact p (unflag x) Hsig) as E. rewrite E. exact Hsig. }
  unfold scopeIP. destruct (rawIP y =? 0); [reflexivity|]. rewrite Hy. destruct (fSigTramp y); [reflexivity|].
  destruct Hlink as [[_ ->]|[[X|X] _]]; [now rewrite Hxs|congruence|congruence].
Qed.
Print Assumptions C21_interrupted_exact.
Theorem C21_call_minus_one : forall fuel p maxframes regs l b l1 x y l2,
  unwindStack fuel p maxframes regs = Ok (l, b) -> l = l1 ++ x :: y :: l2 ->
  infoSig p (rawIP x) = false -> infoSig p (u64 (rawIP x - 1)) = false ->
  infoSig p (rawIP y) = false -> infoSig p (u64 (rawIP y - 1)) = false ->
  rawIP y <> 0 -> scopeIP p y = u64 (rawIP y - 1).
Proof.
  intros fuel p maxframes regs l b l1 x y l2 H -> Hx1 Hx2 Hy1 Hy2 Hne. unfold unwindStack in H.
  destruct (walk_chain fuel p _ [] (newFrame MachineRegs regs) _ b eq_refl H) as (a & t & El & C & _).
  cbn [rev app] in El. rewrite <- El in C. apply chain_split in C; [|discriminate].
  inversion C as [|? ? ? Hx Hlink Hc]; subst.
  assert (S : forall g, infoSig p (rawIP g) = false -> infoSig p (u64 (rawIP g - 1)) = false -> infoSig p (scopeIP p (unflag g)) = false).
  { intros g H1 H2. unfold scopeIP. change (rawIP (unflag g)) with (rawIP g). cbn [fMech fSigTramp fFromTramp unflag].
    repeat match goal with |- context [match ?x with _ => _ end] => destruct x end; assumption. }
  assert (Hys : fSigTramp y = false).
  { inversion Hc as [? Hl|? ? ? Hg _ _]; subst.
    - destruct (fSigTramp y); [|reflexivity]. specialize (Hl eq_refl). rewrite (S y Hy1 Hy2) in Hl. discriminate.
    - rewrite Hg. now apply S. }
  assert (Hxs : fSigTramp x = false) by (rewrite Hx; now apply S).
  unfold scopeIP. replace (rawIP y =? 0) with false by lia. rewrite Hys.
  assert (Hfrom : fFromTramp y = false) by (destruct Hlink as [[_ ->]|[_ ->]]; auto).
  assert (Hm : fMech y = Dwarf \/ fMech y = FramePointer \/ fMech y = BadIpRecovery) by tauto.
  rewrite Hfrom. unfold infoSig in Hy1.
  destruct Hm as [-> |[-> | ->]]; destruct (pInfo p (rawIP y)) as [ci|]; try reflexivity; now rewrite Hy1.
Qed.
Print Assumptions C21_call_minus_one.

(** Two functions and a trampoline: handler (65800, called), __restore_rt at 70000, interrupted
    function at 66001. *)
Definition C21_sig : codeInfo :=
  mkCI C20_data (mkCie 1 (-8)) 0 (zlen (encodeP C20_cie)) (zlen (encodeP C20_cie)) (zlen C20_data) 4400 16 true 65536.
Definition C21_mem : memory := fun a => znth (a - 4096) (leBytes 8 4112 ++ leBytes 8 70000 ++ leBytes 8 4128 ++ leBytes 8 66001 ++ leBytes 8 0 ++ leBytes 8 66020).
Definition C21_proc : process := mkProc C21_mem
  (fun a => if (65792 <=? a) && (a <? 66048) then Some C20_ci else if (69999 <=? a) && (a <? 70010) then Some C21_sig else None) (fun _ => true).
Example C21_nonvacuous :
  match unwindStack 100 C21_proc 3 C20_regs with
  | Ok (l, b) => map rawIP l = [65800; 70000; 66001; 66020] /\ map (scopeIP C21_proc) l = [65800; 70000; 66001; 66019] /\
                 map (fun x => infoSig C21_proc (rawIP x)) l = [false; true; false; false]
  | _ => False
  end.
Proof. vm_compute. repeat split. Qed.

(** C38.  Never more than maxframes + 1 frames (and at least one), whatever the process contains. *)
Theorem C38_frame_limit : forall fuel p maxframes regs l b, unwindStack fuel p maxframes regs = Ok (l, b) ->
  1 <= zlen l <= Z.max 0 maxframes + 1.
Proof. intros fuel p maxframes regs l b H. apply walk_length in H. cbn [length] in H. unfold zlen. lia. Qed.
Print Assumptions C38_frame_limit.
(** The walk ends, whatever memory and registers contain, if no frame section makes the
    instruction cursor go backwards ([sane]); otherwise it may not. *)
Theorem C38_walk_terminates_partial : forall fuel p maxframes regs,
  (forall a ci, pInfo p a = Some ci -> sane fuel ci) -> unwindStack fuel p maxframes regs <> OutOfFuel.
Proof. intros fuel p maxframes regs H. apply walk_terminates. intros f. now apply unwindFrame_fuel. Qed.
Print Assumptions C38_walk_terminates_partial.
(** the section [DW_CFA_def_cfa_expression, length 2^64 - 11]: the cursor returns to the start *)
Definition C38_data : list Z := 15 :: uleb (W64 - 11).
Definition C38_ci : codeInfo := mkCI C38_data (mkCie 1 (-8)) 0 0 0 5 0 16 false 0.
Theorem C38_backwards_refuted : forall fuel regs maxframes, 0 < maxframes -> regs U_rip = 100 ->
  unwindStack fuel (mkProc (fun _ => None) (fun _ => Some C38_ci) (fun _ => false)) maxframes regs = OutOfFuel.
Proof.
  intros fuel regs maxframes Hm Hip. unfold unwindStack. destruct (Z.to_nat maxframes) as [|k] eqn:E; [lia|].
  cbn [walk]. set (p := mkProc _ _ _).
  assert (L : forall n s, loc s = 0 -> execLoop n C38_data (mkCie 1 (-8)) frame0 (fun l => 100 <? l) 5 0 s = OutOfFuel).
  { induction n as [|n IH]; intros s Hs; [reflexivity|]. cbn [execLoop]. rewrite Hs. cbn [Z.ltb Z.compare Z.eqb orb].
    replace (decodeInsn C38_data 0) with (@Ok (insn * Z) (IDefCfaExpression 11 (W64 - 11), 0)) by (vm_compute; reflexivity).
    cbn [bind execInsn]. apply IH. exact Hs. }
  unfold unwindFrame. assert (Sc : scopeIP p (newFrame MachineRegs regs) = 100).
  { unfold scopeIP, rawIP. cbn [fRegs newFrame fMech]. rewrite Hip. reflexivity. }
  rewrite Sc. unfold p. cbn [pInfo ciData C38_ci ciParams ciCieInsns ciCieEnd ciFdeInsns ciFdeEnd ciIloc ciReloc].
  unfold fdeExec, defaultFrame.
  replace (u64 (100 - 0)) with 100 by reflexivity.
  destruct fuel as [|fuel]; [reflexivity|].
  assert (D : execLoop (S fuel) C38_data (mkCie 1 (-8)) frame0 (fun _ => false) 0 0 (mkSt 0 frame0 []) = Ok frame0) by reflexivity.
  rewrite D. cbn [bind]. rewrite L by reflexivity. reflexivity.
Qed.
Print Assumptions C38_backwards_refuted.
Example C38_terminates_nonvacuous : forall a ci, pInfo C21_proc a = Some ci -> sane 100 ci.
Proof.
  intros a ci. cbn [pInfo C21_proc].
  destruct (_ && _); [|destruct (_ && _)]; intros H; try discriminate; apply Some_inj in H; subst;
    (split; [apply forward_check; vm_compute; reflexivity|split; [vm_compute; repeat constructor|split; vm_compute; discriminate]]).
Qed.
Example C38_nonvacuous : match unwindStack 100 C21_proc 2 C20_regs with Ok (l, b) => zlen l = 3 /\ b = false | _ => False end.
Proof. vm_compute. repeat split. Qed.
