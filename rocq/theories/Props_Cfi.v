(** Properties C13-C16: call frame information. *)
From Verif Require Import Base LebSpec DwarfReader Cfi CfiSpec CfiProofs CfiProofs2.

(** C13.  [iloc e, iloc e + irange e) is the range of an FDE. *)
Definition fdeRangesFit (fdes : list fde) : Prop :=
  forall e, In e fdes -> 0 <= iloc e /\ 0 <= irange e /\ iloc e + irange e < W64.
(** Whatever the table: terminates, stays in bounds, and any answer covers the address. *)
Theorem C13_lookup_sound : forall fdes addr, fdeRangesFit fdes ->
  (exists e, findFDE fdes addr = Ok (Some e) /\ In e fdes /\ iloc e <= addr < iloc e + irange e) \/
  findFDE fdes addr = Ok None.
Proof. exact findFDE_any. Qed.
Print Assumptions C13_lookup_sound.
(** On a sorted table with disjoint ranges the answer is exact. *)
Theorem C13_lookup_exact : forall fdes addr,
  ForallOrdPairs (fun a b => iloc a + irange a <= iloc b) fdes -> fdeRangesFit fdes ->
  (exists e, findFDE fdes addr = Ok (Some e) /\ In e fdes /\ iloc e <= addr < iloc e + irange e) \/
  (findFDE fdes addr = Ok None /\ forall e, In e fdes -> ~ iloc e <= addr < iloc e + irange e).
Proof. exact findFDE_sorted. Qed.
Print Assumptions C13_lookup_exact.
Definition C13_table : list fde := [mkFde 16 16; mkFde 32 8; mkFde 100 4].
Example C13_nonvacuous :
  ForallOrdPairs (fun a b => iloc a + irange a <= iloc b) C13_table /\ fdeRangesFit C13_table /\
  findFDE C13_table 39 = Ok (Some (mkFde 32 8)) /\ findFDE C13_table 40 = Ok None /\
  findFDE C13_table 16 = Ok (Some (mkFde 16 16)) /\ findFDE C13_table 103 = Ok (Some (mkFde 100 4)).
Proof.
  split; [|split].
  - repeat constructor; cbn; lia.
  - intros e H. unfold C13_table in H. cbn in H. unfold W64. intuition; subst; cbn; lia.
  - repeat split; vm_compute; reflexivity.
Qed.

(** C14.  [encodeP] is the standard's encoding, [runS]/[table]/[rowAt] its meaning (CfiSpec.v);
    [frameRel data f rules cfa] says the frame has these register rules and this CFA rule, with
    expression blocks being those bytes of the section.  The frame computed for [pc] is the row in
    force at [pc].  Partial: the operands must fit ([wfI]); see the refuted theorems below. *)
Theorem C14_row_in_force_partial :
  forall data ca da cieOff cieP fdeOff fdeP start pc fuel ct rows,
  Forall isByte data -> zlen data + 32 < W64 -> 0 <= ca ->
  at_ data cieOff (encodeP cieP) -> at_ data fdeOff (encodeP fdeP) ->
  forallb (wfI ca da) cieP = true -> forallb (wfI ca da) fdeP = true ->
  runS ca da noRules (emptyRow, []) cieP = Some ct -> rowLoc (fst ct) < W64 ->
  table ca da (rowRule (fst ct)) (mkRow start (rowRule (fst ct)) (rowCfa (fst ct)), []) fdeP = Some rows ->
  locsFit rows -> start <= pc ->
  (length cieP + length fdeP < fuel)%nat ->
  exists f w,
    fdeExec fuel data (mkCie ca da) cieOff (cieOff + zlen (encodeP cieP))
            fdeOff (fdeOff + zlen (encodeP fdeP)) start pc = Ok f /\
    rowAt pc rows = Some w /\ frameRel data f (rowRule w) (rowCfa w).
Proof. exact fdeExec_table. Qed.
Print Assumptions C14_row_in_force_partial.

(** A push/pop function: CFA rsp+8, then rsp+16 after 1 byte, rbp saved, then restored at 32. *)
Definition C14_cie : list sinsn := [SDefCfa 7 8; SOffset 16 1].
Definition C14_fde : list sinsn :=
  [SAdvanceLoc 1; SDefCfaOffset 16; SOffset 6 2; SRemember; SAdvanceLoc1 30; SRestore 6; SDefCfaOffset 8;
   SAdvanceLoc 5; SRestoreState; SValExpression 3 [119; 8]].
Definition C14_data : list Z := encodeP C14_cie ++ encodeP C14_fde.
Definition C14_ct : row * list saved :=
  match runS 1 (-8) noRules (emptyRow, []) C14_cie with Some c => c | None => (emptyRow, []) end.
Definition C14_rows : list row :=
  match table 1 (-8) (rowRule (fst C14_ct)) (mkRow 4096 (rowRule (fst C14_ct)) (rowCfa (fst C14_ct)), []) C14_fde with
  | Some r => r | None => [] end.
Example C14_nonvacuous :
  runS 1 (-8) noRules (emptyRow, []) C14_cie = Some C14_ct /\
  table 1 (-8) (rowRule (fst C14_ct)) (mkRow 4096 (rowRule (fst C14_ct)) (rowCfa (fst C14_ct)), []) C14_fde = Some C14_rows /\
  forallb (wfI 1 (-8)) C14_cie = true /\ forallb (wfI 1 (-8)) C14_fde = true /\ Forall isByte C14_data /\
  at_ C14_data 0 (encodeP C14_cie) /\ at_ C14_data (zlen (encodeP C14_cie)) (encodeP C14_fde) /\ locsFit C14_rows /\
  map rowLoc C14_rows = [4096; 4097; 4127; 4132] /\
  map rowCfa C14_rows = [CfaRegOff 7 8; CfaRegOff 7 16; CfaRegOff 7 8; CfaRegOff 7 16] /\
  (match rowAt 4130 C14_rows with Some w => rowRule w 6 | None => RuleUndefined end) = RuleDefault /\
  (match rowAt 4126 C14_rows with Some w => rowRule w 6 | None => RuleUndefined end) = RuleOffset (-16) /\
  (match rowAt 9999 C14_rows with Some w => rowRule w 3 | None => RuleUndefined end) = RuleValExpression [119; 8].
Proof.
  split; [vm_compute; reflexivity|]. split; [vm_compute; reflexivity|].
  split; [vm_compute; reflexivity|]. split; [vm_compute; reflexivity|].
  split. { apply Forall_forall. intros x Hx. unfold isByte.
           assert (H : forallb (fun b => (0 <=? b) && (b <? 256)) C14_data = true) by (vm_compute; reflexivity).
           rewrite forallb_forall in H. specialize (H x Hx). lia. }
  split. { split; [lia|]. exists (encodeP C14_fde). vm_compute; reflexivity. }
  split. { split; [vm_compute; discriminate|]. exists []. vm_compute; reflexivity. }
  split. { apply Forall_forall. intros x Hx.
           assert (H : forallb (fun w => (0 <=? rowLoc w) && (rowLoc w <? 18446744073709551616)) C14_rows = true) by (vm_compute; reflexivity).
           rewrite forallb_forall in H. specialize (H x Hx). unfold W64. lia. }
  repeat split; vm_compute; reflexivity.
Qed.

(** The scaled advance is computed in 32 bits: advance_loc4 of 2^30 with code alignment 4 does not
    advance at all, so the rules of the next row are applied too early. *)
Theorem C14_advance_wraps_refuted :
  let p := [SDefCfa 7 8; SAdvanceLoc4 1073741824; SDefCfaOffset 16] in
  table 4 1 noRules (mkRow 0 noRules CfaUnset, []) p =
    Some [mkRow 0 noRules (CfaRegOff 7 8); mkRow 4294967296 noRules (CfaRegOff 7 16)] /\
  exists f, fdeExec 10 (encodeP p) (mkCie 4 1) 0 0 0 (zlen (encodeP p)) 0 100 = Ok f /\
    cfaT f = COffset /\ cfaReg f = 7 /\ cfaWord f = 16.
Proof. split; [reflexivity|]. eexists. split; [vm_compute; reflexivity|]. repeat split. Qed.
Print Assumptions C14_advance_wraps_refuted.
(** DW_CFA_val_offset (0x14) and val_offset_sf (0x15) are standard instructions; every program
    containing one is rejected. *)
Theorem C14_val_offset_refuted : forall data off op, zlen data + 32 < W64 -> op = 20 \/ op = 21 ->
  at_ data off [op] -> decodeInsn data off = Throw.
Proof.
  intros data off op Hw Hop Hat. unfold decodeInsn. rewrite (getu8_at data off op Hat) by lia. cbn [bind].
  destruct Hop; subst; reflexivity.
Qed.
Print Assumptions C14_val_offset_refuted.
(** A crafted expression length wraps the cursor back to the instruction itself: execution never ends. *)
Definition C14_evil : list Z := 16 :: 0 :: uleb (W64 - 12) ++ [0].
Theorem C14_terminates_refuted : forall fuel dframe s,
  execLoop fuel C14_evil (mkCie 1 1) dframe (fun _ => false) (zlen C14_evil) 0 s = OutOfFuel.
Proof.
  assert (Hd : decodeInsn C14_evil 0 = Ok (IExpression 0 12 (W64 - 12), 0)) by (vm_compute; reflexivity).
  assert (Hl : (0 =? zlen C14_evil) = false) by (vm_compute; reflexivity).
  generalize dependent C14_evil. intros data Hd Hl.
  induction fuel as [|fuel IH]; intros dframe s; [reflexivity|]. cbn [execLoop orb].
  rewrite Hl, Hd. cbn [bind execInsn]. apply IH.
Qed.
Print Assumptions C14_terminates_refuted.

(** C15.  Executing any program followed by a balanced remember ... restore bracket gives exactly the
    frame of the program without the bracket. *)
Theorem C15_bracket_restores : forall data ca da dframe p q fuel off s f,
  Forall isByte data -> zlen data + 32 < W64 ->
  at_ data off (encodeP (p ++ SRemember :: q ++ [SRestoreState])) ->
  forallb (wfI ca da) p = true -> forallb (wfI ca da) q = true -> balanced q ->
  (length p + length q + 2 < fuel)%nat ->
  execLoop fuel data (mkCie ca da) dframe (fun _ => false) (off + zlen (encodeP p)) off s = Ok f ->
  execLoop fuel data (mkCie ca da) dframe (fun _ => false)
    (off + zlen (encodeP (p ++ SRemember :: q ++ [SRestoreState]))) off s = Ok f.
Proof. exact bracket_restores. Qed.
Print Assumptions C15_bracket_restores.
Example C15_nonvacuous :
  let p := [SDefCfa 7 8] in let q := [SOffset 6 2; SRemember; SDefCfaOffset 64; SRestoreState; SUndefined 3] in
  balanced q /\ forallb (wfI 1 (-8)) q = true /\
  execLoop 20 (encodeP (p ++ SRemember :: q ++ [SRestoreState])) (mkCie 1 (-8)) frame0 (fun _ => false) 3 0
    (mkSt 0 frame0 []) = Ok (mkFrame [] 7 COffset 8 0).
Proof.
  split; [|split; vm_compute; reflexivity].
  apply BalPlain; try discriminate.
  apply (BalNest [SDefCfaOffset 64] [SUndefined 3]); repeat (apply BalPlain; try discriminate); apply BalNil.
Qed.
(** An unmatched restore_state is not rejected: the code reads the top of an empty stack. *)
Theorem C15_unmatched_restore_refuted : forall ca da dframe fuel s, stk s = [] ->
  execLoop (S fuel) (encodeP [SRestoreState]) (mkCie ca da) dframe (fun _ => false) 1 0 s = UB.
Proof. intros ca da dframe fuel s H. cbn. rewrite H. reflexivity. Qed.
Print Assumptions C15_unmatched_restore_refuted.

(** C16.  [fmtBytes f v] encodes [v] in format [f]; the code adds the base of the application. *)
Theorem C16_encoded_pointer_partial : forall data off f v a (ind : bool) sectionAddr sectionVa,
  Forall isByte data -> zlen data + 32 < W64 -> f <> FAbs -> fmtRange f v -> at_ data off (fmtBytes f v) ->
  decodeAddress data off (fmtCode f + appCode a + (if ind then 128 else 0)) sectionAddr sectionVa =
  Ok ((v + match a with AAbs => 0 | APcrel => sectionAddr + off | ATextrel | ADatarel => sectionVa end) mod W64,
      ind, off + zlen (fmtBytes f v)).
Proof. exact decodeAddress_spec. Qed.
Print Assumptions C16_encoded_pointer_partial.
Example C16_nonvacuous :
  let data := [9; 9] ++ fmtBytes FSdata4 (-16) ++ [1] in
  fmtRange FSdata4 (-16) /\ at_ data 2 (fmtBytes FSdata4 (-16)) /\
  decodeAddress data 2 27 4096 0 = Ok (4082, false, 6).
Proof.
  split; [cbn; lia|]. split; [|vm_compute; reflexivity]. split; [lia|]. exists [1]. vm_compute. reflexivity.
Qed.
(** An absolute pointer is 8 bytes on x86-64, but only 4 are read, as a signed number. *)
Theorem C16_absptr_refuted :
  decodeAddress (fmtBytes FAbs 94549317984256) 0 (fmtCode FAbs + appCode AAbs) 0 0 <>
    Ok (94549317984256, false, 8) /\
  decodeAddress (fmtBytes FAbs 2147483648) 0 (fmtCode FAbs + appCode AAbs) 0 0 =
    Ok (18446744071562067968, false, 4).
Proof. split; [vm_compute; discriminate|vm_compute; reflexivity]. Qed.
Print Assumptions C16_absptr_refuted.
