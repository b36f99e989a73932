(** Property C19: location lists. *)
From Verif Require Import Base LebSpec Cfi CfiSpec CfiProofs Regs Expr ExprSpec Loclist LoclistSpec LoclistProofs.

(** The list [l] is encoded at [off]; [reloc] is the load bias, [reloc + pc] the process pc, so [pc]
    is object-relative; [low] the unit's base address.  If the standard picks a description, that
    block is what is evaluated; if it picks none, the answer is 0.
    Partial: lists of offset_pair, base_address and (while the base is 0) start_length entries; the
    refuted theorems below show what goes wrong for the other entries, and that the answer 0 is not
    distinguishable from a value. *)
Theorem C19_loclist_v5_partial : forall data asec reloc low pc l off fuel version e,
  Forall isByte data -> zlen data + 32 < W64 -> 5 <= version ->
  Forall wfL l -> agrees low l -> noWrap reloc (bounded low l) ->
  at_ data off (encodeList l) -> (length l < fuel)%nat ->
  match pick pc (bounded low l) with
  | Some blk => exists o, at_ data o blk /\
      evalLoclist fuel version data asec reloc low (reloc + pc) off e = evalE fuel data e [] o (o + zlen blk)
  | None => evalLoclist fuel version data asec reloc low (reloc + pc) off e = Ok 0
  end.
Proof.
  intros data asec reloc low pc l off fuel version e Hd Hw Hv Hwf Hag Hnw Hat Hf.
  destruct (sel5_pick data asec reloc pc Hd Hw l low off fuel Hwf Hag Hnw Hat Hf) as (r & Er & Hr).
  unfold evalLoclist, selectLoc. replace (version >=? 5) with true by lia. rewrite Er. cbn [bind].
  destruct (pick pc (bounded low l)) as [blk|], r as [[o en]|]; cbn in Hr; try contradiction; [|reflexivity].
  destruct Hr as [H1 ->]. eauto.
Qed.
Print Assumptions C19_loclist_v5_partial.

Theorem C19_loclist_v4_partial : forall data asec reloc low pc l off fuel version e,
  Forall isByte data -> zlen data + 32 < W64 -> version < 5 ->
  Forall wfL4 l -> (forall a, ~ In (L4Base a) l) -> noWrap reloc (bounded4 low l) ->
  at_ data off (encodeList4 l) -> (length l < fuel)%nat ->
  match pick pc (bounded4 low l) with
  | Some blk => exists o, at_ data o blk /\
      evalLoclist fuel version data asec reloc low (reloc + pc) off e = evalE fuel data e [] o (o + zlen blk)
  | None => evalLoclist fuel version data asec reloc low (reloc + pc) off e = Ok 0
  end.
Proof.
  intros data asec reloc low pc l off fuel version e Hd Hw Hv Hwf Hag Hnw Hat Hf.
  destruct (sel4_pick data reloc low pc Hd Hw l off fuel Hwf Hag Hnw Hat Hf) as (r & Er & Hr).
  unfold evalLoclist, selectLoc. replace (version >=? 5) with false by lia. rewrite Er. cbn [bind].
  destruct (pick pc (bounded4 low l)) as [blk|], r as [[o en]|]; cbn in Hr; try contradiction; [|reflexivity].
  destruct Hr as [H1 ->]. eauto.
Qed.
Print Assumptions C19_loclist_v4_partial.

(** Two ranges around a base change; pc in the second. *)
Definition C19_l : list lle := [LOffsetPair 0 16 [48]; LBaseAddress 4096; LOffsetPair 4 300 [49; 50; 34]].
Definition C19_l4 : list le4 := [L4Pair 0 16 [48]; L4Pair 16 32 [49; 50; 34]].
Definition C19_env : env := mkEnv (fun _ => 0) 0 (fun _ => None) 0 None.
Example C19_nonvacuous :
  Forall isByte (encodeList C19_l) /\ Forall wfL C19_l /\ agrees 1024 C19_l /\ noWrap 65536 (bounded 1024 C19_l) /\
  at_ (encodeList C19_l) 0 (encodeList C19_l) /\ pick 4100 (bounded 1024 C19_l) = Some [49; 50; 34] /\
  evalLoclist 10 5 (encodeList C19_l) [] 65536 1024 (65536 + 4100) 0 C19_env = Ok 3 /\
  pick 4396 (bounded 1024 C19_l) = None /\ pick 1039 (bounded 1024 C19_l) = Some [48] /\
  pick (1024 + 20) (bounded4 1024 C19_l4) = Some [49; 50; 34] /\
  evalLoclist 10 4 (encodeList4 C19_l4) [] 65536 1024 (65536 + 1044) 0 C19_env = Ok 3.
Proof.
  split. { apply Forall_forall. intros x Hx. assert (H : forallb (fun b => (0 <=? b) && (b <? 256)) (encodeList C19_l) = true) by (vm_compute; reflexivity).
           rewrite forallb_forall in H. specialize (H x Hx). unfold isByte. lia. }
  split. { unfold C19_l. repeat constructor; vm_compute; discriminate. }
  split; [exact I|].
  split. { unfold C19_l. cbn [bounded]. unfold noWrap. repeat constructor; vm_compute; discriminate. }
  split. { split; [lia|]. exists []. now rewrite app_nil_r. }
  repeat split; vm_compute; reflexivity.
Qed.

(** An absolute start_length entry in a unit whose low_pc is not 0 is displaced by low_pc. *)
Theorem C19_start_length_refuted :
  let l := [LStartLength 4096 16 [49]] in
  pick 4100 (bounded 4096 l) = Some [49] /\
  evalLoclist 10 5 (encodeList l) [] 0 4096 4100 0 C19_env = Ok 0 /\
  pick 8196 (bounded 4096 l) = None /\
  evalLoclist 10 5 (encodeList l) [] 0 4096 8196 0 C19_env = Ok 1.
Proof. repeat split; vm_compute; reflexivity. Qed.
Print Assumptions C19_start_length_refuted.
(** Lists with start_end or default_location entries are rejected. *)
Theorem C19_unhandled_refuted :
  pick 4100 (bounded 0 [LStartEnd 4096 8192 [49]]) = Some [49] /\
  evalLoclist 10 5 (encodeList [LStartEnd 4096 8192 [49]]) [] 0 0 4100 0 C19_env = Throw /\
  evalLoclist 10 5 (encodeList [LDefault [49]]) [] 0 0 4100 0 C19_env = Throw.
Proof. repeat split; vm_compute; reflexivity. Qed.
Print Assumptions C19_unhandled_refuted.
(** DWARF 4 base address selection is taken for a range, its operand for a size. *)
Theorem C19_base_selection_refuted :
  let l := [L4Base 4096; L4Pair 0 16 [49]] in
  pick 4100 (bounded4 0 l) = Some [49] /\
  evalLoclist 10 4 (encodeList4 l) [] 0 0 4100 0 C19_env = Throw.
Proof. repeat split; vm_compute; reflexivity. Qed.
Print Assumptions C19_base_selection_refuted.
(** base_addressx 0 (whose .debug_addr entry is 4096) forgets the load bias 65536: the variable is
    not found at its run-time address. *)
Theorem C19_base_addressx_refuted :
  evalLoclist 10 5 [1; 0; 4; 0; 16; 1; 49; 0] (leBytes 8 4096) 65536 0 (65536 + 4100) 0 C19_env = Ok 0 /\
  evalLoclist 10 5 [1; 0; 4; 0; 16; 1; 49; 0] (leBytes 8 4096) 65536 0 4100 0 C19_env = Ok 1.
Proof. split; vm_compute; reflexivity. Qed.
Print Assumptions C19_base_addressx_refuted.
(** An unavailable variable and one whose location evaluates to 0 get the same answer. *)
Theorem C19_unavailable_refuted :
  let l := [LOffsetPair 0 16 [48]] in
  pick 4 (bounded 0 l) = Some [48] /\ pick 20 (bounded 0 l) = None /\
  evalLoclist 10 5 (encodeList l) [] 0 0 4 0 C19_env = evalLoclist 10 5 (encodeList l) [] 0 0 20 0 C19_env.
Proof. repeat split; vm_compute; reflexivity. Qed.
Print Assumptions C19_unavailable_refuted.
