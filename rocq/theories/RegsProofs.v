From Verif Require Import Base Regs.

(** DWARF register number mapping of the x86-64 psABI (figure 3.36), written from the ABI:
    number, and where Linux's user_regs_struct/user_fpregs_struct keep that register. *)
Definition abiRegs : list (Z * cell) :=
  [(0, U_rax); (1, U_rdx); (2, U_rcx); (3, U_rbx); (4, U_rsi); (5, U_rdi); (6, U_rbp); (7, U_rsp);
   (8, U_r8); (9, U_r9); (10, U_r10); (11, U_r11); (12, U_r12); (13, U_r13); (14, U_r14); (15, U_r15);
   (16, U_rip);
   (17, F_xmm 0); (18, F_xmm 1); (19, F_xmm 2); (20, F_xmm 3); (21, F_xmm 4); (22, F_xmm 5); (23, F_xmm 6);
   (24, F_xmm 7); (25, F_xmm 8); (26, F_xmm 9); (27, F_xmm 10); (28, F_xmm 11); (29, F_xmm 12); (30, F_xmm 13);
   (31, F_xmm 14); (32, F_xmm 15);
   (33, F_st 0); (34, F_st 1); (35, F_st 2); (36, F_st 3); (37, F_st 4); (38, F_st 5); (39, F_st 6); (40, F_st 7);
   (49, U_eflags); (50, U_es); (51, U_cs); (52, U_ss); (53, U_ds); (54, U_fs); (55, U_gs);
   (58, U_fs_base); (59, U_gs_base); (64, F_mxcsr); (65, F_cwd); (66, F_swd)].

Lemma kind_eqb_refl k : kind_eqb k k = true. Proof. now destruct k. Qed.
Lemma kind_eqb_eq a b : kind_eqb a b = true <-> a = b.
Proof. destruct a, b; split; intros; try reflexivity; try discriminate. Qed.

Lemma abi_reads r n c : In (n, c) abiRegs -> exists k, getDwarf r n = Ok (k, r c).
Proof.
  intros H. unfold abiRegs in H. cbn [In] in H.
  repeat (destruct H as [H|H]; [inversion H; subst; eexists; reflexivity|]). contradiction.
Qed.

(** The registers opReg places in the same cell. *)
Ltac places H := unfold opReg in H;
  repeat match type of H with
  | context [if ?b then _ else _] => destruct b eqn:?
  end; try discriminate H; inversion H; subst; clear H.

(** Key of a cell, to reason about equality arithmetically. *)
Definition keyOf (c : cell) : Z * Z :=
  match c with
  | U_r15 => (1, 0) | U_r14 => (2, 0) | U_r13 => (3, 0) | U_r12 => (4, 0) | U_rbp => (5, 0) | U_rbx => (6, 0)
  | U_r11 => (7, 0) | U_r10 => (8, 0) | U_r9 => (9, 0) | U_r8 => (10, 0) | U_rax => (11, 0) | U_rcx => (12, 0)
  | U_rdx => (13, 0) | U_rsi => (14, 0) | U_rdi => (15, 0) | U_orig_rax => (16, 0) | U_rip => (17, 0) | U_cs => (18, 0)
  | U_eflags => (19, 0) | U_rsp => (20, 0) | U_ss => (21, 0) | U_fs_base => (22, 0) | U_gs_base => (23, 0)
  | U_ds => (24, 0) | U_es => (25, 0) | U_fs => (26, 0) | U_gs => (27, 0)
  | F_cwd => (28, 0) | F_swd => (29, 0) | F_ftw => (30, 0) | F_fop => (31, 0) | F_rip => (32, 0) | F_rdp => (33, 0)
  | F_mxcsr => (34, 0) | F_mxcr_mask => (35, 0) | F_st k => (36, k) | F_xmm k => (37, k)
  end.
(** The register numbers stored in a cell. *)
Definition regsOf (c : cell) (r : Z) : Prop :=
  match c with
  | U_r15 => r = 15 | U_r14 => r = 14 | U_r13 => r = 13 | U_r12 => r = 12 | U_rbp => r = 6 | U_rbx => r = 3
  | U_r11 => r = 11 | U_r10 => r = 10 | U_r9 => r = 9 | U_r8 => r = 8 | U_rax => r = 0 | U_rcx => r = 2
  | U_rdx => r = 1 | U_rsi => r = 4 | U_rdi => r = 5 | U_orig_rax => False | U_rip => r = 16 | U_cs => r = 51
  | U_eflags => r = 49 | U_rsp => r = 7 | U_ss => r = 52 | U_fs_base => r = 58 | U_gs_base => r = 59
  | U_ds => r = 53 | U_es => r = 50 | U_fs => r = 54 | U_gs => r = 55
  | F_cwd => r = 65 | F_swd => r = 66 | F_ftw => r = -1 | F_fop => r = -2 | F_rip => r = -3 | F_rdp => r = -4
  | F_mxcsr => r = 64 | F_mxcr_mask => r = -5 | F_st k => r = 33 + k
  | F_xmm k => r = 17 + k \/ (r = 41 + k /\ k < 8)
  end.
Lemma opReg_cell r c k : opReg r = InCell c k -> regsOf c r /\
  (forall j, c = F_xmm j -> (k = KSimd128 <-> r = 17 + j) /\ 0 <= j).
Proof.
  unfold opReg. intros H.
  repeat match type of H with
  | (if ?b then _ else _) = _ => destruct b eqn:?
  end; try discriminate H; inversion H; subst; (split; [cbn [regsOf]; lia|]);
  intros j Hj; try discriminate Hj; inversion Hj; subst; split; try lia;
  split; intros HH; first [discriminate HH | reflexivity | lia].
Qed.

Lemma set_get r reg v r' : setDwarf r reg v = Ok r' -> opReg reg <> NotUsed -> getDwarf r' reg = Ok v.
Proof.
  unfold setDwarf, getDwarf. destruct (opReg reg) as [c k| |]; [|congruence|discriminate].
  destruct (kind_eqb (fst v) k) eqn:E; [|discriminate]. intros H _. inversion H; subst.
  apply kind_eqb_eq in E. destruct v as [kv vv]. cbn in E; subst. unfold upd.
  destruct (cell_eq_dec c c); [reflexivity|congruence].
Qed.
Definition mmxAlias (a b : Z) : Prop := exists j, 0 <= j < 8 /\ ((a = 17 + j /\ b = 41 + j) \/ (a = 41 + j /\ b = 17 + j)).
Lemma set_other r reg v r' reg2 : setDwarf r reg v = Ok r' -> reg2 <> reg -> ~ mmxAlias reg reg2 ->
  getDwarf r' reg2 = getDwarf r reg2.
Proof.
  unfold setDwarf, getDwarf. intros H Hne Hal.
  destruct (opReg reg) as [c k| |] eqn:E1; [|destruct (kind_eqb (fst v) KChar); inversion H; subst; reflexivity|discriminate].
  destruct (kind_eqb (fst v) k) eqn:Ek; [|discriminate]. inversion H; subst. clear H.
  destruct (opReg reg2) as [c2 k2| |] eqn:E2; try reflexivity. unfold upd.
  destruct (cell_eq_dec c2 c) as [->|]; [|reflexivity]. exfalso.
  destruct (opReg_cell _ _ _ E1) as [R1 X1]. destruct (opReg_cell _ _ _ E2) as [R2 X2].
  destruct c; cbn [regsOf] in R1, R2; try lia. apply Hal. exists k0. specialize (X1 k0 eq_refl). specialize (X2 k0 eq_refl). lia.
Qed.
Lemma set_ok r reg v c k : opReg reg = InCell c k -> fst v = k -> exists r', setDwarf r reg v = Ok r'.
Proof. intros H E. unfold setDwarf. rewrite H, E, kind_eqb_refl. eauto. Qed.
(** Registers the ABI numbers that hold 64-bit integers. *)
Lemma gp_range n : 0 <= n <= 16 -> exists c, opReg n = InCell c KU64.
Proof.
  intros H. assert (exists k, n = Z.of_nat k /\ (k <= 16)%nat) as (k & -> & Hk) by (exists (Z.to_nat n); lia).
  do 17 (destruct k as [|k]; [eexists; reflexivity|]). lia.
Qed.
