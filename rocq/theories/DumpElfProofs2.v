(** Proofs about the dump of an ELF object: notes, versions, the object. *)
From Coq Require Import Ascii String Permutation Sorted.
From Verif Require Import Props_Elf.
From Verif Require Import Base Leb LebSpec LebProofs DwarfReader DwarfReaderProofs ExprProofs Reader ReaderSpec ReaderProofs ReaderArray ReaderArrayProofs CfiSpec CfiProofs Cursor MapsSpec ElfHash ElfHashSpec ElfHashProofs ElfObj ElfObjSpec ElfObjProofs
  ElfFile ElfFileSpec ElfFileProofs ElfFileProofs2 ElfFileProofs3 Context Args ArgsSpec FrameText FrameTextSpec JsonDoc JsonDocSpec JsonDocProofs Dump DumpProofs DumpCfi DumpTables DumpDie DumpDieSpec DumpDieProofs DumpElf DumpElfSpec DumpElfProofs.
Open Scope Z_scope.

(** ** Notes *)
Lemma beq_self l : beq l l = true. Proof. now apply beq_spec. Qed.
Ltac skipx L := rewrite fld_skipl by (rewrite L; vm_compute; discriminate); rewrite L; match goal with |- fld ?n ?y (?a - ?b) = _ => let o' := eval vm_compute in (a - b) in change (a - b) with o' end.
Ltac fldy :=
  repeat lazymatch goal with
  | |- fld ?n (leBytes ?k ?v ++ ?y) 0 = _ => fail
  | |- fld ?n (leBytes ?k ?v ++ ?y) ?o = _ =>
      rewrite (fld_skipb n k v y o) by (vm_compute; discriminate); let o' := eval vm_compute in (o - Z.of_nat k) in change (o - Z.of_nat k) with o'
  | L : zlen ?x = _ |- fld ?n (?x ++ ?y) ?o = _ => skipx L
  end;
  lazymatch goal with
  | |- fld ?n (leBytes ?k ?v ++ ?y) 0 = _ => apply (fld_head k v y); first [assumption|refine (Z.mod_pos_bound _ _ _); reflexivity]
  | |- fld ?n (leBytes ?k ?v) 0 = _ => apply (fld_only k v); first [assumption|refine (Z.mod_pos_bound _ _ _); reflexivity]
  end.
Lemma sint32 n : sint 32 n -> s32 (n mod 2 ^ 32) = n.
Proof. intros H. unfold s32, W32. change (2 ^ 32) with 4294967296. rewrite ExprProofs.sgn_mod by lia. apply sgn_fix; [lia|reflexivity|exact H]. Qed.
Lemma sint64 n : sint 64 n -> s64 (n mod 2 ^ 64) = n.
Proof. intros H. unfold s64, W64. change (2 ^ 64) with 18446744073709551616. rewrite ExprProofs.sgn_mod by lia. apply sgn_fix; [lia|reflexivity|exact H]. Qed.
Lemma sint16 n : sint 16 n -> s16 (n mod 2 ^ 16) = n.
Proof. intros H. unfold s16, W16. change (2 ^ 16) with 65536. rewrite ExprProofs.sgn_mod by lia. apply sgn_fix; [lia|reflexivity|exact H]. Qed.
Lemma sint8 n : sint 8 n -> s8 (n mod 0x100) = n.
Proof. unfold sint, s8. change (2 ^ (8 - 1)) with 128. intros H. destruct (n mod 0x100 <? 128) eqn:E; lia. Qed.
Lemma sint_range w n : 1 <= w <= 64 -> sint w n -> - 2 ^ 63 <= n < 2 ^ 64.
Proof. intros Hw H. unfold sint in H. assert (2 ^ (w - 1) <= 2 ^ 63) by (apply Z.pow_le_mono_r; lia). change (2 ^ 63) with 9223372036854775808 in *. change (2 ^ 64) with 18446744073709551616. lia. Qed.
Lemma status_len p a b : zlen a = 2 -> zlen b = 4 -> zlen (ps_regs p) = 216 -> zlen (statusBytes p a b) = 336.
Proof. intros Ha Hb Hr. unfold statusBytes, tvBytes, i32, i64. rewrite !zlen_app, !leBytes_len, Ha, Hb, Hr. reflexivity. Qed.
Ltac sig := (apply mInt; lazymatch goal with H : sint 32 ?n |- _ <= ?n < _ => exact (sint_range 32 n ltac:(lia) H) | H : sint 64 ?n |- _ <= ?n < _ => exact (sint_range 64 n ltac:(lia) H) | H : sint 16 ?n |- _ <= ?n < _ => exact (sint_range 16 n ltac:(lia) H) | H : sint 8 ?n |- _ <= ?n < _ => exact (sint_range 8 n ltac:(lia) H) end).
Lemma status_doc r p a b : 0 <= r < 2 ^ 64 -> zlen a = 2 -> zlen b = 4 -> statusOk p -> means (prstatusJ r (statusBytes p a b)) (statusDoc r p).
Proof.
  intros Hr Ha Hb (S1 & S2 & S3 & S4 & S5 & S6 & S7 & S8 & S9 & S10 & S11 & S12 & S13 & S14 & S15 & S16 & S17 & S18 & LR & S19).
  unfold prstatusJ, statusBytes, tvBytes, i32, i64, timeJ. rewrite <- !app_assoc.
  set (B := leBytes 4 (ps_signo p mod 2 ^ 32) ++ _).
  assert (F1 : fld 4 B 0 = ps_signo p mod 2 ^ 32) by (unfold B; fldy). assert (F2 : fld 4 B 4 = ps_code p mod 2 ^ 32) by (unfold B; fldy). assert (F3 : fld 4 B 8 = ps_errno p mod 2 ^ 32) by (unfold B; fldy).
  assert (F4 : fld 2 B 12 = ps_cursig p mod 2 ^ 16) by (unfold B; fldy). assert (F5 : fld 8 B 16 = ps_pend p) by (unfold B; fldy). assert (F6 : fld 8 B 24 = ps_hold p) by (unfold B; fldy).
  assert (F7 : fld 4 B 32 = ps_pid p mod 2 ^ 32) by (unfold B; fldy). assert (F8 : fld 4 B 36 = ps_ppid p mod 2 ^ 32) by (unfold B; fldy). assert (F9 : fld 4 B 40 = ps_pgrp p mod 2 ^ 32) by (unfold B; fldy).
  assert (F10 : fld 4 B 44 = ps_sid p mod 2 ^ 32) by (unfold B; fldy).
  assert (F11 : fld 8 B 48 = fst (ps_utime p) mod 2 ^ 64) by (unfold B; fldy). assert (F12 : fld 8 B 56 = snd (ps_utime p) mod 2 ^ 64) by (unfold B; fldy).
  assert (F13 : fld 8 B 64 = fst (ps_stime p) mod 2 ^ 64) by (unfold B; fldy). assert (F14 : fld 8 B 72 = snd (ps_stime p) mod 2 ^ 64) by (unfold B; fldy).
  assert (F15 : fld 8 B 80 = fst (ps_cutime p) mod 2 ^ 64) by (unfold B; fldy). assert (F16 : fld 8 B 88 = snd (ps_cutime p) mod 2 ^ 64) by (unfold B; fldy).
  assert (F17 : fld 8 B 96 = fst (ps_cstime p) mod 2 ^ 64) by (unfold B; fldy). assert (F18 : fld 8 B 104 = snd (ps_cstime p) mod 2 ^ 64) by (unfold B; fldy).
  assert (F19 : fld 4 B 328 = ps_fpvalid p mod 2 ^ 32) by (unfold B; fldy). clearbody B.
  change (48 + 8) with 56. change (64 + 8) with 72. change (80 + 8) with 88. change (96 + 8) with 104.
  rewrite F1, F2, F3, F4, F5, F6, F7, F8, F9, F10, F11, F12, F13, F14, F15, F16, F17, F18, F19. rewrite !sint32, sint16, !sint64 by assumption.
  assert (UR : forall n, 0 <= n < 2 ^ 64 -> - 2 ^ 63 <= n < 2 ^ 64) by (intros n Hn; change (2 ^ 63) with 9223372036854775808; change (2 ^ 64) with 18446744073709551616 in *; lia).
  unfold statusDoc, tvDoc, num, nf. apply mObj. apply mmCons; [lits|apply mObj; do 3 (apply mmCons; [lits|sig|]); constructor|]. apply mmCons; [lits|sig|]. do 2 (apply mmCons; [lits|apply mInt; now apply UR|]).
  do 4 (apply mmCons; [lits|sig|]). do 4 (apply mmCons; [lits|apply mObj; do 2 (apply mmCons; [lits|sig|]); constructor|]). apply mmCons; [lits|apply mInt; now apply UR|]. apply mmCons; [lits|sig|constructor].
Qed.
Lemma field_text n t b : textField n t b -> untilNul b = t.
Proof.
  intros (_ & F & [->|(r & ->)]); [now apply untilNul_name|now apply Cursor.untilNul_text].
Qed.
Lemma info_len p pad f a : zlen pad = 4 -> zlen f = 16 -> zlen a = 80 -> zlen (infoBytes p pad f a) = 136.
Proof. intros H1 H2 H3. unfold infoBytes, i32. rewrite !zlen_app, !leBytes_len, H1, H2, H3. reflexivity. Qed.
Lemma info_doc p pad f a x : zlen pad = 4 -> infoOk p -> textField 16 (pi_fname p) f -> textField 80 (pi_args p) a -> infoDoc p x -> means (prpsinfoJ (infoBytes p pad f a)) x.
Proof.
  intros Hp (S1 & S2 & S3 & S4 & S5 & S6 & S7 & S8 & S9 & S10 & S11) Hf Ha (sn & fn & ar & P1 & P2 & P3 & ->). pose proof (field_text _ _ _ Hf) as Ef. pose proof (field_text _ _ _ Ha) as Ea. destruct Hf as (Lf & _). destruct Ha as (La & _).
  unfold prpsinfoJ, infoBytes, i32. set (h4 := [pi_state p mod 0x100; pi_sname p; pi_zomb p; pi_nice p mod 0x100]). assert (L4 : zlen h4 = 4) by reflexivity.
  assert (SF : 0 <= pi_flag p < 2 ^ 64) by (change (2 ^ 31) with 2147483648 in S5; change (2 ^ 64) with 18446744073709551616; lia).
  set (B := h4 ++ _). 
  assert (F8 : fld 8 B 8 = pi_flag p) by (unfold B; fldy). assert (F16 : fld 4 B 16 = pi_uid p) by (unfold B; fldy). assert (F20 : fld 4 B 20 = pi_gid p) by (unfold B; fldy).
  assert (F24 : fld 4 B 24 = pi_pid p mod 2 ^ 32) by (unfold B; fldy). assert (F28 : fld 4 B 28 = pi_ppid p mod 2 ^ 32) by (unfold B; fldy). assert (F32 : fld 4 B 32 = pi_pgrp p mod 2 ^ 32) by (unfold B; fldy).
  assert (F36 : fld 4 B 36 = pi_sid p mod 2 ^ 32) by (unfold B; fldy).
  assert (F0 : fld 1 B 0 = pi_state p mod 0x100) by (apply znth_fld1; [reflexivity|unfold isByte; lia]). assert (F2 : fld 1 B 2 = pi_zomb p) by (apply znth_fld1; [reflexivity|unfold isByte; lia]).
  assert (F3 : fld 1 B 3 = pi_nice p mod 0x100) by (apply znth_fld1; [reflexivity|unfold isByte; lia]).
  assert (FN : ztake 1 (zdrop 1 B) = [pi_sname p]) by reflexivity.
  assert (D40 : zdrop 40 B = f ++ a).
  { unfold B. rewrite !app_assoc. rewrite <- (app_assoc _ f a). match goal with |- zdrop 40 (?q ++ f ++ a) = _ => replace 40 with (zlen q) at 1; [apply zdrop_app_zlen|] end. rewrite !zlen_app, !leBytes_len, L4, Hp. reflexivity. }
  assert (D56 : zdrop 56 B = a). { change 56 with (16 + 40). rewrite <- zdrop_zdrop by lia. rewrite D40. rewrite <- Lf. apply zdrop_app_zlen. }
  assert (T1 : ztake 16 (zdrop 40 B) = f) by (rewrite D40, <- Lf; apply ztake_app_zlen). assert (T2 : ztake 80 (zdrop 56 B) = a) by (rewrite D56; apply ztake_all; lia).
  clearbody B. rewrite F0, F2, F3, F8, F16, F20, F24, F28, F32, F36, FN, T1, T2, Ef, Ea, !sint32, !sint8 by assumption.
  assert (E8 : s32 (pi_flag p) = pi_flag p) by (unfold s32, W32; apply sgn_fix; [lia|reflexivity|change (4294967296 / 2) with 2147483648; change (2 ^ 31) with 2147483648 in S5; lia]). rewrite E8.
  assert (UR : forall n, 0 <= n < 2 ^ 32 -> - 2 ^ 63 <= n < 2 ^ 64) by (intros n Hn; change (2 ^ 63) with 9223372036854775808; change (2 ^ 32) with 4294967296 in *; change (2 ^ 64) with 18446744073709551616 in *; lia).
  unfold num, nf. apply mObj. apply mmCons; [lits|sig|]. apply mmCons; [lits|now apply mStr|]. apply mmCons; [lits|apply mBool|]. apply mmCons; [lits|sig|].
  apply mmCons; [lits|apply mInt; apply UR; change (2 ^ 31) with 2147483648 in S5; change (2 ^ 32) with 4294967296; lia|]. do 2 (apply mmCons; [lits|apply mInt; now apply UR|]). do 4 (apply mmCons; [lits|sig|]). do 2 (apply mmCons; [lits|now apply mStr|]). constructor.
Qed.
Lemma aux_doc e x : dynOk e -> auxDoc e x -> means (auxvJ (dynBytes e)) x.
Proof.
  intros De (ty & Ht & ->). destruct (dyn_bytes e De) as [E1 E2]. destruct De as [D1 D2]. unfold auxvJ. rewrite E1, E2. change (2 ^ 64) with 18446744073709551616 in *. apply mObj. unfold num, nf.
  apply mmCons; [lits| |apply mmCons; [lits|apply mInt; change (2 ^ 63) with 9223372036854775808; change (2 ^ 64) with 18446744073709551616; lia|constructor]].
  destruct Ht as [(t & C & ->)|[G ->]].
  - destruct (table_std stdAux auxvTable ltac:(vm_compute; reflexivity) _ _ C) as (n & E & ->). rewrite E. apply mStr. now apply (called_plain stdAux eq_refl (fst e)).
  - assert (N : inTable auxvTable (fst e) = None).
    { unfold inTable. destruct (find (fun p => fst p =? fst e) auxvTable) as [q|] eqn:E; [|reflexivity]. exfalso. apply find_some in E as [I Q].
      assert (F : forallb (fun p => fst p <=? 51) auxvTable = true) by (vm_compute; reflexivity). rewrite forallb_forall in F. specialize (F q I). lia. }
    rewrite N. apply mInt. change (2 ^ 63) with 9223372036854775808. change (2 ^ 64) with 18446744073709551616. lia.
Qed.
Lemma hex_doc l t : hexBytes l t -> flat_map hexByte l = t /\ asciiB t = true.
Proof.
  induction 1 as [|hi lo c1 c2 l t H1 H2 _ [E F]]; [split; reflexivity|]. unfold hexOf in *. cbn [flat_map]. unfold hexByte at 1. unfold hexDigit at 1 2.
  assert (D : (16 * hi + lo) / 16 = hi) by (clear - H1 H2; lia). assert (M : (16 * hi + lo) mod 16 = lo) by (clear - H1 H2; lia). rewrite D, M. cbn [app].
  assert (C1 : (if hi <? 10 then 48 + hi else 87 + hi) = c1) by (destruct (hi <? 10) eqn:Q; lia). assert (C2 : (if lo <? 10 then 48 + lo else 87 + lo) = c2) by (destruct (lo <? 10) eqn:Q; lia).
  rewrite C1, C2, E. split; [reflexivity|]. unfold asciiB in *. cbn [forallb]. rewrite F. lia.
Qed.
Lemma hex_range l t : hexBytes l t -> Forall isByte l.
Proof. induction 1 as [|hi lo c1 c2 l t H1 H2 _ F]; constructor; [|exact F]. unfold hexOf, isByte in *. lia. Qed.
Lemma noteDesc_doc m r n x : 0 <= r < 2 ^ 64 -> wfNote n -> noteDoc r n x -> exists v, dumpNote m r (mkNd (snName n) (snType n) (snDesc n)) = Ok v /\ means v x.
Proof.
  intros Hr (W1 & W2 & W3 & W4 & W5 & _) (nm & body & Hnm & Hb & ->). unfold dumpNote. cbn [ndName ndType].
  assert (G : exists ex, noteExtra m r (mkNd (snName n) (snType n) (snDesc n)) = Ok ex /\ meanM ex body).
  { assert (HM : zlen (snDesc n) < W64 / 4) by (unfold W64; change (2 ^ 32) with 4294967296 in *; lia). unfold noteExtra. cbn [ndName ndType ndData].
    destruct Hb as [p a b N T La Lb OKp E|p pad f a y N T Lp OKp Hf Ha E Dy|es xs N T E DE DX|os a b c rest N T E U1 U2 U3 U4|t N T HX|NC NG].
    - rewrite N, T, E, beq_self. change (1 =? 1) with true. cbv iota. pose proof OKp as OK'. destruct OK' as (_ & _ & _ & _ & _ & _ & _ & _ & _ & _ & _ & _ & _ & _ & _ & _ & _ & _ & LR & _). pose proof (status_len p a b La Lb LR) as L.
      unfold recObj. rewrite L. change (336 <? 0 + 336) with false. cbv iota. cbn [bind]. rewrite zdrop_neg by lia. rewrite ztake_all by lia. eexists. split; [reflexivity|]. apply mmCons; [lits|now apply status_doc|constructor].
    - rewrite N, T, E, beq_self. change (3 =? 1) with false. change (3 =? 3) with true. cbv iota. pose proof (info_len p pad f a Lp (proj1 Hf) (proj1 Ha)) as L.
      unfold recObj. rewrite L. change (136 <? 0 + 136) with false. cbv iota. cbn [bind]. rewrite zdrop_neg by lia. rewrite ztake_all by lia. eexists. split; [reflexivity|]. apply mmCons; [lits|now apply info_doc|constructor].
    - rewrite N, T, beq_self. change (6 =? 1) with false. change (6 =? 3) with false. change (6 =? 6) with true. cbv iota. rewrite E in *.
      rewrite (holds_array 0 m _ dynBytes 16 es (holds_mem 0 m _ HM)) by (try lia; exact dyn_len). cbn [bind]. eexists. split; [reflexivity|]. apply mmCons; [lits| |constructor]. apply mList.
      clear - DE DX. induction DX; inversion DE; subst; cbn [map]; constructor; auto using aux_doc.
    - rewrite N, T. rewrite beq_neq by (vm_compute; discriminate). rewrite beq_self. change (1 =? 1) with true. cbv iota. rewrite E. unfold recObj.
      assert (L : 16 <= zlen (leBytes 4 os ++ leBytes 4 a ++ leBytes 4 b ++ leBytes 4 c ++ rest)) by (rewrite !zlen_app, !leBytes_len; pose proof (zlen_nonneg rest); lia).
      destruct (zlen _ <? 0 + 4) eqn:Q1; [lia|]. destruct (zlen _ <? 4 + 12) eqn:Q2; [lia|]. cbn [bind]. clear Q1 Q2 L.
      assert (E1 : ztake 4 (zdrop 0 (leBytes 4 os ++ leBytes 4 a ++ leBytes 4 b ++ leBytes 4 c ++ rest)) = leBytes 4 os) by (rewrite zdrop_neg by lia; change 4 with (zlen (leBytes 4 os)) at 1; apply ztake_app_zlen).
      assert (E2 : ztake 12 (zdrop 4 (leBytes 4 os ++ leBytes 4 a ++ leBytes 4 b ++ leBytes 4 c ++ rest)) = leBytes 4 a ++ leBytes 4 b ++ leBytes 4 c).
      { change 4 with (zlen (leBytes 4 os)) at 1. rewrite zdrop_app_zlen. rewrite !app_assoc. change 12 with (zlen ((leBytes 4 a ++ leBytes 4 b) ++ leBytes 4 c)). apply ztake_app_zlen. }
      rewrite E1, E2. unfold u32r in *.
      assert (G1 : fld 4 (leBytes 4 os) 0 = os) by fldy. assert (G2 : fld 4 (leBytes 4 a ++ leBytes 4 b ++ leBytes 4 c) 0 = a) by fldy. assert (G3 : fld 4 (leBytes 4 a ++ leBytes 4 b ++ leBytes 4 c) 4 = b) by fldy.
      assert (G4 : fld 4 (leBytes 4 a ++ leBytes 4 b ++ leBytes 4 c) 8 = c) by fldy. rewrite G1, G2, G3, G4. eexists. split; [reflexivity|].
      assert (UR : forall n, 0 <= n < 2 ^ 32 -> means (VInt n) (XNum n)) by (intros k Hk; apply mInt; change (2 ^ 63) with 9223372036854775808; change (2 ^ 32) with 4294967296 in *; change (2 ^ 64) with 18446744073709551616 in *; lia).
      unfold num, nf. apply mmCons; [lits|now apply UR|]. apply mmCons; [lits| |constructor]. apply mList. repeat (constructor; [now apply UR|]). constructor.
    - rewrite N, T. rewrite beq_neq by (vm_compute; discriminate). rewrite beq_self. change (3 =? 1) with false. change (3 =? 3) with true. cbv iota. destruct (hex_doc _ _ HX) as [EX AX]. pose proof (hex_range _ _ HX) as RX.
      assert (EF : flat_map (fun b => [b]) (snDesc n) = snDesc n) by (clear; induction (snDesc n) as [|b l IH]; [reflexivity|]; cbn [flat_map app]; now rewrite IH).
      assert (HH : ioHolds 0 m (IoMem (snDesc n)) (flat_map (fun b => [b]) (snDesc n))) by (rewrite EF; now apply holds_mem).
      rewrite (holds_array 0 m _ (fun b => [b]) 1 (snDesc n) HH) by (try lia; reflexivity). cbn [bind]. eexists. split; [reflexivity|]. apply mmCons; [lits| |constructor].
      replace (flat_map (fun c => hexByte (fld 1 c 0)) (map (fun b => [b]) (snDesc n))) with t; [apply mStr; now apply asciiB_plain|].
      rewrite <- EX. clear - RX. induction RX as [|b l Hb _ IH]; [reflexivity|]. cbn [map flat_map]. rewrite <- IH. do 2 f_equal. symmetry. apply znth_fld1; [reflexivity|exact Hb].
    - exists []. split; [|constructor]. destruct (beq (snName n) (txt "CORE")) eqn:B1.
      + apply beq_spec in B1. assert (X : ~ In (snType n) [1; 3; 6]) by (intros X; apply NC; now split). cbn [In] in X. replace (snType n =? 1) with false by lia. replace (snType n =? 3) with false by lia. replace (snType n =? 6) with false by lia. reflexivity.
      + destruct (beq (snName n) (txt "GNU")) eqn:B2; [|reflexivity]. apply beq_spec in B2. assert (X : ~ In (snType n) [1; 3]) by (intros X; apply NG; now split). cbn [In] in X.
        replace (snType n =? 1) with false by lia. replace (snType n =? 3) with false by lia. reflexivity. }
  destruct G as (ex & E & M). rewrite E. cbn [bind]. eexists. split; [reflexivity|]. apply mObj. apply mmCons; [lits|now apply mStr|]. unfold num, nf.
  apply mmCons; [lits|apply mInt; change (2 ^ 63) with 9223372036854775808; change (2 ^ 31) with 2147483648 in *; change (2 ^ 64) with 18446744073709551616 in *; lia|exact M].
Qed.

(** ** Versions *)
Lemma sLt_irrefl a : sLt a a = false.
Proof. induction a as [|x a IH]; [reflexivity|]. cbn [sLt]. rewrite IH, Z.ltb_irrefl, andb_false_r. reflexivity. Qed.
Lemma sLt_trans a : forall b c, sLt a b = true -> sLt b c = true -> sLt a c = true.
Proof.
  induction a as [|x a IH]; intros [|y b] [|z c]; cbn [sLt]; try discriminate; try reflexivity. rewrite !orb_true_iff, !andb_true_iff, !Z.ltb_lt, !Z.eqb_eq.
  intros [H1|[H1 H2]] [H3|[H3 H4]]; [left; lia|left; lia|left; lia|right]. split; [lia|now apply (IH b)].
Qed.
Lemma sLt_total a : forall b, sLt a b = false -> a <> b -> sLt b a = true.
Proof.
  induction a as [|x a IH]; intros [|y b]; cbn [sLt]; try reflexivity; try congruence. rewrite orb_false_iff, andb_false_iff, Z.ltb_ge, Z.eqb_neq. intros [H1 H2] N.
  rewrite orb_true_iff, andb_true_iff, Z.ltb_lt, Z.eqb_eq. destruct (Z.eq_dec x y) as [->|]; [|left; lia]. right. split; [reflexivity|]. apply IH; [destruct H2; [congruence|assumption]|congruence].
Qed.
Definition keysAsc (m : list (list Z * list Z)) : Prop := StronglySorted (fun a b => sLt (fst a) (fst b) = true) m.
Lemma addFile_fst n v m : forall x, In x (map fst (addFile n v m)) <-> x = n \/ In x (map fst m).
Proof.
  induction m as [|[k w] m IH]; intros x; cbn [addFile map In fst]; [intuition|]. destruct (sLt n k); cbn [map In fst]; [intuition|]. destruct (beq n k) eqn:E; [apply beq_spec in E; subst; cbn [map In fst]; intuition|].
  cbn [map In fst]. rewrite IH. intuition.
Qed.
Lemma addFile_asc n v m : keysAsc m -> keysAsc (addFile n v m).
Proof.
  unfold keysAsc. induction 1 as [|[k w] m S IH F]; cbn [addFile]; [repeat constructor|]. destruct (sLt n k) eqn:E1.
  - constructor; [now constructor|]. constructor; [exact E1|]. rewrite Forall_forall in *. intros [k' w'] I. specialize (F _ I). cbn [fst] in *. now apply (sLt_trans n k).
  - destruct (beq n k) eqn:E2; [apply beq_spec in E2; subst; constructor; assumption|]. constructor; [exact IH|]. rewrite Forall_forall in *. intros [k' w'] I. cbn [fst] in *.
    assert (J : In k' (map fst (addFile n v m))) by (apply in_map_iff; now exists (k', w')). apply addFile_fst in J as [->|J].
    + apply sLt_total; [exact E1|]. intros ->. rewrite beq_self in E2. discriminate.
    + apply in_map_iff in J as ((k2 & w2) & Ek & J). cbn [fst] in Ek. subst k2. exact (F _ J).
Qed.
Lemma addFile_val n v m k w : keysAsc m -> In (k, w) (addFile n v m) <->
  (k <> n /\ In (k, w) m) \/ (k = n /\ ((~ In n (map fst m) /\ w = v) \/ exists w0, In (n, w0) m /\ w = w0 ++ v)).
Proof.
  unfold keysAsc. induction 1 as [|[k0 w0] m S IH F]; cbn [addFile].
  - cbn [In map]. split; [intros [E|[]]; injection E as -> ->; right; split; [reflexivity|left; auto]|intros [[_ []]|[-> [[_ ->]|(w1 & [] & _)]]]; now left].
  - assert (NK : forall k1 w1, In (k1, w1) m -> sLt k0 k1 = true) by (intros k1 w1 I; rewrite Forall_forall in F; exact (F _ I)). destruct (sLt n k0) eqn:E1.
    + assert (NN : forall w1, ~ In (n, w1) ((k0, w0) :: m)).
      { intros w1 [E|I]; [injection E as -> ->; rewrite sLt_irrefl in E1; discriminate|]. pose proof (sLt_trans _ _ _ E1 (NK _ _ I)) as X. rewrite sLt_irrefl in X. discriminate. }
      split.
      * intros [E|I]; [injection E as -> ->; right; split; [reflexivity|left; split; [|reflexivity]]; intros J; apply in_map_iff in J as ((k1 & w1) & Ek & J); cbn [fst] in Ek; subst k1; now apply (NN w1)|].
        left. split; [|exact I]. intros ->. now apply (NN w).
      * intros [[_ I]|[-> [[_ ->]|(w1 & I & _)]]]; [now right|now left|exfalso; now apply (NN w1)].
    + destruct (beq n k0) eqn:E2.
      * apply beq_spec in E2. subst k0. assert (NN : forall w1, ~ In (n, w1) m) by (intros w1 I; pose proof (NK _ _ I) as X; rewrite sLt_irrefl in X; discriminate). split.
        -- intros [E|I]; [injection E as <- <-; right; split; [reflexivity|right]; exists w0; split; [now left|reflexivity]|]. left. split; [intros ->; now apply (NN w)|now right].
        -- intros [[N [E|I]]|[-> [[N _]|(w1 & [E|I] & ->)]]]; [injection E as -> ->; congruence|now right|exfalso; apply N; now left|injection E as ->; now left|exfalso; now apply (NN w1)].
      * assert (N0 : n <> k0) by (intros ->; rewrite beq_self in E2; discriminate). cbn [In map fst]. rewrite IH. split.
        -- intros [E|[[N I]|[-> [[N ->]|(w1 & I & ->)]]]]; [injection E as -> ->; left; split; [congruence|now left]|left; split; [exact N|now right]|right; split; [reflexivity|left; split; [intuition|reflexivity]]|right; split; [reflexivity|right; exists w1; split; [now right|reflexivity]]].
        -- intros [[N [E|I]]|[-> [[N ->]|(w1 & [E|I] & ->)]]]; [now left|right; left; now split|right; right; split; [reflexivity|left; split; [tauto|reflexivity]]|injection E as -> _; congruence|right; right; split; [reflexivity|right; now exists w1]].
Qed.
Definition keyIs (f : list Z) {X} (n : list Z * X) : bool := if list_eq_dec Z.eq_dec (fst n) f then true else false.
Lemma filesMap_spec l : keysAsc (filesMap l) /\ (forall f, In f (map fst (filesMap l)) <-> In f (map fst l)) /\
  (forall k w, In (k, w) (filesMap l) -> w = flat_map snd (filter (keyIs k) l)).
Proof.
  induction l as [|[n v] l IH] using rev_ind; [split; [constructor|]; split; [intros f; split; intros []|intros k w []]|].
  unfold filesMap. rewrite fold_left_app. cbn [fold_left fst snd]. fold (filesMap l). destruct IH as (A1 & A2 & A3). split; [now apply addFile_asc|]. split.
  - intros f. rewrite addFile_fst, A2, map_app, in_app_iff. cbn [map In fst]. intuition.
  - intros k w I. apply (addFile_val n v _ k w A1) in I. rewrite filter_app, flat_map_app. cbn [filter]. unfold keyIs at 2. cbn [fst].
    destruct I as [[N I]|[-> [[N ->]|(w0 & I & ->)]]].
    + destruct (list_eq_dec Z.eq_dec n k); [congruence|]. cbn [flat_map]. rewrite app_nil_r. now apply A3.
    + destruct (list_eq_dec Z.eq_dec n n); [|congruence]. cbn [flat_map snd]. rewrite app_nil_r.
      assert (E : filter (keyIs n) l = []); [|now rewrite E]. rewrite A2 in N. clear - N. induction l as [|[k u] l IH]; [reflexivity|]. cbn [map In fst filter] in *. unfold keyIs at 1. cbn [fst]. destruct (list_eq_dec Z.eq_dec k n); [tauto|]. apply IH. tauto.
    + destruct (list_eq_dec Z.eq_dec n n); [|congruence]. cbn [flat_map snd]. rewrite app_nil_r. f_equal. now apply A3.
Qed.
Lemma aux_range sec str off l : auxAt sec str off l -> Forall (fun e => 0 <= fst e < 2 ^ 16) l.
Proof. induction 1; constructor; auto. Qed.
Lemma need_range sec str off l : needAt sec str off l -> Forall (fun n => Forall (fun e => 0 <= fst e < 2 ^ 16) (snd n)) l.
Proof. induction 1; constructor; auto. cbn [snd]. eapply aux_range. eassumption. Qed.
Lemma files_doc needs : Forall (fun n => Forall (fun e => 0 <= fst e < 2 ^ 16) (snd n)) needs -> Forall (fun n => exists t, plainText (fst n) t) needs ->
  exists x, means (dumpFiles (map (fun n : list Z * list (Z * list Z) => (fst n, map fst (snd n))) needs)) x /\ filesDoc needs x.
Proof.
  intros HR HP. set (l := map _ needs). destruct (filesMap_spec l) as (A1 & A2 & A3). unfold dumpFiles.
  assert (G : forall mp, (forall k w, In (k, w) mp -> In (k, w) (filesMap l)) -> exists ms, meanM (map (fun f => (fst f, VList (map VInt (snd f)))) mp) ms /\
    Forall2 (fun f m => plainText f (fst m) /\ snd m = XArr (map XNum (flat_map (fun n => map fst (snd n)) (filter (fun n => if list_eq_dec Z.eq_dec (fst n) f then true else false) needs)))) (map fst mp) ms).
  { induction mp as [|[k w] mp IH]; intros HI; [exists []; split; constructor|]. destruct (IH ltac:(intros k' w' I; apply HI; now right)) as (ms & M & F). pose proof (A3 k w (HI k w (or_introl eq_refl))) as Ew.
    assert (Ik : In k (map fst l)) by (apply A2; apply in_map_iff; exists (k, w); split; [reflexivity|now apply HI; left]). unfold l in Ik. rewrite map_map in Ik. cbn [fst] in Ik. apply in_map_iff in Ik as (n & En & In_).
    rewrite Forall_forall in HP. destruct (HP n In_) as (t & Ht). rewrite En in Ht.
    assert (Ew2 : w = flat_map (fun n => map fst (snd n)) (filter (fun n => if list_eq_dec Z.eq_dec (fst n) k then true else false) needs)).
    { rewrite Ew. unfold l. clear. induction needs as [|n r IH]; [reflexivity|]. cbn [map filter]. unfold keyIs at 1. cbn [fst]. destruct (list_eq_dec Z.eq_dec (fst n) k); cbn [flat_map snd]; now rewrite IH. }
    assert (RW : Forall (fun v => 0 <= v < 2 ^ 16) w).
    { rewrite Ew2. apply Forall_flat_map. rewrite Forall_forall in *. intros n' I'. apply filter_In in I' as [I' _]. rewrite Forall_map. exact (HR n' I'). }
    exists ((t, XArr (map XNum w)) :: ms). cbn [map fst snd]. split.
    - apply mmCons; [exact Ht| |exact M]. apply mList. apply mL_map with (P := fun v => 0 <= v < 2 ^ 16); [|exact RW]. intros v Hv. apply mInt. change (2 ^ 63) with 9223372036854775808. change (2 ^ 16) with 65536 in *. change (2 ^ 64) with 18446744073709551616 in *. lia.
    - constructor; [|exact F]. cbn [fst snd]. split; [exact Ht|]. now rewrite <- Ew2. }
  destruct (G (filesMap l) ltac:(auto)) as (ms & M & F). exists (XObj [(lit "files", XObj ms)]). split; [apply mObj; apply mmCons; [lits|now apply mMap|constructor]|].
  exists ms. split; [reflexivity|]. exists (map fst (filesMap l)). split; [|split; [|exact F]].
  - clear - A1. unfold keysAsc in A1. induction A1 as [|[k w] m S IH F]; cbn [map fst]; constructor; [|exact IH]. intros I. apply in_map_iff in I as ((k' & w') & E & I). cbn [fst] in E. subst k'. rewrite Forall_forall in F. specialize (F _ I). cbn [fst] in F. rewrite sLt_irrefl in F. discriminate.
  - intros f. rewrite A2. unfold l. rewrite map_map. reflexivity.
Qed.
