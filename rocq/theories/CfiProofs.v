From Verif Require Import Base Leb LebSpec LebProofs DwarfReader DwarfReaderProofs Cfi CfiSpec.

(** ** Reading at a position *)
Definition at_ (data : list Z) (off : Z) (l : list Z) : Prop :=
  0 <= off /\ exists rest, zdrop off data = l ++ rest.

Lemma at_app data off l1 l2 : at_ data off (l1 ++ l2) -> at_ data off l1 /\ at_ data (off + zlen l1) l2.
Proof.
  intros [H0 [rest H]]. split.
  - split; [exact H0|]. exists (l2 ++ rest). now rewrite H, app_assoc.
  - pose proof (zlen_nonneg l1). split; [lia|]. exists rest.
    rewrite Z.add_comm, <- zdrop_zdrop by lia. rewrite H, <- app_assoc. apply zdrop_app_zlen.
Qed.
Lemma at_cons data off b l : at_ data off (b :: l) -> znth off data = Some b /\ at_ data (off + 1) l.
Proof.
  intros H. change (b :: l) with ([b] ++ l) in H. apply at_app in H. destruct H as [[H0 [rest H]] H2].
  split; [|exact H2]. rewrite <- (Z.add_0_r off), <- znth_zdrop by lia. rewrite H. reflexivity.
Qed.
Lemma at_take data off l : at_ data off l -> ztake (zlen l) (zdrop off data) = l.
Proof. intros [_ [rest ->]]. apply ztake_app_zlen. Qed.
Lemma at_len data off l : at_ data off l -> l <> [] -> off + zlen l <= zlen data.
Proof.
  intros [H0 [rest H]] Hne. pose proof (zlen_zdrop off data H0) as Hz. rewrite H, zlen_app in Hz.
  pose proof (zlen_nonneg rest). destruct l; [easy|]. rewrite zlen_cons in *. pose proof (zlen_nonneg l). lia.
Qed.

Lemma getu8_at data off b : at_ data off [b] -> zlen data < W64 -> getu8 data off = Ok (b, off + 1).
Proof.
  intros H Hw. pose proof (at_len _ _ _ H ltac:(discriminate)) as Hl. change (zlen [b]) with 1 in Hl.
  apply at_cons in H as Hc. destruct Hc as [Hb _]. destruct H as [H0 _].
  unfold getu8, secBytes, Reader.readObj. cbn [Z.eqb Pos.eqb]. change (u64 (1 * 1)) with 1. unfold secRead.
  replace (off >? zlen data) with false by lia. cbn [bind].
  assert (E : exists t, zdrop off data = b :: t).
  { assert (H1 : znth 0 (zdrop off data) = Some b) by (rewrite znth_zdrop by lia; now rewrite Z.add_0_r).
    destruct (zdrop off data) as [|x t]; [discriminate|]. cbn in H1. inversion H1. eauto. }
  destruct E as [t ->]. cbn [ztake]. cbn [Z.leb Z.compare]. change (1 - 1) with 0. rewrite ztake_neg by lia.
  reflexivity.
Qed.
Lemma getuleb_at data off v : at_ data off (uleb v) -> 0 <= v < W64 ->
  getuleb data off = Ok (v, off + zlen (uleb v)).
Proof.
  intros [H0 [rest H]] Hv. unfold getuleb. rewrite H. unfold uleb. rewrite uleb_roundtrip by exact Hv. reflexivity.
Qed.
Lemma getsleb_at data off v : at_ data off (sleb v) -> - 2 ^ 63 <= v < 2 ^ 63 ->
  getsleb data off = Ok (v, off + zlen (sleb v)).
Proof.
  intros [H0 [rest H]] Hv. unfold getsleb. rewrite H. unfold sleb. rewrite sleb_roundtrip by exact Hv. reflexivity.
Qed.

Lemma leBytes_byte n : forall v, Forall isByte (leBytes n v).
Proof. induction n as [|n IH]; intros v; cbn [leBytes]; constructor; [|apply IH]. unfold isByte. apply Z.mod_pos_bound. lia. Qed.
Lemma leBytes_len n v : zlen (leBytes n v) = Z.of_nat n.
Proof. revert v; induction n as [|n IH]; intros v; cbn [leBytes]; [reflexivity|]. rewrite zlen_cons, IH. lia. Qed.
Lemma leValue_leBytes n : forall v, 0 <= v < 256 ^ Z.of_nat n -> leValue (leBytes n v) = v.
Proof.
  induction n as [|n IH]; intros v Hv; cbn [leBytes leValue].
  - change (256 ^ Z.of_nat 0) with 1 in Hv. lia.
  - rewrite IH; [lia|]. rewrite Nat2Z.inj_succ, Z.pow_succ_r in Hv by lia.
    split; [lia|]. apply Z.div_lt_upper_bound; lia.
Qed.

Lemma at_bytes data off n v : at_ data off (leBytes n v) -> (0 < n)%nat ->
  off + Z.of_nat n <= zlen data /\ ztake (Z.of_nat n) (zdrop off data) = leBytes n v.
Proof.
  intros H Hn. split.
  - rewrite <- (leBytes_len n v). apply at_len; [exact H|]. destruct n; [lia|discriminate].
  - rewrite <- (leBytes_len n v). now apply at_take.
Qed.

Lemma getuint8_at data off v : Forall isByte data -> zlen data + 32 < W64 ->
  at_ data off (leBytes 8 v) -> 0 <= v < W64 -> getuint data off 8 = Ok (v, off + 8).
Proof.
  intros Hd Hw H Hv. destruct (at_bytes _ _ _ _ H ltac:(lia)) as [Hl Ht]. destruct H as [H0 _].
  rewrite getuint_le8 by (try assumption; lia). change 8 with (Z.of_nat 8) at 1. rewrite Ht.
  rewrite leValue_leBytes; [reflexivity|]. change (256 ^ Z.of_nat 8) with W64. exact Hv.
Qed.
Lemma getu32_at data off v : Forall isByte data -> zlen data + 32 < W64 ->
  at_ data off (leBytes 4 v) -> 0 <= v < W32 -> getu32 data off = Ok (v, off + 4).
Proof.
  intros Hd Hw H Hv. destruct (at_bytes _ _ _ _ H ltac:(lia)) as [Hl Ht]. destruct H as [H0 _].
  rewrite getu32_spec by (try assumption; lia). replace (off + 4 <=? zlen data) with true by lia.
  change 4 with (Z.of_nat 4) at 1. rewrite Ht.
  rewrite leValue_leBytes; [reflexivity|]. change (256 ^ Z.of_nat 4) with W32. exact Hv.
Qed.
Lemma getu16_at data off v : zlen data + 32 < W64 ->
  at_ data off (leBytes 2 v) -> 0 <= v < W16 -> getu16 data off = Ok (v, off + 2).
Proof.
  intros Hw H Hv. destruct (at_bytes _ _ _ _ H ltac:(lia)) as [Hl Ht]. destruct H as [H0 _].
  unfold getu16. rewrite secBytes_ok by lia. replace (off + 2 <=? zlen data) with true by lia.
  rewrite orb_true_r. cbn [bind]. change (Z.of_nat 2) with 2 in Ht. rewrite !Ht. cbn [leBytes nth].
  do 2 f_equal. rewrite Z.shiftl_mul_pow2 by lia. unfold W16 in Hv.
  rewrite lor_disjoint; [|lia|change (2^8) with 256; apply Z.mod_pos_bound; lia].
  unfold u16, W16. change (2^8) with 256. replace ((v / 256) mod 256) with (v / 256) by lia.
  replace (v mod 256 + v / 256 * 256) with v by lia. apply Z.mod_small. lia.
Qed.

(** ** Instruction decoding inverts the standard's encoding *)
(** What the code's decoder makes of a standard instruction located at [off]. *)
Definition lower (off : Z) (i : sinsn) : insn :=
  match i with
  | SAdvanceLoc d | SAdvanceLoc1 d | SAdvanceLoc2 d | SAdvanceLoc4 d => IAdvance d
  | SSetLoc a => ISetLoc a
  | SOffset r n => IOffset r n
  | SOffsetExt r n => IOffsetExt r n
  | SOffsetExtSf r n => IOffsetExtSf r n
  | SRestore r | SRestoreExt r => IRestore r
  | SUndefined r => IUndefined r
  | SSameValue r => ISame r
  | SRegister a b => IRegister a b
  | SRemember => IRemember
  | SRestoreState => IRestoreState
  | SDefCfa r n => IDefCfa r n
  | SDefCfaSf r n => IDefCfaSf r n
  | SDefCfaRegister r => IDefCfaRegister r
  | SDefCfaOffset n => IDefCfaOffset n
  | SDefCfaOffsetSf n => IDefCfaOffsetSf n
  | SDefCfaExpression b => IDefCfaExpression (off + 1 + zlen (uleb (zlen b))) (zlen b)
  | SExpression r b => IExpression r (off + 1 + zlen (uleb r) + zlen (uleb (zlen b))) (zlen b)
  | SValExpression r b => IValExpression r (off + 1 + zlen (uleb r) + zlen (uleb (zlen b))) (zlen b)
  | SNop => INop
  end.

Lemma land63_192 : forallb (fun n => let b := Z.of_nat n in
   (Z.land b 63 =? b mod 64) && (Z.land b 192 =? b - b mod 64)) (seq 0 256) = true.
Proof. vm_compute. reflexivity. Qed.
Lemma land63 b : 0 <= b < 256 -> Z.land b 63 = b mod 64 /\ Z.land b 192 = b - b mod 64.
Proof.
  intros H. pose proof land63_192 as F. rewrite forallb_forall in F.
  specialize (F (Z.to_nat b)). rewrite in_seq in F. specialize (F ltac:(lia)).
  rewrite Z2Nat.id in F by lia. cbv zeta in F. apply andb_true_iff in F. lia.
Qed.

Ltac dec_op :=
  cbn [bind];
  match goal with |- context [Z.land ?b 63] =>
    let H := fresh in destruct (land63 b ltac:(lia)) as [H ?]; rewrite H in *;
    match goal with H2 : Z.land b 192 = _ |- _ => rewrite H2 end end.

Lemma decode_encode data off i ca da : Forall isByte data -> zlen data + 32 < W64 ->
  wfI ca da i = true -> at_ data off (encodeI i) ->
  decodeInsn data off = Ok (lower off i, off + zlen (encodeI i)).
Proof.
  intros Hd Hw Hwf Hat.
  assert (Hw' : zlen data < W64) by lia.
  assert (Hbound : off + zlen (encodeI i) <= zlen data)
    by (apply at_len; [exact Hat|destruct i; discriminate]).
  pose proof (proj1 Hat) as Hoff.
  assert (H63 : 2 ^ 63 = 9223372036854775808) by reflexivity.
  unfold decodeInsn.
  assert (Hhd : exists b t, encodeI i = b :: t) by (destruct i; cbn [encodeI]; eauto).
  destruct Hhd as (b0 & t0 & Hhd). rewrite Hhd in Hat.
  change (b0 :: t0) with ([b0] ++ t0) in Hat. apply at_app in Hat. destruct Hat as [Hb Ht].
  change (zlen [b0]) with 1 in Ht. rewrite (getu8_at _ _ _ Hb Hw'). cbn [bind].
  destruct i; cbn [encodeI wfI lower] in *; unfold small, fits64 in Hwf; pose proof (f_equal (hd 0) Hhd) as E1; pose proof (f_equal (@tl Z) Hhd) as E2;
    cbn [hd tl] in E1, E2; subst b0 t0; clear Hhd Hb.
  all: rewrite ?zlen_cons in *; rewrite ?zlen_app in *; rewrite ?zlen_nil in *.
  - (* advance_loc *) destruct (land63 (64 + d) ltac:(lia)) as [-> ->].
    replace ((64 + d) mod 64) with d by lia. replace (64 + d - d =? 64) with true by lia.
    change (zlen (@nil Z)) with 0. do 2 f_equal; lia.
  - change (Z.land 2 192) with 0. change (Z.land 2 63) with 2. cbn [Z.eqb Pos.eqb].
    cbn [leBytes] in Ht. replace (d mod 256) with d in Ht by lia.
    rewrite (getu8_at _ _ _ Ht Hw'). cbn [bind]. rewrite leBytes_len. do 2 f_equal. lia.
  - change (Z.land 3 192) with 0. change (Z.land 3 63) with 3. cbn [Z.eqb Pos.eqb].
    rewrite (getu16_at data (off + 1) d) by (try assumption; unfold W16; lia). cbn [bind].
    rewrite leBytes_len. do 2 f_equal. lia.
  - change (Z.land 4 192) with 0. change (Z.land 4 63) with 4. cbn [Z.eqb Pos.eqb].
    rewrite (getu32_at data (off + 1) d) by (try assumption; unfold W32; lia). cbn [bind].
    rewrite leBytes_len. do 2 f_equal. lia.
  - change (Z.land 1 192) with 0. change (Z.land 1 63) with 1. cbn [Z.eqb Pos.eqb].
    rewrite (getuint8_at data (off + 1) a) by (try assumption; unfold W64; lia). cbn [bind].
    rewrite leBytes_len. do 2 f_equal. lia.
  - (* offset *) destruct (land63 (128 + r) ltac:(lia)) as [-> ->].
    replace ((128 + r) mod 64) with r by lia. replace (128 + r - r =? 64) with false by lia.
    replace (128 + r - r =? 128) with true by lia.
    rewrite (getuleb_at data (off + 1) n) by (try assumption; unfold W64; lia). cbn [bind]. do 2 f_equal. lia.
  - change (Z.land 5 192) with 0. change (Z.land 5 63) with 5. cbn [Z.eqb Pos.eqb]. apply at_app in Ht. destruct Ht as [H1 H2].
    rewrite (getuleb_at _ _ r H1) by (unfold W64; lia). cbn [bind].
    rewrite (getuleb_at _ _ n H2) by (unfold W64; lia). cbn [bind]. do 2 f_equal; lia.
  - change (Z.land 17 192) with 0. change (Z.land 17 63) with 17. cbn [Z.eqb Pos.eqb]. apply at_app in Ht. destruct Ht as [H1 H2].
    rewrite (getuleb_at _ _ r H1) by (unfold W64; lia). cbn [bind].
    rewrite (getsleb_at _ _ n H2) by lia. cbn [bind]. do 2 f_equal; lia.
  - (* restore *) destruct (land63 (192 + r) ltac:(lia)) as [-> ->].
    replace ((192 + r) mod 64) with r by lia. replace (192 + r - r =? 64) with false by lia.
    replace (192 + r - r =? 128) with false by lia. replace (192 + r - r =? 192) with true by lia.
    change (zlen (@nil Z)) with 0. do 2 f_equal; lia.
  - change (Z.land 6 192) with 0. change (Z.land 6 63) with 6. cbn [Z.eqb Pos.eqb].
    rewrite (getuleb_at _ _ r Ht) by (unfold W64; lia). cbn [bind]. do 2 f_equal; lia.
  - change (Z.land 7 192) with 0. change (Z.land 7 63) with 7. cbn [Z.eqb Pos.eqb].
    rewrite (getuleb_at _ _ r Ht) by (unfold W64; lia). cbn [bind]. do 2 f_equal; lia.
  - change (Z.land 8 192) with 0. change (Z.land 8 63) with 8. cbn [Z.eqb Pos.eqb].
    rewrite (getuleb_at _ _ r Ht) by (unfold W64; lia). cbn [bind]. do 2 f_equal; lia.
  - change (Z.land 9 192) with 0. change (Z.land 9 63) with 9. cbn [Z.eqb Pos.eqb]. apply at_app in Ht. destruct Ht as [H1 H2].
    rewrite (getuleb_at _ _ r1 H1) by (unfold W64; lia). cbn [bind].
    rewrite (getuleb_at _ _ r2 H2) by (unfold W64; lia). cbn [bind]. do 2 f_equal; lia.
  - change (Z.land 10 192) with 0. change (Z.land 10 63) with 10. cbn [Z.eqb Pos.eqb].
    change (zlen (@nil Z)) with 0. do 2 f_equal; lia.
  - change (Z.land 11 192) with 0. change (Z.land 11 63) with 11. cbn [Z.eqb Pos.eqb].
    change (zlen (@nil Z)) with 0. do 2 f_equal; lia.
  - change (Z.land 12 192) with 0. change (Z.land 12 63) with 12. cbn [Z.eqb Pos.eqb]. apply at_app in Ht. destruct Ht as [H1 H2].
    rewrite (getuleb_at _ _ r H1) by (unfold W64; lia). cbn [bind].
    rewrite (getuleb_at _ _ n H2) by (unfold W64; lia). cbn [bind]. do 2 f_equal; lia.
  - change (Z.land 18 192) with 0. change (Z.land 18 63) with 18. cbn [Z.eqb Pos.eqb]. apply at_app in Ht. destruct Ht as [H1 H2].
    rewrite (getuleb_at _ _ r H1) by (unfold W64; lia). cbn [bind].
    rewrite (getsleb_at _ _ n H2) by lia. cbn [bind]. do 2 f_equal; lia.
  - change (Z.land 13 192) with 0. change (Z.land 13 63) with 13. cbn [Z.eqb Pos.eqb].
    rewrite (getuleb_at _ _ r Ht) by (unfold W64; lia). cbn [bind]. do 2 f_equal; lia.
  - change (Z.land 14 192) with 0. change (Z.land 14 63) with 14. cbn [Z.eqb Pos.eqb].
    rewrite (getuleb_at _ _ n Ht) by (unfold W64; lia). cbn [bind]. do 2 f_equal; lia.
  - change (Z.land 19 192) with 0. change (Z.land 19 63) with 19. cbn [Z.eqb Pos.eqb].
    rewrite (getsleb_at _ _ n Ht) by lia. cbn [bind]. do 2 f_equal; lia.
  - change (Z.land 15 192) with 0. change (Z.land 15 63) with 15. cbn [Z.eqb Pos.eqb]. apply at_app in Ht. destruct Ht as [H1 H2].
    pose proof (zlen_nonneg blk). pose proof (zlen_nonneg (uleb (zlen blk))).
    rewrite (getuleb_at _ _ (zlen blk) H1) by (unfold W64 in *; lia). cbn [bind].
    rewrite u64_id by (unfold isU64, W64 in *; lia). do 2 f_equal; lia.
  - change (Z.land 16 192) with 0. change (Z.land 16 63) with 16. cbn [Z.eqb Pos.eqb].
    apply at_app in Ht. destruct Ht as [H1 H2]. apply at_app in H2. destruct H2 as [H2 H3].
    pose proof (zlen_nonneg blk). pose proof (zlen_nonneg (uleb (zlen blk))). pose proof (zlen_nonneg (uleb r)).
    rewrite (getuleb_at _ _ r H1) by (unfold W64; lia). cbn [bind].
    rewrite (getuleb_at _ _ (zlen blk) H2) by (unfold W64 in *; lia). cbn [bind].
    rewrite u64_id by (unfold isU64, W64 in *; lia). do 2 f_equal; lia.
  - change (Z.land 22 192) with 0. change (Z.land 22 63) with 22. cbn [Z.eqb Pos.eqb].
    apply at_app in Ht. destruct Ht as [H1 H2]. apply at_app in H2. destruct H2 as [H2 H3].
    pose proof (zlen_nonneg blk). pose proof (zlen_nonneg (uleb (zlen blk))). pose proof (zlen_nonneg (uleb r)).
    rewrite (getuleb_at _ _ r H1) by (unfold W64; lia). cbn [bind].
    rewrite (getuleb_at _ _ (zlen blk) H2) by (unfold W64 in *; lia). cbn [bind].
    rewrite u64_id by (unfold isU64, W64 in *; lia). do 2 f_equal; lia.
  - change (Z.land 0 192) with 0. change (Z.land 0 63) with 0. cbn [Z.eqb Pos.eqb].
    change (zlen (@nil Z)) with 0. do 2 f_equal; lia.
Qed.

(** ** Refinement: code state versus specification state *)
Definition ruleRel (data : list Z) (v : rule) (s : srule) : Prop :=
  match v, s with
  | Undef, RuleUndefined | Same, RuleSame | Arch, RuleDefault => True
  | Offset n, RuleOffset m => n = m
  | Reg a, RuleRegister b => a = b
  | Expression o l, RuleExpression b => 0 <= o /\ l = zlen b /\ ztake l (zdrop o data) = b
  | ValExpression o l, RuleValExpression b => 0 <= o /\ l = zlen b /\ ztake l (zdrop o data) = b
  | _, _ => False
  end.
Definition cfaRel (data : list Z) (f : frame) (c : scfa) : Prop :=
  match cfaT f, c with
  | CUndef, CfaUnset => True
  | COffset, CfaRegOff r n => cfaReg f = r /\ cfaWord f = n
  | CExpr, CfaExpression b => 0 <= cfaWord f /\ cfaLen f = zlen b /\ ztake (cfaLen f) (zdrop (cfaWord f) data) = b
  | _, _ => False
  end.
(** The rule a frame gives a register: absent and ARCH both mean the default. *)
Definition ruleOf (f : frame) (r : Z) : rule := match findReg r (registers f) with Some v => v | None => Arch end.
Definition frameRel (data : list Z) (f : frame) (rules : Z -> srule) (c : scfa) : Prop :=
  (forall r, ruleRel data (ruleOf f r) (rules r)) /\ cfaRel data f c.

Lemma findReg_drop r k l : findReg r (dropReg k l) = if r =? k then None else findReg r l.
Proof.
  induction l as [|[x v] l IH]; cbn [dropReg filter findReg fst]; [now destruct (r =? k)|].
  unfold dropReg in IH. destruct (x =? k) eqn:E; cbn [negb].
  - rewrite IH. destruct (r =? k) eqn:E2; [reflexivity|]. now replace (x =? r) with false by lia.
  - cbn [findReg]. rewrite IH. destruct (x =? r) eqn:E3; [|reflexivity]. now replace (r =? k) with false by lia.
Qed.
Lemma findReg_put r k v l : findReg r (putReg k v l) = if r =? k then Some v else findReg r l.
Proof.
  unfold putReg. cbn [findReg]. rewrite findReg_drop. replace (k =? r) with (r =? k) by lia.
  now destruct (r =? k).
Qed.
Lemma s32_small r : small r = true -> s32 r = r.
Proof.
  unfold small, s32, sgn, W32. intros H. rewrite Z.mod_small by lia.
  replace (r <? 4294967296 / 2) with true; [reflexivity|]. change (4294967296 / 2) with 2147483648. lia.
Qed.

Lemma setReg_rel data f rules c r v s : small r = true -> frameRel data f rules c -> ruleRel data v s ->
  frameRel data (setReg f r v) (upd rules r s) c.
Proof.
  intros Hr [H1 H2] Hv. split; [|exact H2]. intros x. unfold ruleOf, setReg. cbn [registers].
  rewrite s32_small by exact Hr. rewrite findReg_put. unfold upd. destruct (x =? r); [exact Hv|apply H1].
Qed.

Definition stRel (data : list Z) (s : cfst) (t : row * list saved) : Prop :=
  loc s = rowLoc (fst t) /\ frameRel data (fr s) (rowRule (fst t)) (rowCfa (fst t)) /\
  Forall2 (fun f sv => frameRel data f (fst sv) (snd sv)) (stk s) (snd t).

Lemma s64_fits n : fits64 n = true -> s64 n = n.
Proof. unfold fits64. intros H. apply sgn_id. change (2^63) with 9223372036854775808. lia. Qed.
Lemma smul_fits a b : fits64 (a * b) = true -> smul a b = Ok (a * b).
Proof.
  unfold fits64, smul, inS64. change (W64 / 2) with 9223372036854775808.
  replace (- (9223372036854775808)) with (-9223372036854775808) by lia. now intros ->.
Qed.

Lemma small64 r : (0 <=? r) && (r <? 64) = true -> small r = true.
Proof. unfold small. lia. Qed.

Lemma exec_refines data ca da d ini s t i t' off :
  wfI ca da i = true -> 0 <= ca -> at_ data off (encodeI i) -> 0 <= off ->
  frameRel data d ini CfaUnset \/ (exists c, frameRel data d ini c) ->
  stRel data s t -> stepS ca da ini t i = Some t' -> 0 <= rowLoc (fst t) -> rowLoc (fst t') < W64 ->
  exists s', execInsn (mkCie ca da) d s (lower off i) = Ok s' /\ stRel data s' t'.
Proof.
  intros Hwf Hca Hat Hoff Hd0 Hrel Hstep Hl0 Hl.
  assert (Hd : exists c, frameRel data d ini c) by (destruct Hd0; eauto). clear Hd0. destruct Hd as [dc [Hd _]].
  destruct t as [w st]. destruct Hrel as (Hloc & Hfr & Hst). cbn [fst snd] in *.
  assert (Hsetr : forall r v sv, small r = true -> ruleRel data v sv ->
     stRel data (mkSt (loc s) (setReg (fr s) r v) (stk s)) (setRule w r sv, st)).
  { intros r v sv Hr Hv. split; [exact Hloc|]. split; [|exact Hst].
    cbn [fst rowRule rowCfa setRule fr]. now apply setReg_rel. }
  destruct i; cbn [wfI stepS lower execInsn dataAlign codeAlign] in *; try discriminate Hstep.
  all: repeat match goal with H : (_ && _)%bool = true |- _ => apply andb_true_iff in H; destruct H end.
  1-4: inversion Hstep; subst t'; cbn [fst setLocR rowLoc] in Hl;
    (eexists; split; [reflexivity|]); (split; [|split; assumption]); cbn [loc fst setLocR rowLoc];
    rewrite Hloc; rewrite u32_id by (unfold isU32, W32; nia); rewrite u64_id by (unfold isU64; nia); reflexivity.
  - (* set_loc *) destruct (rowLoc w <=? a); [|discriminate]. inversion Hstep; subst.
    eexists; split; [reflexivity|]. split; [reflexivity|]. split; assumption.
  - inversion Hstep; subst. rewrite s64_fits by assumption. rewrite smul_fits by assumption. cbn [bind].
    eexists; split; [reflexivity|]. apply Hsetr; [apply small64; lia|reflexivity].
  - inversion Hstep; subst. rewrite s64_fits by assumption.
    eexists; split; [reflexivity|]. apply Hsetr; [assumption|reflexivity].
  - inversion Hstep; subst. rewrite smul_fits by assumption. cbn [bind].
    eexists; split; [reflexivity|]. apply Hsetr; [assumption|reflexivity].
  - inversion Hstep; subst. eexists; split; [reflexivity|].
    pose proof (small64 r ltac:(lia)) as Hr. unfold restoreRule. rewrite s32_small by exact Hr.
    apply Hsetr; [exact Hr|apply Hd].
  - inversion Hstep; subst. eexists; split; [reflexivity|].
    unfold restoreRule. rewrite s32_small by assumption. apply Hsetr; [assumption|apply Hd].
  - inversion Hstep; subst. eexists; split; [reflexivity|]. apply Hsetr; [assumption|exact I].
  - inversion Hstep; subst. eexists; split; [reflexivity|]. apply Hsetr; [assumption|exact I].
  - inversion Hstep; subst. eexists; split; [reflexivity|]. apply Hsetr; [assumption|reflexivity].
  - inversion Hstep; subst. eexists; split; [reflexivity|]. split; [exact Hloc|]. split; [exact Hfr|].
    cbn [stk snd]. constructor; assumption.
  - destruct st as [|[rs cf] st]; [discriminate|]. inversion Hstep; subst. inversion Hst; subst.
    eexists; split; [reflexivity|]. split; [exact Hloc|]. split; assumption.
  - inversion Hstep; subst. eexists; split; [reflexivity|]. split; [exact Hloc|]. split; [|exact Hst].
    destruct Hfr as [Hf1 Hf2]. split; [exact Hf1|]. unfold cfaRel; cbn. rewrite s32_small, s64_fits by assumption. auto.
  - inversion Hstep; subst. rewrite smul_fits by assumption. cbn [bind].
    eexists; split; [reflexivity|]. split; [exact Hloc|]. split; [|exact Hst].
    destruct Hfr as [Hf1 Hf2]. split; [exact Hf1|]. unfold cfaRel; cbn. rewrite s32_small by assumption. auto.
  - destruct (rowCfa w) as [|r0 n0|b] eqn:Ecfa; try discriminate. inversion Hstep; subst.
    eexists; split; [reflexivity|]. split; [exact Hloc|]. split; [|exact Hst].
    destruct Hfr as [Hf1 Hf2]. split; [exact Hf1|]. unfold cfaRel in *. cbn. rewrite s32_small by assumption.
    destruct (cfaT (fr s)); try contradiction. tauto.
  - destruct (rowCfa w) as [|r0 n0|b] eqn:Ecfa; try discriminate. inversion Hstep; subst.
    eexists; split; [reflexivity|]. split; [exact Hloc|]. split; [|exact Hst].
    destruct Hfr as [Hf1 Hf2]. split; [exact Hf1|]. unfold cfaRel in *. cbn. rewrite s64_fits by assumption.
    destruct (cfaT (fr s)); try contradiction. tauto.
  - destruct (rowCfa w) as [|r0 n0|b] eqn:Ecfa; try discriminate. inversion Hstep; subst.
    rewrite smul_fits by assumption. cbn [bind].
    eexists; split; [reflexivity|]. split; [exact Hloc|]. split; [|exact Hst].
    destruct Hfr as [Hf1 Hf2]. split; [exact Hf1|]. unfold cfaRel in *. cbn.
    destruct (cfaT (fr s)); try contradiction. tauto.
  - inversion Hstep; subst. eexists; split; [reflexivity|]. split; [exact Hloc|]. split; [|exact Hst].
    destruct Hfr as [Hf1 Hf2]. split; [exact Hf1|]. unfold cfaRel in *. cbn [fr cfaT cfaWord cfaLen setCfaR rowCfa fst snd].
    assert (Hpos : 0 <= off + 1 + zlen (uleb (zlen blk))) by (pose proof (zlen_nonneg (uleb (zlen blk))); lia).
    split; [exact Hpos|]. split; [reflexivity|].
    cbn [encodeI] in Hat. change (15 :: uleb (zlen blk) ++ blk) with ([15] ++ uleb (zlen blk) ++ blk) in Hat.
    apply at_app in Hat. destruct Hat as [_ Hat]. apply at_app in Hat. destruct Hat as [_ Hat].
    change (zlen [15]) with 1 in Hat. now apply at_take.
  - inversion Hstep; subst. eexists; split; [reflexivity|]. apply Hsetr; [assumption|]. cbn [ruleRel].
    pose proof (zlen_nonneg (uleb r)). pose proof (zlen_nonneg (uleb (zlen blk))).
    split; [lia|]. split; [reflexivity|].
    cbn [encodeI] in Hat. change (16 :: uleb r ++ uleb (zlen blk) ++ blk) with ([16] ++ uleb r ++ uleb (zlen blk) ++ blk) in Hat.
    do 3 (apply at_app in Hat; destruct Hat as [_ Hat]). change (zlen [16]) with 1 in Hat. now apply at_take.
  - inversion Hstep; subst. eexists; split; [reflexivity|]. apply Hsetr; [assumption|]. cbn [ruleRel].
    pose proof (zlen_nonneg (uleb r)). pose proof (zlen_nonneg (uleb (zlen blk))).
    split; [lia|]. split; [reflexivity|].
    cbn [encodeI] in Hat. change (22 :: uleb r ++ uleb (zlen blk) ++ blk) with ([22] ++ uleb r ++ uleb (zlen blk) ++ blk) in Hat.
    do 3 (apply at_app in Hat; destruct Hat as [_ Hat]). change (zlen [22]) with 1 in Hat. now apply at_take.
  - inversion Hstep; subst. eexists; split; [reflexivity|]. split; [exact Hloc|]. split; assumption.
Qed.

(** Locations never decrease along a valid program. *)
Lemma stepS_mono ca da ini t i t' : wfI ca da i = true -> 0 <= ca -> stepS ca da ini t i = Some t' ->
  rowLoc (fst t) <= rowLoc (fst t') /\ (changesLoc i = false -> rowLoc (fst t') = rowLoc (fst t)).
Proof.
  destruct t as [w st]. intros Hwf Hca H.
  destruct i; cbn [stepS wfI changesLoc] in *; try discriminate H;
    repeat match goal with
    | H : context [match ?x with _ => _ end] |- _ => destruct x eqn:?; try discriminate
    | H : Some _ = Some _ |- _ => inversion H; subst; clear H
    end; cbn [fst rowLoc setLocR setRule setCfaR]; split; intros; try discriminate; try lia; nia.
Qed.

Lemma table_first ca da ini p : forall t rows, table ca da ini t p = Some rows ->
  forallb (wfI ca da) p = true -> 0 <= ca -> Forall (fun w => rowLoc (fst t) <= rowLoc w) rows.
Proof.
  induction p as [|i p IH]; intros t rows Ht Hwf Hca; cbn [table forallb] in *.
  - inversion Ht; subst. constructor; [lia|constructor].
  - apply andb_true_iff in Hwf. destruct Hwf as [Hi Hp].
    destruct (stepS ca da ini t i) as [t'|] eqn:Es; [|discriminate].
    destruct (table ca da ini t' p) as [rows'|] eqn:Et; [|discriminate].
    inversion Ht; subst. pose proof (stepS_mono _ _ _ _ _ _ Hi Hca Es) as [Hm _].
    specialize (IH t' rows' Et Hp Hca).
    assert (Forall (fun w => rowLoc (fst t) <= rowLoc w) rows').
    { eapply Forall_impl; [|exact IH]. cbn. intros; lia. }
    destruct (changesLoc i); [constructor; [lia|assumption]|assumption].
Qed.
Lemma rowAt_above pc rows : Forall (fun w => pc < rowLoc w) rows -> rowAt pc rows = None.
Proof.
  induction rows as [|w rows IH]; intros H; cbn [rowAt]; [reflexivity|]. inversion H; subst.
  rewrite IH by assumption. now replace (rowLoc w <=? pc) with false by lia.
Qed.

(** The location after each step occurs in the table, so it fits when the table fits. *)
Lemma table_locs ca da ini p : forall t rows, table ca da ini t p = Some rows ->
  forallb (wfI ca da) p = true -> 0 <= ca -> locsFit rows -> exists w, In w rows /\ rowLoc w = rowLoc (fst t).
Proof.
  induction p as [|i p IH]; intros t rows Ht Hwf Hca Hf; cbn [table forallb] in *.
  - inversion Ht; subst. exists (fst t). split; [now left|reflexivity].
  - apply andb_true_iff in Hwf. destruct Hwf as [Hi Hp].
    destruct (stepS ca da ini t i) as [t'|] eqn:Es; [|discriminate].
    destruct (table ca da ini t' p) as [rows'|] eqn:Et; [|discriminate].
    inversion Ht; subst. pose proof (stepS_mono _ _ _ _ _ _ Hi Hca Es) as [_ Hm].
    destruct (changesLoc i).
    + exists (fst t). split; [now left|reflexivity].
    + destruct (IH t' rows' Et Hp Hca Hf) as (w & Hin & Hw). exists w. split; [exact Hin|]. rewrite Hw. now apply Hm.
Qed.

(** ** The whole loop *)
Lemma encodeI_nonempty i : 0 < zlen (encodeI i).
Proof. destruct i; cbn [encodeI]; rewrite ?zlen_cons; pose proof (fun l => @zlen_nonneg Z l) as H; try (specialize (H (leBytes 8 a))); match goal with |- 0 < zlen ?l + 1 => pose proof (zlen_nonneg l); lia end. Qed.

Lemma execLoop_table data ca da d ini pc :
  Forall isByte data -> zlen data + 32 < W64 -> 0 <= ca -> (exists c, frameRel data d ini c) ->
  forall p fuel off s t rows,
  forallb (wfI ca da) p = true -> at_ data off (encodeP p) ->
  stRel data s t -> table ca da ini t p = Some rows -> locsFit rows ->
  rowLoc (fst t) <= pc -> (length p < fuel)%nat ->
  exists f w, execLoop fuel data (mkCie ca da) d (fun l => pc <? l) (off + zlen (encodeP p)) off s = Ok f /\
    rowAt pc rows = Some w /\ frameRel data f (rowRule w) (rowCfa w).
Proof.
  intros Hd Hw Hca Hdf. induction p as [|i p IH]; intros fuel off s t rows Hwf Hat Hrel Ht Hfit Hpc Hfuel.
  - cbn [table] in Ht. inversion Ht; subst. destruct fuel as [|fuel]; [cbn in Hfuel; lia|].
    cbn [execLoop encodeP flat_map]. change (zlen (@nil Z)) with 0.
    replace (off =? off + 0) with true by lia. rewrite orb_true_r.
    exists (fr s), (fst t). split; [reflexivity|]. split; [|apply Hrel].
    cbn [rowAt]. now replace (rowLoc (fst t) <=? pc) with true by lia.
  - cbn [forallb] in Hwf. apply andb_true_iff in Hwf. destruct Hwf as [Hi Hp].
    cbn [table] in Ht.
    destruct (stepS ca da ini t i) as [t'|] eqn:Es; [|discriminate].
    destruct (table ca da ini t' p) as [rows'|] eqn:Et; [|discriminate].
    inversion Ht; subst rows. clear Ht.
    pose proof (stepS_mono _ _ _ _ _ _ Hi Hca Es) as [Hm1 Hm2].
    assert (Hfit' : locsFit rows').
    { destruct (changesLoc i); [inversion Hfit; assumption|assumption]. }
    destruct (table_locs _ _ _ _ _ _ Et Hp Hca Hfit') as (w' & Hin' & Hw').
    assert (Hl' : 0 <= rowLoc (fst t') < W64).
    { unfold locsFit in Hfit'. rewrite Forall_forall in Hfit'. specialize (Hfit' w' Hin'). cbn in Hfit'. lia. }
    assert (Hl : 0 <= rowLoc (fst t)).
    { destruct (changesLoc i) eqn:Ec.
      - inversion Hfit; subst. lia.
      - rewrite <- Hm2 by reflexivity. lia. }
    cbn [encodeP flat_map] in Hat. apply at_app in Hat. destruct Hat as [Hat1 Hat2].
    pose proof (proj1 Hat1) as Hoff.
    destruct (exec_refines data ca da d ini s t i t' off Hi Hca Hat1 Hoff (or_intror Hdf) Hrel Es Hl ltac:(lia))
      as (s' & Hex & Hrel').
    destruct fuel as [|fuel]; [cbn in Hfuel; lia|].
    cbn [execLoop encodeP flat_map]. rewrite zlen_app. fold (encodeP p) in *.
    destruct Hrel as (Hloc & Hfr & Hst).
    replace (pc <? loc s) with false by lia.
    pose proof (encodeI_nonempty i). pose proof (zlen_nonneg (encodeP p)).
    replace (off =? off + (zlen (encodeI i) + zlen (encodeP p))) with false by lia. cbn [orb].
    rewrite (decode_encode data off i ca da Hd Hw Hi Hat1). cbn [bind]. rewrite Hex. cbn [bind].
    destruct (Z_le_dec (rowLoc (fst t')) pc) as [Hle|Hgt].
    + destruct (IH fuel (off + zlen (encodeI i)) s' t' rows' Hp Hat2 Hrel' Et Hfit' Hle ltac:(cbn in Hfuel; lia))
        as (f & w & He & Hr & Hfw).
      exists f, w. split; [|split; [|exact Hfw]].
      * rewrite <- He. f_equal. lia.
      * destruct (changesLoc i); [cbn [rowAt]; now rewrite Hr|exact Hr].
    + (* the next row starts after pc: stop with the current row *)
      assert (Hc : changesLoc i = true).
      { destruct (changesLoc i) eqn:Ec; [reflexivity|]. specialize (Hm2 eq_refl). lia. }
      rewrite Hc in *. pose proof (table_first _ _ _ _ _ _ Et Hp Hca) as Hfirst.
      exists (fr s'), (fst t). split; [|split].
      * destruct fuel as [|fuel]; [cbn in Hfuel; lia|]. cbn [execLoop].
        destruct Hrel' as (Hloc' & _). replace (pc <? loc s') with true by lia. reflexivity.
      * cbn [rowAt]. rewrite rowAt_above.
        -- now replace (rowLoc (fst t) <=? pc) with true by lia.
        -- eapply Forall_impl; [|exact Hfirst]. cbn. intros; lia.
      * (* a location change leaves the rules alone *)
        destruct Hrel' as (_ & Hfr' & _). destruct t as [w st].
        destruct i; cbn [changesLoc] in Hc; try discriminate; cbn [stepS] in Es;
          repeat match goal with
          | H : (if ?x then _ else _) = Some _ |- _ => destruct x; try discriminate
          | H : Some _ = Some _ |- _ => inversion H; subst; clear H
          end; exact Hfr'.
Qed.
