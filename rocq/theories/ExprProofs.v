From Verif Require Import Base Leb LebSpec LebProofs DwarfReader DwarfReaderProofs Regs Cfi CfiSpec CfiProofs CfiProofs2 Expr ExprSpec.

Lemma p64 : 2 ^ 64 = W64. Proof. reflexivity. Qed.
Lemma p63 : 2 ^ 63 = W64 / 2. Proof. reflexivity. Qed.

Definition isWord (x : Z) : Prop := 0 <= x < W64.
Lemma word_u64 x : word x = u64 x. Proof. reflexivity. Qed.
Lemma word_id x : isWord x -> word x = x. Proof. intros; apply Z.mod_small; exact H. Qed.
Lemma word_isWord x : isWord (word x). Proof. apply Z.mod_pos_bound. reflexivity. Qed.
Lemma s64_signed x : isWord x -> s64 x = signed x.
Proof.
  intros H. unfold s64, sgn, signed. rewrite Z.mod_small by exact H. rewrite p63, p64. reflexivity.
Qed.
Lemma fits_inS64 x : inS64 x = fits x.
Proof. unfold inS64, fits. rewrite p63. reflexivity. Qed.
Lemma sarith_fits x : fits x = true -> sarith x = Ok (word x).
Proof. intros H. unfold sarith. rewrite fits_inS64, H. reflexivity. Qed.
Lemma signed_range x : isWord x -> fits (signed x) = true.
Proof.
  unfold isWord, fits, signed. rewrite p63, p64. intros H. change W64 with 18446744073709551616 in *.
  change (18446744073709551616 / 2) with 9223372036854775808.
  destruct (x <? 9223372036854775808) eqn:E; lia.
Qed.
Lemma testbit_high x i : isWord x -> 64 <= i -> Z.testbit x i = false.
Proof.
  intros H Hi. rewrite <- (Z.mod_small x (2 ^ 64)) by (rewrite p64; exact H).
  apply Z.mod_pow2_bits_high. lia.
Qed.
Lemma word_bitop (f : Z -> Z -> Z) (g : bool -> bool -> bool) a b :
  (forall x y i, Z.testbit (f x y) i = g (Z.testbit x i) (Z.testbit y i)) -> g false false = false ->
  isWord a -> isWord b -> word (f a b) = f a b.
Proof.
  intros Hf Hg Ha Hb. unfold word. apply Z.bits_inj'. intros i Hi.
  destruct (Z_lt_dec i 64).
  - now rewrite Z.mod_pow2_bits_low by lia.
  - rewrite Z.mod_pow2_bits_high by lia. rewrite Hf, !testbit_high by (try assumption; lia). now rewrite Hg.
Qed.

Lemma sgn_mod w x : 0 < w -> sgn w (x mod w) = sgn w x.
Proof. intros H. unfold sgn. now rewrite Z.mod_mod by lia. Qed.

Lemma sgn_fix w x : 0 < w -> w mod 2 = 0 -> - (w / 2) <= x < w / 2 -> sgn w x = x.
Proof.
  intros Hw He H. unfold sgn. destruct (Z_lt_dec x 0).
  - replace (x mod w) with (x + w) by (apply Z.mod_unique with (-1); lia).
    replace (x + w <? w / 2) with false by lia. lia.
  - rewrite Z.mod_small by lia. now replace (x <? w / 2) with true by lia.
Qed.

(** ** Decoding *)
Definition lowerO (o : sop) : eop :=
  match o with
  | PDeref => ODeref
  | PConsts n | PConstu n | PConst2s n | PConst4u n | PConst4s n | PLit n => OPush (word n)
  | PMinus => OMinus | PPlus => OPlus | PPlusUconst n => OPlusU n | PBreg r n => OBreg r n
  | PNot => ONot | PAbs => OAbs | PNeg => ONeg | PAnd => OAnd | PDiv => ODiv | PMul => OMul | PMod => OMod
  | POr => OOr | PXor => OXor
  | PLe => OLe | PGe => OGe | PEq => OEq | PLt => OLt | PGt => OGt | PNe => ONe
  | PShl => OShl | PShr => OShr | PShra => OShra
  | PAddr a => OAddr a | PCallFrameCfa => OCfa | PFbreg n => OFbreg n | PStackValue => OStackValue
  end.

Lemma decodeE_at data off o : Forall isByte data -> zlen data + 32 < W64 -> wfO o ->
  at_ data off (encodeO o) -> decodeE data off = Ok (lowerO o, off + zlen (encodeO o)).
Proof.
  intros Hd Hw Hwf Hat. assert (Hw' : zlen data < W64) by lia.
  unfold decodeE.
  assert (Hhd : exists b t, encodeO o = b :: t) by (destruct o; cbn [encodeO]; eauto).
  destruct Hhd as (b0 & t0 & Hhd). rewrite Hhd in Hat |- *.
  change (b0 :: t0) with ([b0] ++ t0) in Hat. apply at_app in Hat. destruct Hat as [Hb Ht].
  change (zlen [b0]) with 1 in Ht. rewrite (getu8_at _ _ _ Hb Hw'). cbn [bind]. rewrite zlen_cons.
  destruct o; cbn [encodeO wfO lowerO] in *;
    pose proof (f_equal (hd 0) Hhd) as E1; pose proof (f_equal (@tl Z) Hhd) as E2;
    cbn [hd tl] in E1, E2; subst b0 t0; clear Hhd Hb; cbn [Z.eqb Pos.eqb Z.leb Z.compare Pos.compare Pos.compare_cont andb orb].
  all: try (change (zlen (@nil Z)) with 0; reflexivity).
  - rewrite (getsleb_at _ _ n Ht) by exact Hwf. cbn [bind]. do 2 f_equal. lia.
  - rewrite (getuleb_at _ _ n Ht) by exact Hwf. cbn [bind]. rewrite word_id by exact Hwf. do 2 f_equal; lia.
  - rewrite (getu16_at data (off + 1) (n mod 2 ^ 16)); try assumption; [|apply Z.mod_pos_bound; reflexivity].
    cbn [bind]. rewrite leBytes_len. unfold s16. change (2 ^ 16) with W16. rewrite sgn_mod by reflexivity.
    rewrite sgn_fix; [|reflexivity|reflexivity|exact Hwf]. do 2 f_equal. lia.
  - rewrite (getu32_at data (off + 1) n) by assumption. cbn [bind]. rewrite leBytes_len.
    rewrite word_id by (unfold isWord, W64; change (2 ^ 32) with 4294967296 in Hwf; lia). do 2 f_equal; lia.
  - rewrite (getu32_at data (off + 1) (n mod 2 ^ 32)); try assumption; [|apply Z.mod_pos_bound; reflexivity].
    cbn [bind]. rewrite leBytes_len. unfold s32. change (2 ^ 32) with W32. rewrite sgn_mod by reflexivity.
    rewrite sgn_fix; [|reflexivity|reflexivity|exact Hwf]. do 2 f_equal. lia.
  - rewrite (getuleb_at _ _ n Ht) by exact Hwf. cbn [bind]. do 2 f_equal; lia.
  - destruct Hwf as [Hr Hn].
    replace (112 + r =? 6) with false by lia. replace (112 + r =? 17) with false by lia.
    replace (112 + r =? 16) with false by lia. replace (112 + r =? 11) with false by lia.
    replace (112 + r =? 12) with false by lia. replace (112 + r =? 13) with false by lia.
    replace (112 + r =? 28) with false by lia. replace (112 + r =? 34) with false by lia.
    replace (112 + r =? 35) with false by lia.
    replace ((112 <=? 112 + r) && (112 + r <=? 143)) with true by lia.
    rewrite (getsleb_at _ _ n Ht) by exact Hn. cbn [bind]. replace (112 + r - 112) with r by lia. do 2 f_equal; lia.
  - replace (48 + n =? 6) with false by lia. replace (48 + n =? 17) with false by lia.
    replace (48 + n =? 16) with false by lia. replace (48 + n =? 11) with false by lia.
    replace (48 + n =? 12) with false by lia. replace (48 + n =? 13) with false by lia.
    replace (48 + n =? 28) with false by lia. replace (48 + n =? 34) with false by lia.
    replace (48 + n =? 35) with false by lia.
    replace ((112 <=? 48 + n) && (48 + n <=? 143)) with false by lia.
    replace ((48 <=? 48 + n) && (48 + n <=? 79)) with true by lia.
    rewrite word_id by (unfold isWord, W64; lia). replace (48 + n - 48) with n by lia. change (zlen (@nil Z)) with 0. reflexivity.
  - rewrite (getuint8_at data (off + 1) a) by assumption. cbn [bind]. rewrite leBytes_len. do 2 f_equal. change (Z.of_nat 8) with 8. lia.
  - rewrite (getsleb_at _ _ n Ht) by exact Hwf. cbn [bind]. do 2 f_equal; lia.
Qed.

(** ** Stack operations *)
Definition usesEnv (o : sop) : bool :=
  match o with PDeref | PBreg _ _ | PAddr _ | PCallFrameCfa | PFbreg _ => true | _ => false end.

Lemma truth_word b : word (truth b) = b2z b. Proof. destruct b; reflexivity. Qed.
Lemma eqb_signed x t : isWord x -> isWord t -> (signed x =? signed t) = (x =? t).
Proof.
  unfold isWord, signed. rewrite p63, p64. change (W64 / 2) with 9223372036854775808. change W64 with 18446744073709551616.
  intros Hx Ht. destruct (x <? 9223372036854775808) eqn:E1, (t <? 9223372036854775808) eqn:E2; lia.
Qed.
Lemma cmp_signed x t : isWord x -> isWord t -> Bool.eqb (x <? 2 ^ 63) (t <? 2 ^ 63) = true ->
  (signed x <=? signed t) = (x <=? t) /\ (signed x <? signed t) = (x <? t) /\
  (signed t <=? signed x) = (x >=? t) /\ (signed t <? signed x) = (x >? t).
Proof.
  unfold isWord, signed. rewrite p63, p64. change (W64 / 2) with 9223372036854775808. change W64 with 18446744073709551616.
  intros Hx Ht. destruct (x <? 9223372036854775808) eqn:E1, (t <? 9223372036854775808) eqn:E2; cbn; intros; try discriminate; lia.
Qed.

Lemma word_of_signed_mul x t : word (signed x * signed t) = word (x * t).
Proof.
  unfold word, signed. rewrite Zmult_mod, (Zmult_mod x t).
  assert (forall y, (if y <? 2 ^ 63 then y else y - 2 ^ 64) mod 2 ^ 64 = y mod 2 ^ 64) as H.
  { intros y. destruct (y <? 2 ^ 63); [reflexivity|]. replace (y - 2 ^ 64) with (y + (-1) * 2 ^ 64) by ring. apply Z_mod_plus_full. }
  now rewrite !H.
Qed.

Lemma signed_zero t : isWord t -> (signed t =? 0) = (t =? 0).
Proof.
  unfold isWord, signed. rewrite p63, p64. change (W64 / 2) with 9223372036854775808. change W64 with 18446744073709551616.
  intros H. destruct (t <? 9223372036854775808) eqn:E1; lia.
Qed.

Lemma Some_inj {A} (a b : A) : Some a = Some b -> a = b. Proof. congruence. Qed.
Lemma stackOp_refines se o s s' : usesEnv o = false -> wfO o -> Forall isWord s -> safe o s = true -> sem se o s = Some s' ->
  stackOp (lowerO o) s = Ok s'.
Proof.
  intros Hu Hwf Hs Hsafe Hsem.
  destruct o; try discriminate Hu; cbn [lowerO stackOp sem safe] in *;
    lazymatch goal with |- Ok _ = Ok _ => apply Some_inj in Hsem; subst s'; reflexivity | _ => idtac end;
    (destruct s as [|t s]; [discriminate|]); inversion Hs as [|? ? Ht Hs']; subst; cbn [pop1];
    lazymatch goal with
    | |- pop1 _ _ = _ => (destruct s as [|x s]; [discriminate|]); inversion Hs' as [|? ? Hx Hs'']; subst; cbn [pop1]
    | _ => idtac
    end; cbn [bind].
  - (* minus *) apply Some_inj in Hsem; subst s'; reflexivity.
  - apply Some_inj in Hsem; subst s'; reflexivity.
  - apply Some_inj in Hsem; subst s'. rewrite (Z.add_comm t n). reflexivity.
  - apply Some_inj in Hsem; subst s'. rewrite word_id by (rewrite p64; unfold isWord in *; lia).
    rewrite p64. reflexivity.
  - apply Some_inj in Hsem; subst s'. rewrite s64_signed, sarith_fits by assumption. reflexivity.
  - apply Some_inj in Hsem; subst s'. rewrite s64_signed, sarith_fits by assumption. reflexivity.
  - apply Some_inj in Hsem; subst s'. rewrite (word_bitop Z.land andb) by (try assumption; try reflexivity; apply Z.land_spec).
    now rewrite Z.land_comm.
  - rewrite !s64_signed by assumption. rewrite signed_zero by assumption.
    destruct (t =? 0); [discriminate|]. apply Some_inj in Hsem; subst s'. rewrite sarith_fits by assumption. reflexivity.
  - apply Some_inj in Hsem; subst s'. rewrite !s64_signed by assumption. rewrite Z.mul_comm, sarith_fits by assumption.
    cbn [bind]. now rewrite word_of_signed_mul.
  - rewrite !s64_signed by assumption. rewrite signed_zero by assumption.
    destruct (t =? 0); [discriminate|]. apply Some_inj in Hsem; subst s'. rewrite fits_inS64, Hsafe. reflexivity.
  - apply Some_inj in Hsem; subst s'. rewrite (word_bitop Z.lor orb) by (try assumption; try reflexivity; apply Z.lor_spec).
    now rewrite Z.lor_comm.
  - apply Some_inj in Hsem; subst s'. rewrite (word_bitop Z.lxor xorb) by (try assumption; try reflexivity; apply Z.lxor_spec).
    now rewrite Z.lxor_comm.
  - apply Some_inj in Hsem; subst s'. destruct (cmp_signed x t Hx Ht Hsafe) as (-> & _). now rewrite truth_word.
  - apply Some_inj in Hsem; subst s'. destruct (cmp_signed x t Hx Ht Hsafe) as (_ & _ & -> & _). now rewrite truth_word.
  - apply Some_inj in Hsem; subst s'. rewrite eqb_signed by assumption. now rewrite truth_word.
  - apply Some_inj in Hsem; subst s'. destruct (cmp_signed x t Hx Ht Hsafe) as (_ & -> & _). now rewrite truth_word.
  - apply Some_inj in Hsem; subst s'. destruct (cmp_signed x t Hx Ht Hsafe) as (_ & _ & _ & ->). now rewrite truth_word.
  - apply Some_inj in Hsem; subst s'. rewrite eqb_signed by assumption. now rewrite truth_word.
  - apply Some_inj in Hsem; subst s'. rewrite Hsafe. rewrite Z.shiftl_mul_pow2 by (unfold isWord in Ht; lia). reflexivity.
  - apply Some_inj in Hsem; subst s'. rewrite Hsafe. rewrite Z.shiftr_div_pow2 by (unfold isWord in Ht; lia).
    rewrite word_id; [reflexivity|]. unfold isWord in *.
    assert (0 < 2 ^ t) by (apply Z.pow_pos_nonneg; lia).
    split; [apply Z.div_pos; lia|]. apply Z.div_lt_upper_bound; nia.
  - apply Some_inj in Hsem; subst s'. rewrite !s64_signed by assumption.
    assert (E : signed t = t).
    { unfold signed. replace (t <? 2 ^ 63) with true; [reflexivity|]. rewrite p63. change (W64 / 2) with 9223372036854775808. lia. }
    rewrite E. replace ((0 <=? t) && (t <? 64)) with true by (unfold isWord in Ht; lia).
    rewrite Z.shiftr_div_pow2 by (unfold isWord in Ht; lia). reflexivity.
Qed.

(** ** Environment *)
Definition envRel (e : env) (se : senv) : Prop :=
  (forall r v, sReg se r = Some v -> gpGet (eRegs e) r = Ok v /\ isWord v) /\
  (forall a v, sWord se a = Some v -> readAddr (eMem e) a = Ok v /\ isWord v) /\
  sCfa se = eCfa e /\ isWord (eCfa e) /\ sBias se = eReloc e.

(** the frame base expression evaluates to [v] given [f] steps or more *)
Definition fbEval (f0 : nat) (data : list Z) (e : env) (v : Z) : Prop :=
  forall f, (f0 <= f)%nat ->
  match eFb e with
  | None => v = 0
  | Some (o1, e1) => exists st, evalLoop f data e e1 o1 (est0 []) = Ok (v, st)
  end.

Lemma sem_words e se o s s' : envRel e se -> Forall isWord s -> sem se o s = Some s' -> Forall isWord s'.
Proof.
  intros (He1 & He2 & He3 & He4 & _) Hs H. destruct o; cbn [sem] in H;
    repeat match goal with
    | H : match ?x with _ => _ end = Some _ |- _ => destruct x eqn:?; try discriminate
    | H : Some _ = Some _ |- _ => apply Some_inj in H; subst
    end;
    repeat match goal with H : Forall _ (_ :: _) |- _ => inversion H; subst; clear H end;
    repeat constructor; try assumption; try apply word_isWord.
  all: try (eapply He2; eassumption).
  all: try (rewrite He3; exact He4).
  all: rewrite He3; apply He4.
Qed.

Lemma evalLoop_step data e se f0 end_ off st o s' :
  Forall isByte data -> zlen data + 32 < W64 -> envRel e se ->
  (forall n, o = PFbreg n -> fbEval f0 data e (sFrameBase se)) ->
  wfO o -> at_ data off (encodeO o) -> off <> end_ ->
  Forall isWord (estk st) -> safe o (estk st) = true -> sem se o (estk st) = Some s' ->
  forall f, (f0 <= f)%nat ->
  evalLoop (S f) data e end_ off st = evalLoop f data e end_ (off + zlen (encodeO o)) (mkE s' (isVal st) (inReg st) (piece st)).
Proof.
  intros Hd Hw (He1 & He2 & He3 & He4 & He5) Hfb Hwf Hat Hne Hs Hsafe Hsem f Hf.
  cbn [evalLoop]. replace (off =? end_) with false by lia.
  rewrite (decodeE_at data off o Hd Hw Hwf Hat). cbn [bind].
  destruct (usesEnv o) eqn:Hu.
  - destruct o; try discriminate Hu; cbn [lowerO sem] in *.
    + destruct (estk st) as [|a r]; [discriminate|]. cbn [pop1]. destruct (sWord se a) as [v|] eqn:Ev; [|discriminate].
      apply Some_inj in Hsem; subst s'. destruct (He2 _ _ Ev) as [-> _]. reflexivity.
    + destruct (sReg se r) as [v|] eqn:Ev; [|discriminate]. apply Some_inj in Hsem; subst s'. destruct (He1 _ _ Ev) as [-> _]. reflexivity.
    + apply Some_inj in Hsem; subst s'. rewrite He5. reflexivity.
    + apply Some_inj in Hsem; subst s'. rewrite He3. reflexivity.
    + apply Some_inj in Hsem; subst s'. specialize (Hfb n eq_refl f Hf). destruct (eFb e) as [[o1 e1]|].
      * destruct Hfb as [st' ->]. reflexivity.
      * rewrite Hfb. reflexivity.
  - pose proof (stackOp_refines se o (estk st) s' Hu Hwf Hs Hsafe Hsem) as H.
    destruct o; try discriminate Hu; cbn [lowerO] in *; rewrite H; reflexivity.
Qed.

Lemma encodeO_nonempty o : 0 < zlen (encodeO o).
Proof. destruct o; cbn [encodeO]; rewrite zlen_cons; match goal with |- 0 < zlen ?l + 1 => pose proof (zlen_nonneg l); lia end. Qed.

Lemma evalLoop_run data e se f0 :
  Forall isByte data -> zlen data + 32 < W64 -> envRel e se ->
  forall p off st v rest,
  (forall n, In (PFbreg n) p -> fbEval f0 data e (sFrameBase se)) ->
  Forall wfO p -> at_ data off (encodeE p) ->
  Forall isWord (estk st) -> safeRun se p (estk st) = true -> runE se p (estk st) = Some (v :: rest) ->
  forall f, (f0 + length p < f)%nat ->
  exists st', evalLoop f data e (off + zlen (encodeE p)) off st = Ok (v, st') /\ estk st' = rest.
Proof.
  intros Hd Hw He. induction p as [|o p IH]; intros off st v rest Hfb Hwf Hat Hs Hsafe Hrun f Hf.
  - cbn [runE] in Hrun. inversion Hrun as [Hst]. destruct f as [|f]; [cbn in Hf; lia|].
    cbn [evalLoop encodeE flat_map]. change (zlen (@nil Z)) with 0. replace (off =? off + 0) with true by lia.
    rewrite Hst. cbn [pop1]. eexists. split; reflexivity.
  - cbn [runE safeRun] in *. destruct (sem se o (estk st)) as [s'|] eqn:Es; [|discriminate].
    apply andb_true_iff in Hsafe. destruct Hsafe as [Hsa Hsafe]. inversion Hwf as [|? ? Hwo Hwp]; subst.
    cbn [encodeE flat_map] in *. apply at_app in Hat. destruct Hat as [Hat1 Hat2]. fold (encodeE p) in *.
    destruct f as [|f]; [cbn in Hf; lia|]. pose proof (encodeO_nonempty o). pose proof (zlen_nonneg (encodeE p)).
    rewrite zlen_app.
    rewrite (evalLoop_step data e se f0 _ off st o s' Hd Hw He) with (f := f);
      try assumption; try (cbn [length] in Hf; lia).
    + destruct (IH (off + zlen (encodeO o)) (mkE s' (isVal st) (inReg st) (piece st)) v rest) with (f := f)
        as (st' & E & Er); try assumption.
      * intros n Hn. apply (Hfb n). now right.
      * eapply sem_words; eassumption.
      * cbn [length] in Hf. lia.
      * exists st'. split; [|exact Er]. rewrite <- E. f_equal. lia.
    + intros n ->. apply (Hfb n). now left.
Qed.

Lemma evalE_correct data e se off p fbOff fbP fuel stk0 v rest :
  Forall isByte data -> zlen data + 32 < W64 -> envRel e se ->
  (eFb e = None /\ sFrameBase se = 0 /\ fbP = [] \/
   eFb e = Some (fbOff, fbOff + zlen (encodeE fbP)) /\ at_ data fbOff (encodeE fbP) /\ Forall wfO fbP /\
   (forall n, ~ In (PFbreg n) fbP) /\ safeRun se fbP [] = true /\
   exists r, runE se fbP [] = Some (sFrameBase se :: r)) ->
  Forall wfO p -> at_ data off (encodeE p) -> Forall isWord stk0 ->
  safeRun se p stk0 = true -> runE se p stk0 = Some (v :: rest) ->
  (length fbP + length p + 1 < fuel)%nat ->
  evalE fuel data e stk0 off (off + zlen (encodeE p)) = Ok v.
Proof.
  intros Hd Hw He Hfb Hwf Hat Hs Hsafe Hrun Hfuel.
  assert (F : fbEval (S (length fbP)) data e (sFrameBase se)).
  { intros f Hf. destruct Hfb as [(-> & -> & _)|(-> & Hfat & Hfwf & Hno & Hfs & r & Hfr)]; [reflexivity|].
    destruct (evalLoop_run data e se 0 Hd Hw He fbP fbOff (est0 []) (sFrameBase se) r) with (f := f)
      as (st' & E & _); try assumption; try (cbn; lia).
    - intros n Hn. now destruct (Hno n).
    - constructor.
    - eauto. }
  unfold evalE.
  destruct (evalLoop_run data e se (S (length fbP)) Hd Hw He p off (est0 stk0) v rest) with (f := fuel)
    as (st' & E & _); try assumption; try lia.
  - auto.
  - rewrite E. reflexivity.
Qed.

(** ** Termination *)
Lemma lebLoop_pos sg eos : (forall v, eos <> Ok v) -> forall l acc sh n v k, lebLoop sg eos l acc sh n = Ok (v, k) -> n < k.
Proof.
  intros He. induction l as [|b l IH]; intros acc sh n v k H; cbn [lebLoop] in H; [destruct (He _ H)|].
  repeat match type of H with
  | (if ?b then _ else _) = _ => destruct b; try discriminate H
  end; try (apply IH in H; lia); inversion H; lia.
Qed.
Lemma getuleb_adv data off v o : getuleb data off = Ok (v, o) -> off < o.
Proof.
  unfold getuleb. destruct (readULEB Throw (zdrop off data)) as [[a b]| | |] eqn:E; cbn [bind]; intros H; inversion H; subst.
  apply lebLoop_pos in E; [cbn; lia|discriminate].
Qed.
Lemma getsleb_adv data off v o : getsleb data off = Ok (v, o) -> off < o.
Proof.
  unfold getsleb. destruct (readSLEB Throw (zdrop off data)) as [[a b]| | |] eqn:E; cbn [bind]; intros H; inversion H; subst.
  apply lebLoop_pos in E; [cbn; lia|discriminate].
Qed.
Lemma getu8_adv data off v o : getu8 data off = Ok (v, o) -> off < zlen data /\ o = off + 1.
Proof.
  unfold getu8, secBytes, Reader.readObj. cbn [Z.eqb]. change (u64 (1 * 1)) with 1. unfold secRead.
  destruct (off >? zlen data) eqn:E; cbn [bind]; [discriminate|].
  destruct (negb (zlen (ztake 1 (zdrop off data)) =? 1)) eqn:E2.
  - rewrite ?E2. intros H.
    destruct (zlen (ztake 1 (zdrop off data)) =? 1) eqn:E3; [discriminate|]. cbn in H. discriminate.
  - intros H. assert (Hl : zlen (ztake 1 (zdrop off data)) = 1) by lia.
    assert (off < zlen data).
    { destruct (Z_lt_dec off (zlen data)); [assumption|]. rewrite zdrop_all in Hl by lia. cbn in Hl. discriminate. }
    split; [assumption|]. destruct (zlen (ztake 1 (zdrop off data)) =? 1); cbn in H; inversion H; reflexivity.
Qed.
Lemma getu16_adv data off v o : getu16 data off = Ok (v, o) -> off < o.
Proof. unfold getu16. destruct (secBytes data off 2); cbn [bind]; intros H; inversion H; lia. Qed.
Lemma getu32_adv data off v o : getu32 data off = Ok (v, o) -> off < o.
Proof. unfold getu32. destruct (secBytes data off 4); cbn [bind]; intros H; inversion H; lia. Qed.
Lemma getuint_adv data off n v o : 0 < n -> getuint data off n = Ok (v, o) -> off < o.
Proof. unfold getuint. intros Hn. destruct (n >? 16); [discriminate|]. destruct (secBytes data off n); cbn [bind]; intros H; inversion H; lia. Qed.

Ltac binds H :=
  repeat match type of H with
  | bind ?x _ = Ok _ => let E := fresh "E" in destruct x as [[? ?]| | |] eqn:E; cbn [bind] in H; try discriminate H
  end.
Lemma decodeE_adv data off o off' : decodeE data off = Ok (o, off') ->
  off < zlen data /\ off < off' /\ (forall a b, o = OEntry a b -> off < a).
Proof.
  unfold decodeE. destruct (getu8 data off) as [[op o1]| | |] eqn:E0; cbn [bind]; try discriminate.
  apply getu8_adv in E0. destruct E0 as [E0 ->]. intros H. split; [exact E0|].
  repeat match type of H with
  | (if ?b then _ else _) = _ => destruct b;
      [ binds H; inversion H; subst; clear H;
        repeat match goal with
        | E : getuleb _ _ = Ok _ |- _ => apply getuleb_adv in E
        | E : getsleb _ _ = Ok _ |- _ => apply getsleb_adv in E
        | E : getu16 _ _ = Ok _ |- _ => apply getu16_adv in E
        | E : getu32 _ _ = Ok _ |- _ => apply getu32_adv in E
        | E : getuint _ _ _ = Ok _ |- _ => apply getuint_adv in E; [|lia]
        end; split; [lia|intros ea eb Hab; try discriminate Hab; inversion Hab; subst; lia]
      | ]
  end. discriminate H.
Qed.

Lemma pop1_fuel A (s : list Z) (k : Z -> list Z -> res A) : (forall x r, k x r <> OutOfFuel) -> pop1 s k <> OutOfFuel.
Proof. destruct s; cbn; intros H; [discriminate|apply H]. Qed.
Lemma bind_fuel A B (x : res A) (k : A -> res B) : x <> OutOfFuel -> (forall a, k a <> OutOfFuel) -> bind x k <> OutOfFuel.
Proof. destruct x; cbn; intros H1 H2; [apply H2|discriminate|discriminate|congruence]. Qed.
Lemma gpGet_fuel r n : gpGet r n <> OutOfFuel.
Proof. unfold gpGet, getDwarf. destruct (opReg n); cbn [bind]; try discriminate; destruct (kind_eqb _ _); discriminate. Qed.
Lemma sarith_fuel x : sarith x <> OutOfFuel.
Proof. unfold sarith. destruct (inS64 x); discriminate. Qed.
Lemma stackOp_fuel o s : stackOp o s <> OutOfFuel.
Proof.
  destruct o; cbn [stackOp]; try discriminate; repeat (apply pop1_fuel; intros);
    apply bind_fuel; try discriminate; try apply sarith_fuel;
    repeat match goal with |- context [if ?b then _ else _] => destruct b end; try discriminate; apply sarith_fuel.
Qed.
Lemma getu8_fuel data off : getu8 data off <> OutOfFuel.
Proof.
  unfold getu8, secBytes, Reader.readObj, secRead. destruct (1 =? 0); [discriminate|].
  destruct (off >? zlen data); cbn [bind]; [discriminate|]. destruct (_ =? _); discriminate.
Qed.
Lemma secBytes_fuel data off n : secBytes data off n <> OutOfFuel.
Proof.
  unfold secBytes, Reader.readObj, secRead. destruct (n =? 0); [discriminate|].
  destruct (off >? zlen data); cbn [bind]; [discriminate|]. destruct (_ =? _); discriminate.
Qed.
Lemma lebLoop_fuel sg l : forall sh acc n, lebLoop sg Throw l sh acc n <> OutOfFuel.
Proof.
  induction l as [|b l IH]; intros sh acc n; cbn [lebLoop]; [discriminate|].
  destruct (sh >=? 64); [discriminate|]. destruct (_ =? 0); [discriminate|apply IH].
Qed.
Lemma getuleb_fuel data off : getuleb data off <> OutOfFuel.
Proof. apply bind_fuel; [apply lebLoop_fuel|discriminate]. Qed.
Lemma getsleb_fuel data off : getsleb data off <> OutOfFuel.
Proof. apply bind_fuel; [apply lebLoop_fuel|discriminate]. Qed.
Lemma getu16_fuel data off : getu16 data off <> OutOfFuel.
Proof. apply bind_fuel; [apply secBytes_fuel|discriminate]. Qed.
Lemma getu32_fuel data off : getu32 data off <> OutOfFuel.
Proof. apply bind_fuel; [apply secBytes_fuel|discriminate]. Qed.
Lemma getuint_fuel data off n : getuint data off n <> OutOfFuel.
Proof. unfold getuint. destruct (n >? 16); [discriminate|]. apply bind_fuel; [apply secBytes_fuel|discriminate]. Qed.
Lemma decodeE_fuel data off : decodeE data off <> OutOfFuel.
Proof.
  apply bind_fuel; [apply getu8_fuel|]. intros [op o1].
  repeat match goal with |- (if ?b then _ else _) <> _ => destruct b end; try discriminate;
  apply bind_fuel; try apply getuleb_fuel; try apply getsleb_fuel; try apply getu16_fuel; try apply getu32_fuel; try apply getuint_fuel;
  intros [? ?]; discriminate.
Qed.

Lemma evalLoop_terminates data e : eFb e = None -> forall f end_ off st,
  Z.max 0 (zlen data - off) < Z.of_nat f -> evalLoop f data e end_ off st <> OutOfFuel.
Proof.
  intros Hfb. induction f as [|f IH]; intros end_ off st Hf; [lia|]. cbn [evalLoop].
  destruct (off =? end_). { apply pop1_fuel; discriminate. }
  destruct (decodeE data off) as [[o off']| | |] eqn:E; cbn [bind]; try discriminate; [|now apply decodeE_fuel in E].
  apply decodeE_adv in E. destruct E as (E1 & E2 & E3).
  assert (Hc : forall end1 st1, evalLoop f data e end1 off' st1 <> OutOfFuel) by (intros; apply IH; lia).
  destruct o; try (apply bind_fuel; [apply stackOp_fuel|intros; apply Hc]).
  - apply pop1_fuel; intros. apply bind_fuel; [|intros; apply Hc]. unfold readAddr. destruct (memread _ _ _); discriminate.
  - apply bind_fuel; [apply gpGet_fuel|intros; apply Hc].
  - apply Hc.
  - apply Hc.
  - rewrite Hfb. cbn [bind]. apply Hc.
  - apply bind_fuel; [apply gpGet_fuel|intros; apply Hc].
  - apply bind_fuel; [apply gpGet_fuel|intros; apply Hc].
  - apply bind_fuel; [|intros [? ?]; apply Hc]. apply IH. specialize (E3 _ _ eq_refl). lia.
  - apply pop1_fuel; intros. destruct (piece st =? 0); [apply Hc|]. apply pop1_fuel; intros. destruct (u64 (8 * n) <? 64); [apply Hc|discriminate].
  - discriminate.
Qed.
Lemma evalE_terminates data e stk0 off end_ : eFb e = None -> 0 <= off -> evalE (S (length data)) data e stk0 off end_ <> OutOfFuel.
Proof.
  intros H Ho. apply bind_fuel; [|intros [? ?]; discriminate]. apply evalLoop_terminates; [exact H|]. unfold zlen. lia.
Qed.
