From Verif Require Import Base Reader ReaderSpec DwarfReader DwarfReaderProofs CfiSpec Cfi CfiProofs CfiProofs2 Cursor ElfHash ElfHashSpec.

(** ** Hash functions *)
Lemma gnu_hash_abi s : Forall isByte s -> gnu_hash s = dlHash (untilNul s).
Proof.
  intros _. unfold gnu_hash, dlHash. generalize 5381. generalize (untilNul s). clear s.
  induction l as [|c l IH]; intros h; [reflexivity|]. cbn [fold_left]. rewrite IH. f_equal.
  unfold u32, W32. rewrite Z.shiftl_mul_pow2 by lia. change (2 ^ 5) with 32. change (2 ^ 32) with 4294967296.
  rewrite Zplus_mod_idemp_l, <- Z.add_assoc, Zplus_mod_idemp_l. f_equal. ring.
Qed.
Lemma untilNul_name s : isName s -> untilNul s = s.
Proof.
  unfold isName. induction 1 as [|c s Hc _ IH]; [reflexivity|]. cbn [untilNul]. replace (c =? 0) with false by lia. now rewrite IH.
Qed.
Lemma isName_bytes s : isName s -> Forall isByte s.
Proof. unfold isName. apply Forall_impl. unfold isByte. lia. Qed.
Lemma gnu_hash_name s : isName s -> gnu_hash s = dlHash s.
Proof. intros H. rewrite gnu_hash_abi by now apply isName_bytes. now rewrite untilNul_name. Qed.

Lemma testbit_small q k n : 0 <= q < 2 ^ k -> 0 <= k <= n -> Z.testbit q n = false.
Proof.
  intros Hq Hk. destruct (Z.eq_dec q 0) as [->|]; [apply Z.testbit_0_l|]. apply Z.bits_above_log2; [lia|].
  apply Z.log2_lt_pow2; [lia|]. apply Z.lt_le_trans with (2 ^ k); [lia|]. apply Z.pow_le_mono_r; lia.
Qed.
Lemma elfHashStep_abi h c : 0 <= h < 2 ^ 28 -> 0 <= c < 128 ->
  elfHashStep h c = (let x := (16 * h + c) mod 2 ^ 32 in Z.lxor (x mod 2 ^ 28) (16 * (x / 2 ^ 28))).
Proof.
  intros Hh Hc. unfold elfHashStep.
  assert (Es : s8 c = c). { unfold s8, sgn, W8. rewrite Z.mod_small by lia. replace (c <? 256 / 2) with true by (change (256/2) with 128; lia). reflexivity. }
  rewrite Es. assert (Ex : u32 (u32 (Z.shiftl h 4) + c) = (16 * h + c) mod 2 ^ 32).
  { unfold u32, W32. rewrite Z.shiftl_mul_pow2 by lia. change (2 ^ 4) with 16. change (2 ^ 32) with 4294967296.
    rewrite Zplus_mod_idemp_l. f_equal. ring. }
  cbv zeta. rewrite Ex. clear Ex. assert (Hx : 0 <= (16 * h + c) mod 2 ^ 32 < 2 ^ 32) by (apply Z.mod_pos_bound; reflexivity).
  revert Hx. generalize ((16 * h + c) mod 2 ^ 32). clear. intros x Hx.
  assert (Eg : Z.land x 4026531840 = Z.shiftl (x / 2 ^ 28) 28).
  { apply Z.bits_inj'. intros n Hn. rewrite Z.land_spec, Z.shiftl_spec by lia. change 4026531840 with (Z.shiftl (Z.ones 4) 28).
    rewrite Z.shiftl_spec by lia. rewrite <- Z.shiftr_div_pow2 by lia.
    destruct (Z_lt_dec n 28). { rewrite !(Z.testbit_neg_r _ (n - 28)) by lia. apply andb_false_r. }
    rewrite Z.shiftr_spec by lia. replace (n - 28 + 28) with n by lia.
    destruct (Z_lt_dec n 32). { rewrite Z.ones_spec_low by lia. apply andb_true_r. }
    rewrite (testbit_small x 32) by lia. reflexivity. }
  rewrite Eg.
  assert (Eq : (if Z.shiftl (x / 2 ^ 28) 28 =? 0 then x else Z.lxor x (Z.shiftr (Z.shiftl (x / 2 ^ 28) 28) 24)) = Z.lxor x (16 * (x / 2 ^ 28))).
  { replace (Z.shiftr (Z.shiftl (x / 2 ^ 28) 28) 24) with (16 * (x / 2 ^ 28)).
    - destruct (_ =? 0) eqn:E; [|reflexivity]. rewrite Z.shiftl_mul_pow2 in E by lia. replace (x / 2 ^ 28) with 0 by lia.
      now rewrite Z.lxor_0_r.
    - rewrite Z.shiftr_shiftl_l by lia. rewrite Z.shiftl_mul_pow2 by lia. change (28 - 24) with 4. lia. }
  rewrite Eq. clear Eg Eq. set (q := x / 2 ^ 28). assert (Hq : 0 <= q < 2 ^ 4).
  { unfold q. split; [apply Z.div_pos; lia|]. apply Z.div_lt_upper_bound; [lia|]. change (2 ^ 28 * 2 ^ 4) with (2 ^ 32). lia. }
  replace (16 * q) with (Z.shiftl q 4) by (rewrite Z.shiftl_mul_pow2; [lia|lia]).
  apply Z.bits_inj'. intros n Hn. unfold u32, W32. change 4294967296 with (2 ^ 32). rewrite <- Z.land_ones by lia.
  rewrite Z.land_spec, !Z.lxor_spec, Z.land_spec, Z.lnot_spec, !Z.shiftl_spec by lia.
  destruct (Z_lt_dec n 28).
  - rewrite Z.mod_pow2_bits_low by lia. rewrite (Z.testbit_neg_r q (n - 28)) by lia. rewrite Z.ones_spec_low by lia.
    cbn. now rewrite andb_true_r.
  - rewrite Z.mod_pow2_bits_high by lia. rewrite (testbit_small q 4 (n - 4)) by lia.
    destruct (Z_lt_dec n 32).
    + rewrite Z.ones_spec_low by lia. unfold q. rewrite Z.div_pow2_bits by lia. replace (n - 28 + 28) with n by lia.
      now destruct (Z.testbit x n).
    + rewrite Z.ones_spec_high by lia. now rewrite !andb_false_r.
Qed.
Lemma abiStep_range x : 0 <= x < 2 ^ 32 -> 0 <= Z.lxor (x mod 2 ^ 28) (16 * (x / 2 ^ 28)) < 2 ^ 28.
Proof.
  intros Hx. assert (H1 : 0 <= x mod 2 ^ 28 < 2 ^ 28) by (apply Z.mod_pos_bound; lia).
  assert (H2 : 0 <= 16 * (x / 2 ^ 28) < 2 ^ 28).
  { assert (0 <= x / 2 ^ 28 < 16); [|lia]. split; [apply Z.div_pos; lia|]. apply Z.div_lt_upper_bound; [lia|]. change (2 ^ 28 * 16) with (2 ^ 32). lia. }
  revert H1 H2. generalize (x mod 2 ^ 28) (16 * (x / 2 ^ 28)). intros a b Ha Hb.
  split; [apply Z.lxor_nonneg; lia|].
  destruct (Z.eq_dec (Z.lxor a b) 0) as [->|N]; [lia|].
  assert (0 <= Z.lxor a b) by (apply Z.lxor_nonneg; lia).
  apply Z.log2_lt_pow2; [lia|]. apply Z.le_lt_trans with (Z.max (Z.log2 a) (Z.log2 b)); [apply Z.log2_lxor; lia|].
  apply Z.max_lub_lt.
  - destruct (Z.eq_dec a 0) as [->|]; [reflexivity|]. apply Z.log2_lt_pow2; lia.
  - destruct (Z.eq_dec b 0) as [->|]; [reflexivity|]. apply Z.log2_lt_pow2; lia.
Qed.
Lemma elf_hash_abi s : Forall (fun c => 0 <= c < 128) s -> elf_hash s = abiHash s.
Proof.
  intros Hs. unfold elf_hash, abiHash.
  assert (G : forall h, 0 <= h < 2 ^ 28 -> fold_left elfHashStep s h =
    fold_left (fun h c => let x := (16 * h + c) mod 2 ^ 32 in Z.lxor (x mod 2 ^ 28) (16 * (x / 2 ^ 28))) s h).
  { induction Hs as [|c s Hc _ IH]; intros h Hh; [reflexivity|]. cbn [fold_left]. rewrite elfHashStep_abi by assumption.
    apply IH. apply abiStep_range. apply Z.mod_pos_bound; lia. }
  apply G. lia.
Qed.

(** ** Table access *)
Lemma flat_len {A} (f : A -> list Z) k : (forall x, zlen (f x) = k) -> forall l, zlen (flat_map f l) = k * zlen l.
Proof.
  intros Hf. induction l as [|x l IH]; cbn [flat_map]; [change (zlen (@nil Z)) with 0; change (zlen (@nil A)) with 0; lia|].
  rewrite zlen_app, Hf, IH, zlen_cons. lia.
Qed.
Lemma at_flat {A} (f : A -> list Z) k pre post : (forall x, zlen (f x) = k) -> 0 <= k -> forall l i x, znth i l = Some x ->
  at_ (pre ++ flat_map f l ++ post) (zlen pre + i * k) (f x).
Proof.
  intros Hf Hk l i x H. pose proof (znth_some _ _ _ H) as Hi. rewrite znth_nth_error in H by lia.
  apply nth_error_split in H as (l1 & l2 & -> & Hl). split; [pose proof (zlen_nonneg pre); nia|].
  rewrite flat_map_app. cbn [flat_map]. rewrite <- !app_assoc.
  exists (flat_map f l2 ++ post). rewrite (app_assoc pre). replace (zlen pre + i * k) with (zlen (pre ++ flat_map f l1)).
  - apply zdrop_app_zlen.
  - rewrite zlen_app, (flat_len f k) by assumption. f_equal. unfold zlen. rewrite Hl. rewrite Z2Nat.id by lia. ring.
Qed.
Lemma flat_bytes {A} (f : A -> list Z) l : Forall (fun x => Forall isByte (f x)) l -> Forall isByte (flat_map f l).
Proof. induction 1; cbn [flat_map]; [constructor|]. apply Forall_app. now split. Qed.

Definition fields (s : ssym) : esym := mkSym (ssNameOff s) (ssInfo s) (ssOther s) (ssShndx s) (ssValue s) (ssSize s).
Lemma encodeSym_len s : zlen (encodeSym s) = 24.
Proof. unfold encodeSym. rewrite !zlen_app, !leBytes_len. reflexivity. Qed.
Lemma encodeSym_bytes st s : wfSym st s -> Forall isByte (encodeSym s).
Proof.
  intros (_ & _ & _ & Hi & Ho & _). unfold encodeSym. rewrite !Forall_app. repeat split; try apply leBytes_byte.
  constructor; [assumption|]. constructor; [assumption|constructor].
Qed.
Lemma secBytes_at data off l n : at_ data off l -> zlen l = n -> 0 < n -> zlen data + 32 < W64 -> secBytes data off n = Ok l.
Proof.
  intros H Hn Hp Hw. assert (Hl : off + zlen l <= zlen data). { apply at_len; [exact H|]. intros ->. change (zlen (@nil Z)) with 0 in Hn. lia. }
  pose proof H as [H0 _]. rewrite secBytes_ok by lia. replace (off + n <=? zlen data) with true by lia. rewrite orb_true_r.
  subst n. now rewrite (at_take _ _ _ H).
Qed.
Lemma at_self l : at_ l 0 (l ++ []).
Proof. split; [lia|]. exists []. rewrite zdrop_neg by lia. now rewrite !app_nil_r. Qed.
Lemma readSym_at data off st s : wfSym st s -> at_ data off (encodeSym s) -> zlen data + 32 < W64 -> readSym data off = Ok (fields s).
Proof.
  intros W H Hw. unfold readSym. rewrite (secBytes_at _ _ _ 24 H (encodeSym_len s) ltac:(lia) Hw). cbn [bind].
  pose proof (encodeSym_bytes st s W) as Hb. destruct W as (_ & Wn & _ & Wi & Wo & Wx & Wv & Ws).
  assert (Hz : zlen (encodeSym s) + 32 < W64) by (rewrite encodeSym_len; reflexivity).
  pose proof (at_self (encodeSym s)) as A. unfold encodeSym in A at 2. rewrite <- !app_assoc in A. set (b := encodeSym s) in *.
  apply rd_u32 in A as [E A]; [|assumption..]. rewrite E. cbn [bind]. cbn [app] in A.
  apply rd_u8 in A as [E1 A]; [|assumption..]. rewrite E1. cbn [bind].
  apply rd_u8 in A as [E2 A]; [|assumption..]. rewrite E2. cbn [bind].
  apply rd_u16 in A as [E3 A]; [|assumption..]. rewrite E3. cbn [bind].
  apply rd_u64 in A as [E4 A]; [|assumption..]. rewrite E4. cbn [bind].
  apply rd_u64 in A as [E5 A]; [|assumption..]. rewrite E5. reflexivity.
Qed.
Lemma secString_sym st s : wfSym st s -> secString st (ssNameOff s) = ssName s.
Proof. intros (Hn & _ & (rest & E) & _). unfold secString, getstring. rewrite E. cbn [fst]. now apply untilNul_text. Qed.
Lemma beq_spec a b : beq a b = true <-> a = b.
Proof. unfold beq. destruct (list_eq_dec Z.eq_dec a b); split; congruence. Qed.
Lemma beq_neq a b : a <> b -> beq a b = false.
Proof. intros H. destruct (beq a b) eqn:E; [|reflexivity]. apply beq_spec in E. contradiction. Qed.

(** The first symbol named [name] from index [from] on. *)
Definition firstNamed (tab : list ssym) (from : Z) (name : list Z) (i : Z) (s : ssym) : Prop :=
  from <= i /\ znth i tab = Some s /\ ssName s = name /\ forall j s', from <= j < i -> znth j tab = Some s' -> ssName s' <> name.

(** ** GNU hash *)
Lemma lor_1 x : 0 <= x -> Z.lor x 1 = 2 * (x / 2) + 1.
Proof.
  intros H. apply Z.bits_inj'. intros n Hn. rewrite Z.lor_spec. destruct (Z.eq_dec n 0) as [->|].
  - rewrite Z.testbit_odd_0. rewrite orb_true_r. reflexivity.
  - replace n with (Z.succ (n - 1)) by lia. rewrite Z.testbit_odd_succ by lia. rewrite <- Z.div2_div. rewrite (Z.div2_spec x), Z.shiftr_spec by lia.
    replace (n - 1 + 1) with (Z.succ (n - 1)) by lia. change 1 with (2 * 0 + 1) at 2. rewrite Z.testbit_odd_succ by lia. rewrite Z.testbit_0_l. apply orb_false_r.
Qed.
Lemma land_1 x : Z.land x 1 = x mod 2.
Proof. change 1 with (Z.ones 1). rewrite Z.land_ones by lia. reflexivity. Qed.

Lemma dlHash_range n : 0 <= dlHash n < 2 ^ 32.
Proof.
  unfold dlHash. assert (H : 0 <= 5381 < 2 ^ 32) by lia. revert H. generalize 5381. induction n as [|c n IH]; intros h H; [exact H|].
  cbn [fold_left]. apply IH. apply Z.mod_pos_bound. lia.
Qed.
Section Gnu.
Context (t : gtab) (tab : list ssym) (st : list Z).
Context (W : wfGT t tab) (Ws : Forall (wfSym st) tab).
Let nb := zlen (gtBuckets t).
Let nf := zlen (gtBloom t).
Let hash := encodeGT t.
Let syms := flat_map encodeSym tab.
Definition ghdrOf : ghdr := mkGH nb (gtSymoff t) nf (gtShift t).

Lemma chain_range i h v : gtSymoff t <= i -> hashAt tab i h -> znth (i - gtSymoff t) (gtChain t) = Some v -> 0 <= h < 2 ^ 32 -> 0 <= v < 2 ^ 32.
Proof using W.
  intros Hi Hh Hv Hr. destruct (gwChain _ _ W i h Hi Hh) as (last & E & _). assert (v = 2 * (h / 2) + (if last then 1 else 0)) as -> by congruence. clear -Hr.
  change (2 ^ 32) with 4294967296 in *. destruct last; lia.
Qed.
Lemma hashAt_range i h : hashAt tab i h -> 0 <= h < 2 ^ 32.
Proof using Type. clear. intros (s & _ & <-). apply dlHash_range. Qed.
Lemma hash_bytes : Forall isByte hash.
Proof using Type.
  clear. unfold hash, encodeGT. rewrite !Forall_app. repeat split; try apply leBytes_byte; apply flat_bytes, Forall_forall; intros; apply leBytes_byte.
Qed.
Lemma hash_len : zlen hash = 16 + 8 * nf + 4 * nb + 4 * zlen (gtChain t).
Proof using Type.
  clear W Ws. unfold hash, encodeGT. rewrite !zlen_app, !leBytes_len.
  rewrite (flat_len (leBytes 8) 8), !(flat_len (leBytes 4) 4) by (intros; apply leBytes_len). unfold nf, nb. lia.
Qed.
Lemma hash_small : zlen hash + 32 < W64.
Proof using W. clear -W. pose proof (gwSize _ _ W) as H. fold hash in H. unfold W64. change (2 ^ 32) with 4294967296 in H. lia. Qed.
Lemma off_bloom i : 0 <= i <= nf -> bloomoff i = 16 + 8 * i.
Proof using W.
  clear Ws. intros Hi. pose proof (gwSize _ _ W) as H. fold hash in H. rewrite hash_len in H. change (2 ^ 32) with 4294967296 in H.
  pose proof (zlen_nonneg (gtChain t)). pose proof (zlen_nonneg (gtBuckets t)). unfold nb in *. unfold bloomoff.
  rewrite !u64_id by (unfold isU64, W64; rewrite ?u64_id by (unfold isU64, W64; lia); lia). rewrite u32_id by (unfold isU32, W32; lia). lia.
Qed.
Lemma off_bucket i : 0 <= i <= nb -> bucketoff ghdrOf i = 16 + 8 * nf + 4 * i.
Proof using W.
  clear Ws. intros Hi. pose proof (gwSize _ _ W) as H. fold hash in H. rewrite hash_len in H. change (2 ^ 32) with 4294967296 in H.
  pose proof (zlen_nonneg (gtChain t)). pose proof (zlen_nonneg (gtBloom t)). unfold bucketoff. cbn [gBloomSize ghdrOf]. unfold nf in *.
  rewrite off_bloom by (unfold nf; lia). 
  rewrite !u64_id by (unfold isU64, W64; rewrite ?u64_id by (unfold isU64, W64; lia); lia). rewrite u32_id by (unfold isU32, W32; lia). lia.
Qed.
Lemma off_chain i : 0 <= i < zlen (gtChain t) -> chainoff ghdrOf i = 16 + 8 * nf + 4 * nb + 4 * i.
Proof using W.
  clear Ws. intros Hi. pose proof (gwSize _ _ W) as H. fold hash in H. rewrite hash_len in H. change (2 ^ 32) with 4294967296 in H.
  pose proof (zlen_nonneg (gtBuckets t)). pose proof (zlen_nonneg (gtBloom t)). unfold chainoff. cbn [gNbuckets ghdrOf]. unfold nb, nf in *.
  rewrite off_bucket by (unfold nb; lia). unfold nf.
  rewrite !u64_id by (unfold isU64, W64; rewrite ?u64_id by (unfold isU64, W64; lia); lia). rewrite u32_id by (unfold isU32, W32; lia). lia.
Qed.
Lemma rd_hdr : readGhdr hash = Ok ghdrOf.
Proof using W.
  clear Ws. pose proof hash_small as Hs. pose proof hash_bytes as Hb.
  set (h4 := leBytes 4 nb ++ leBytes 4 (gtSymoff t) ++ leBytes 4 nf ++ leBytes 4 (gtShift t)).
  assert (A0 : at_ hash 0 h4). { split; [lia|]. eexists. rewrite zdrop_neg by lia. unfold hash, encodeGT, h4, nb, nf. rewrite <- !app_assoc. reflexivity. }
  assert (L : zlen h4 = 16) by (unfold h4; rewrite !zlen_app, !leBytes_len; reflexivity).
  unfold readGhdr. rewrite (secBytes_at _ _ _ 16 A0 L ltac:(lia) Hs). cbn [bind].
  assert (Hb4 : Forall isByte h4) by (unfold h4; rewrite !Forall_app; repeat split; apply leBytes_byte).
  assert (Hs4 : zlen h4 + 32 < W64) by (rewrite L; reflexivity).
  pose proof (at_self h4) as A. unfold h4 in A at 2. rewrite <- !app_assoc in A.
  destruct W. unfold nb, nf in *. change (2 ^ 32) with W32 in *. change (2 ^ 64) with W64 in *.
  apply rd_u32 in A as [E A]; [|assumption|assumption|lia]. rewrite E. cbn [bind].
  apply rd_u32 in A as [E1 A]; [|assumption|assumption|lia]. rewrite E1. cbn [bind].
  apply rd_u32 in A as [E2 A]; [|assumption|assumption|lia]. rewrite E2. cbn [bind].
  apply rd_u32 in A as [E3 A]; [|assumption|assumption|unfold W32; lia]. rewrite E3. reflexivity.
Qed.
Definition hdrBytes := leBytes 4 nb ++ leBytes 4 (gtSymoff t) ++ leBytes 4 nf ++ leBytes 4 (gtShift t).
Lemma hdr_len : zlen hdrBytes = 16. Proof using Type. clear. unfold hdrBytes. rewrite !zlen_app, !leBytes_len. reflexivity. Qed.
Lemma rd_bloom i w : znth i (gtBloom t) = Some w -> getuint hash (16 + 8 * i) 8 = Ok (w, 16 + 8 * i + 8).
Proof using W.
  clear Ws. intros H. apply getuint8_at; [apply hash_bytes|apply hash_small| |].
  - pose proof (at_flat (leBytes 8) 8 hdrBytes (flat_map (leBytes 4) (gtBuckets t) ++ flat_map (leBytes 4) (gtChain t))
      ltac:(intros; apply leBytes_len) ltac:(lia) (gtBloom t) i w H) as A. rewrite hdr_len in A.
    replace (16 + 8 * i) with (16 + i * 8) by lia. unfold hash, encodeGT. unfold hdrBytes, nb, nf in A. rewrite <- !app_assoc in A. exact A.
  - pose proof (gwBloomR _ _ W) as R. rewrite Forall_forall in R. apply R. pose proof (znth_some _ _ _ H). rewrite znth_nth_error in H by lia. eapply nth_error_In, H.
Qed.
Lemma rd_bucket i v : znth i (gtBuckets t) = Some v -> getu32 hash (16 + 8 * nf + 4 * i) = Ok (v, 16 + 8 * nf + 4 * i + 4).
Proof using W.
  clear Ws. intros H. apply getu32_at; [apply hash_bytes|apply hash_small| |].
  - pose proof (at_flat (leBytes 4) 4 (hdrBytes ++ flat_map (leBytes 8) (gtBloom t)) (flat_map (leBytes 4) (gtChain t))
      ltac:(intros; apply leBytes_len) ltac:(lia) (gtBuckets t) i v H) as A. rewrite zlen_app, hdr_len, (flat_len (leBytes 8) 8) in A by (intros; apply leBytes_len).
    replace (16 + 8 * nf + 4 * i) with (16 + 8 * zlen (gtBloom t) + i * 4) by (unfold nf; lia). unfold hash, encodeGT. unfold hdrBytes, nb, nf in A. rewrite <- !app_assoc in A. exact A.
  - pose proof (gwCount _ _ W) as C. change (2 ^ 32) with W32 in C. destruct (gwBucket _ _ W i v H) as [[-> _]|(R & _)]; [unfold W32; lia|].
    pose proof (gwSymoff _ _ W). lia.
Qed.
Lemma rd_chain i v : znth i (gtChain t) = Some v -> 0 <= v < 2 ^ 32 -> getu32 hash (16 + 8 * nf + 4 * nb + 4 * i) = Ok (v, 16 + 8 * nf + 4 * nb + 4 * i + 4).
Proof using W.
  clear Ws. intros H Hv. apply getu32_at; [apply hash_bytes|apply hash_small| |exact Hv].
  pose proof (at_flat (leBytes 4) 4 (hdrBytes ++ flat_map (leBytes 8) (gtBloom t) ++ flat_map (leBytes 4) (gtBuckets t)) []
      ltac:(intros; apply leBytes_len) ltac:(lia) (gtChain t) i v H) as A.
  rewrite !zlen_app, hdr_len, (flat_len (leBytes 8) 8), (flat_len (leBytes 4) 4) in A by (intros; apply leBytes_len).
  replace (16 + 8 * nf + 4 * nb + 4 * i) with (16 + (8 * zlen (gtBloom t) + 4 * zlen (gtBuckets t)) + i * 4) by (unfold nf, nb; lia).
  unfold hash, encodeGT. unfold hdrBytes, nb, nf in A. rewrite app_nil_r, <- !app_assoc in A. exact A.
Qed.
Lemma rd_sym i s : znth i tab = Some s -> readSym syms (i * 24) = Ok (fields s) /\ secString st (st_name (fields s)) = ssName s.
Proof using W Ws.
  intros H. assert (Wi : wfSym st s). { rewrite Forall_forall in Ws. apply Ws. pose proof (znth_some _ _ _ H). rewrite znth_nth_error in H by lia. eapply nth_error_In, H. }
  split; [|cbn [st_name fields]; now apply secString_sym].
  apply readSym_at with (st := st); [exact Wi| |].
  - pose proof (at_flat encodeSym 24 [] [] encodeSym_len ltac:(lia) tab i s H) as A. change (zlen (@nil Z)) with 0 in A. rewrite app_nil_r in A. exact A.
  - unfold syms. rewrite (flat_len encodeSym 24) by apply encodeSym_len. pose proof (gwCount _ _ W) as C. change (2 ^ 32) with 4294967296 in C. unfold W64. lia.
Qed.
Lemma gnuLoop_find name : isName name -> forall fuel i, gtSymoff t <= i -> (exists h, hashAt tab i h /\ h mod nb = dlHash name mod nb) ->
  (forall j s, gtSymoff t <= j < i -> znth j tab = Some s -> ssName s <> name) -> (Z.to_nat (zlen tab - i) < fuel)%nat ->
  (exists k s, firstNamed tab (gtSymoff t) name k s /\ gnuLoop fuel hash syms st ghdrOf name (dlHash name) i = Ok (k, fields s)) \/
  ((forall k s, gtSymoff t <= k -> znth k tab = Some s -> ssName s <> name) /\ gnuLoop fuel hash syms st ghdrOf name (dlHash name) i = Ok (0, undef)).
Proof using W Ws.
  intros Hn. pose proof (dlHash_range name) as HH. induction fuel as [|fuel IH]; intros i Hi (h & Hh & Hb) Hprev Hf; [lia|].
  pose proof Hh as (s & Hs & Hsh). pose proof (znth_some _ _ _ Hs) as Hir. cbn [gnuLoop].
  destruct (rd_sym i s Hs) as [Er En]. rewrite Er. cbn [bind]. cbn [gSymoffset ghdrOf].
  pose proof (gwCount _ _ W) as Hc. change (2 ^ 32) with W32 in Hc. pose proof (gwSymoff _ _ W) as Hso. pose proof (gwChainN _ _ W) as Hcn.
  rewrite u32_id by (unfold isU32; lia).
  destruct (gwChain _ _ W i h Hi Hh) as (last & Ec & Hlast). fold nb in Hlast.
  rewrite off_chain by lia. pose proof (hashAt_range _ _ Hh) as Hr.
  rewrite (rd_chain _ _ Ec) by (eapply chain_range; eauto). cbn [bind].
  set (c := 2 * (h / 2) + (if last then 1 else 0)) in *. rewrite (lor_1 c), (lor_1 (dlHash name)) by (unfold c; destruct last; lia).
  replace (c / 2) with (h / 2) by (unfold c; destruct last; lia). cbn [fields st_name]. cbn [fields st_name] in En. rewrite En.
  destruct (list_eq_dec Z.eq_dec (ssName s) name) as [Eq|Ne].
  - replace h with (dlHash name) by (subst; reflexivity). rewrite Z.eqb_refl. rewrite (proj2 (beq_spec _ _) Eq). cbn [andb].
    left. exists i, s. split; [|reflexivity]. repeat split; auto.
  - rewrite (beq_neq _ _ Ne), andb_false_r. rewrite land_1. replace (c mod 2) with (if last then 1 else 0) by (unfold c; destruct last; lia).
    assert (Hprev' : forall j s0, gtSymoff t <= j < i + 1 -> znth j tab = Some s0 -> ssName s0 <> name).
    { intros j s0 Hj Hsj. destruct (Z.eq_dec j i) as [->|]; [|apply (Hprev j); [lia|assumption]]. congruence. }
    destruct last; cbn [Z.eqb negb].
    + right. split; [|reflexivity]. destruct Hlast as [Hl _]. specialize (Hl eq_refl). intros k sk Hk Hsk Ek.
      destruct (Z_le_dec k i). { apply (Hprev' k sk); [lia|assumption|assumption]. }
      assert (Hhk : hashAt tab k (dlHash name)) by (exists sk; split; [assumption|congruence]).
      destruct (Z.eq_dec k (i + 1)) as [->|Nk]. { apply (Hl _ Hhk). congruence. }
      destruct (znth_lt (i + 1) tab) as [s1 Hs1]. { pose proof (znth_some _ _ _ Hsk). lia. }
      assert (H1 : hashAt tab (i + 1) (dlHash (ssName s1))) by (exists s1; auto).
      apply (Hl _ H1). apply (gwGroup _ _ W i (i + 1) k h _ (dlHash name)); auto; try lia.
    + destruct (znth (i + 1) tab) as [s1|] eqn:E1.
      * destruct (Z.eq_dec (dlHash (ssName s1) mod nb) (h mod nb)) as [Em|Nm].
        -- pose proof (znth_some _ _ _ E1). rewrite u32_id by (unfold isU32; lia). apply IH; [lia| |assumption|lia].
           exists (dlHash (ssName s1)). split; [exists s1; auto|congruence].
        -- exfalso. destruct Hlast as [_ Hl]. enough (false = true) by discriminate. apply Hl. intros h' (s' & Hs' & <-). rewrite E1 in Hs'. apply (f_equal (fun o => match o with Some x => x | None => s end)) in Hs'. now subst s'.
      * exfalso. destruct Hlast as [_ Hl]. enough (false = true) by discriminate. apply Hl. intros h' (s' & Hs' & _). congruence.
Qed.

Lemma gnu_find name fuel : isName name -> (length tab < fuel)%nat ->
  (exists k s, firstNamed tab (gtSymoff t) name k s /\ gnuLookup fuel hash syms st name = Ok (k, fields s)) \/
  ((forall k s, gtSymoff t <= k -> znth k tab = Some s -> ssName s <> name) /\ gnuLookup fuel hash syms st name = Ok (0, undef)).
Proof using W Ws.
  intros Hn Hf. unfold gnuLookup. rewrite rd_hdr. cbn [bind]. unfold gnuFind. rewrite gnu_hash_name by assumption.
  set (H := dlHash name). pose proof (dlHash_range name) as HR. fold H in HR.
  cbn [gBloomSize gBloomShift gNbuckets gSymoffset ghdrOf].
  assert (Hnf : 0 < nf) by apply (gwBloomN _ _ W). assert (Hnb : 0 < nb) by apply (gwBucketN _ _ W).
  replace (nf =? 0) with false by lia. replace (nb =? 0) with false by lia.
  pose proof (Z.mod_pos_bound (H / 64) nf Hnf) as Hm. destruct (znth_lt ((H / 64) mod nf) (gtBloom t)) as [w Hw]; [exact Hm|].
  rewrite off_bloom by lia. rewrite (rd_bloom _ _ Hw). cbn [bind]. pose proof (gwShift _ _ W) as Hsh.
  replace (gtShift t >=? 32) with false by lia.
  set (mask := Z.lor (Z.shiftl 1 (H mod 64)) (Z.shiftl 1 (Z.shiftr H (gtShift t) mod 64))).
  destruct (Z.land w mask =? mask) eqn:Em; cbn [negb].
  - pose proof (Z.mod_pos_bound H nb Hnb) as Hbm. destruct (znth_lt (H mod nb) (gtBuckets t)) as [v Hv]; [exact Hbm|].
    rewrite off_bucket by lia. rewrite (rd_bucket _ _ Hv). cbn [bind]. pose proof (gwSymoff _ _ W) as Hso.
    destruct (gwBucket _ _ W _ _ Hv) as [[-> Hnone]|(Hvr & (h & Hh & Hhb) & Hfirst)].
    + replace (0 <? gtSymoff t) with true by lia. fold nb in Hnone. right. split; [|reflexivity]. intros k s Hk Hs Eq.
      apply (Hnone k H); [assumption|exists s; split; [assumption|subst; reflexivity]|reflexivity].
    + fold nb in Hhb, Hfirst. replace (v <? gtSymoff t) with false by lia. apply gnuLoop_find; auto; [lia| | |].
      * exists h. auto.
      * intros j s Hj Hs Eq. apply (Hfirst j H); [assumption|exists s; split; [assumption|subst; reflexivity]|reflexivity].
      * unfold zlen. lia.
  - right. split; [|reflexivity]. intros k s Hk Hs Eq.
    destruct (gwBloom _ _ W k H Hk) as (w' & Hw' & B1 & B2). { exists s. split; [assumption|subst; reflexivity]. }
    fold nf in Hw'. rewrite Hw in Hw'. inversion Hw'; subst w'.
    assert (Z.land w mask = mask); [|lia]. apply Z.bits_inj'. intros n Hn0. rewrite Z.land_spec. unfold mask. rewrite Z.lor_spec.
    rewrite <- Z.shiftr_div_pow2 in B2 by lia.
    pose proof (Z.mod_pos_bound H 64 ltac:(lia)). pose proof (Z.mod_pos_bound (Z.shiftr H (gtShift t)) 64 ltac:(lia)).
    rewrite !Z.shiftl_spec by lia. 
    assert (T : forall m, Z.testbit 1 m = (m =? 0)). { clear. intros m. change 1 with (2 ^ 0). rewrite Z.pow2_bits_eqb by lia. destruct (m =? 0) eqn:?; lia. }
    rewrite !T. destruct (n - H mod 64 =? 0) eqn:E1.
    { replace n with (H mod 64) by lia. rewrite B1. reflexivity. }
    destruct (n - Z.shiftr H (gtShift t) mod 64 =? 0) eqn:E2.
    { replace n with (Z.shiftr H (gtShift t) mod 64) by lia. rewrite B2. reflexivity. }
    cbn [orb]. apply andb_false_r.
Qed.
End Gnu.

(** ** System V hash *)
Lemma readWords_flat l : Forall (fun v => 0 <= v < 2 ^ 32) l -> zlen l < 2 ^ 34 -> readWords (flat_map (leBytes 4) l) (length l) = l.
Proof.
  induction 1 as [|v l Hv Hl IH]; intros Hz; [reflexivity|]. cbn [length readWords]. rewrite zlen_cons in Hz.
  assert (Hb : Forall isByte (flat_map (leBytes 4) (v :: l))) by (apply flat_bytes, Forall_forall; intros; apply leBytes_byte).
  assert (Hs : zlen (flat_map (leBytes 4) (v :: l)) + 32 < W64).
  { rewrite (flat_len (leBytes 4) 4) by (intros; apply leBytes_len). rewrite zlen_cons. change (2 ^ 34) with 17179869184 in Hz. unfold W64. lia. }
  rewrite (getu32_at _ 0 v Hb Hs); [|split; [lia|]; exists (flat_map (leBytes 4) l); now rewrite zdrop_neg by lia|exact Hv].
  f_equal. cbn [flat_map]. replace 4 with (zlen (leBytes 4 v)) by (rewrite leBytes_len; reflexivity). rewrite zdrop_app_zlen.
  apply IH. lia.
Qed.
Lemma chainOf_det t i l : chainOf t i l -> forall l', chainOf t i l' -> l = l'.
Proof.
  induction 1 as [|i n l Hi Hn _ IH]; intros l' H; inversion H; subst; try congruence. f_equal. apply IH. congruence.
Qed.
Lemma chainOf_suffix t i l : chainOf t i l -> forall j, In j l -> exists l', chainOf t j l' /\ (length l' <= length l)%nat.
Proof.
  induction 1 as [|i n l Hi Hn H IH]; intros j Hj; [destruct Hj|]. destruct Hj as [<-|Hj].
  - exists (i :: l). split; [now apply CNext with n|lia].
  - destruct (IH j Hj) as (l' & H1 & H2). exists l'. split; [exact H1|cbn; lia].
Qed.
Lemma chainOf_NoDup t i l : chainOf t i l -> NoDup l.
Proof.
  induction 1 as [|i n l Hi Hn H IH]; constructor; [|exact IH]. intros Hin.
  destruct (chainOf_suffix _ _ _ H i Hin) as (l' & H1 & H2).
  assert (E : i :: l = l') by (apply (chainOf_det t i (i :: l)); [now apply CNext with n|exact H1]). subst l'. cbn in H2. lia.
Qed.
Section Sysv.
Context (t : htab) (tab : list ssym) (st : list Z).
Context (W : wfHT t tab) (Ws : Forall (wfSym st) tab).
Let nb := zlen (htBuckets t).
Let syms := flat_map encodeSym tab.
Definition shOf : shash := mkSH (nb :: zlen (htChains t) :: htBuckets t ++ htChains t) nb (zlen (htChains t)).

Lemma rd_shash : mkSymHash (encodeHT t) = Ok shOf.
Proof using W.
  clear Ws. unfold mkSymHash. set (l := nb :: zlen (htChains t) :: htBuckets t ++ htChains t).
  assert (E : encodeHT t = flat_map (leBytes 4) l) by (unfold l; cbn [flat_map]; now rewrite flat_map_app).
  pose proof (hwChains _ _ W) as Hc. pose proof (hwCount _ _ W) as Hn. pose proof (hwBuckets _ _ W) as Hb.
  assert (L : zlen l = 2 + nb + zlen (htChains t)) by (unfold l; rewrite !zlen_cons, zlen_app; unfold nb; lia).
  assert (EW : readWords (encodeHT t) (Z.to_nat (zlen (encodeHT t) / 4)) = l).
  { rewrite E, (flat_len (leBytes 4) 4) by (intros; apply leBytes_len).
    replace (4 * zlen l / 4) with (zlen l) by (rewrite Z.mul_comm, Z.div_mul; lia). replace (Z.to_nat (zlen l)) with (length l) by (unfold zlen; lia). apply readWords_flat.
    - unfold l. pose proof (zlen_nonneg tab). constructor; [unfold nb; lia|]. constructor; [lia|].
      eapply Forall_impl; [|apply (hwRange _ _ W)]. cbv beta. intros; lia.
    - rewrite L. unfold nb. change (2 ^ 34) with 17179869184. change (2 ^ 32) with 4294967296 in *. lia. }
  rewrite EW. unfold l. cbn [znth Z.eqb Z.ltb Z.compare]. change (1 - 1) with 0. cbn [znth Z.eqb]. reflexivity.
Qed.
Lemma bucket_at b v : znth b (htBuckets t) = Some v -> bucketAt shOf b = Ok v.
Proof using Type.
  clear W Ws. intros H. pose proof (znth_some _ _ _ H) as R. unfold bucketAt. cbn [shData shOf].
  change (nb :: zlen (htChains t) :: htBuckets t ++ htChains t) with ([nb; zlen (htChains t)] ++ htBuckets t ++ htChains t).
  change 2 with (zlen [nb; zlen (htChains t)]). rewrite znth_app_r by lia. replace (_ - _) with b by lia. rewrite znth_app_l by lia. now rewrite H.
Qed.
Lemma chain_at i v : znth i (htChains t) = Some v -> chainAt shOf i = Ok v.
Proof using Type.
  clear W Ws. intros H. pose proof (znth_some _ _ _ H) as R. unfold chainAt. cbn [shData shOf shNbucket].
  change (nb :: zlen (htChains t) :: htBuckets t ++ htChains t) with ([nb; zlen (htChains t)] ++ htBuckets t ++ htChains t).
  change 2 with (zlen [nb; zlen (htChains t)]). pose proof (zlen_nonneg (htBuckets t)). rewrite znth_app_r by (unfold nb; lia). rewrite znth_app_r by (unfold nb; lia).
  replace (_ - zlen (htBuckets t)) with i by (unfold nb; lia). now rewrite H.
Qed.
Lemma rd_symS i s : znth i tab = Some s -> readSym syms (i * 24) = Ok (fields s) /\ secString st (st_name (fields s)) = ssName s.
Proof using W Ws.
  intros H. assert (Wi : wfSym st s). { rewrite Forall_forall in Ws. apply Ws. pose proof (znth_some _ _ _ H). rewrite znth_nth_error in H by lia. eapply nth_error_In, H. }
  split; [|cbn [st_name fields]; now apply secString_sym].
  apply readSym_at with (st := st); [exact Wi| |].
  - pose proof (at_flat encodeSym 24 [] [] encodeSym_len ltac:(lia) tab i s H) as A. change (zlen (@nil Z)) with 0 in A. rewrite app_nil_r in A. exact A.
  - unfold syms. rewrite (flat_len encodeSym 24) by apply encodeSym_len. pose proof (hwCount _ _ W) as C. change (2 ^ 32) with 4294967296 in C. unfold W64. lia.
Qed.
Lemma chain_elems i l : chainOf t i l -> forall k, In k l -> 0 < k < zlen tab.
Proof using W.
  clear Ws. induction 1 as [|i n l Hi Hn H IH]; intros k Hk; [destruct Hk|]. destruct Hk as [<-|Hk]; [|now apply IH].
  apply znth_some in Hn. rewrite (hwChains _ _ W) in Hn. lia.
Qed.
Lemma sysvLoop_find name l : forall i fuel, chainOf t i l -> (length l < fuel)%nat ->
  (exists k s, In k l /\ znth k tab = Some s /\ ssName s = name /\ sysvLoop fuel shOf syms st name i = Ok (k, fields s)) \/
  ((forall k s, In k l -> znth k tab = Some s -> ssName s <> name) /\ sysvLoop fuel shOf syms st name i = Ok (0, undef)).
Proof using W Ws.
  induction l as [|x l IH]; intros i fuel H Hf; (destruct fuel as [|fuel]; [cbn in Hf; lia|]); inversion H; subst; cbn [sysvLoop].
  - right. split; [intros k s []|reflexivity].
  - replace (x =? 0) with false by lia. destruct (znth_lt x tab) as [s Hs]. { pose proof (chain_elems _ _ H x (or_introl eq_refl)). lia. }
    destruct (rd_symS _ _ Hs) as [E1 E2]. rewrite E1. cbn [bind]. rewrite E2.
    destruct (list_eq_dec Z.eq_dec (ssName s) name) as [Eq|Ne].
    + rewrite (proj2 (beq_spec _ _) Eq). left. exists x, s. repeat split; auto. now left.
    + rewrite (beq_neq _ _ Ne). erewrite chain_at by eassumption. cbn [bind].
      destruct (IH n fuel ltac:(assumption) ltac:(cbn in Hf; lia)) as [(k & s' & A & B & C & D)|[A B]].
      * left. exists k, s'. repeat split; auto. now right.
      * right. split; [|exact B]. intros k s' [<-|Hk] Hs'; [congruence|]. now apply (A k).
Qed.
Lemma sysv_find name fuel : Forall (fun c => 0 < c < 128) name -> (length tab < fuel)%nat ->
  (exists k s, 0 < k /\ znth k tab = Some s /\ ssName s = name /\ sysvLookup fuel (encodeHT t) syms st name = Ok (k, fields s)) \/
  ((forall k s, 0 < k -> znth k tab = Some s -> ssName s <> name) /\ sysvLookup fuel (encodeHT t) syms st name = Ok (0, undef)).
Proof using W Ws.
  intros Hn Hf. unfold sysvLookup. rewrite rd_shash. cbn [bind]. unfold sysvFind. cbn [shNbucket shOf].
  assert (Hnb : 0 < nb) by apply (hwBuckets _ _ W). replace (nb =? 0) with false by lia.
  rewrite elf_hash_abi by (eapply Forall_impl; [|exact Hn]; cbv beta; lia).
  pose proof (Z.mod_pos_bound (abiHash name) nb Hnb) as Hbm. destruct (znth_lt (abiHash name mod nb) (htBuckets t)) as [v Hv]; [exact Hbm|].
  rewrite (bucket_at _ _ Hv). cbn [bind]. destruct (hwBucket _ _ W _ _ Hv) as (l & Hl & Hmem). fold nb in Hmem.
  assert (Hlen : (length l <= length tab)%nat).
  { rewrite <- (map_length Z.to_nat l), <- (seq_length (length tab) 0). apply NoDup_incl_length.
    - assert (P : forall k, In k l -> 0 < k) by (intros; now apply (chain_elems _ _ Hl)). pose proof (chainOf_NoDup _ _ _ Hl) as ND. clear -P ND. induction ND as [|x l Hx _ IH]; cbn [map]; constructor.
      + intros Hin. apply in_map_iff in Hin as (y & Ey & Hy). assert (y = x). { pose proof (P y (or_intror Hy)). pose proof (P x (or_introl eq_refl)). lia. } now subst.
      + apply IH. intros k Hk. apply P. now right.
    - intros k Hk. apply in_map_iff in Hk as (y & <- & Hy). apply in_seq. pose proof (chain_elems _ _ Hl y Hy). unfold zlen in *. lia. }
  destruct (sysvLoop_find name l v fuel Hl ltac:(lia)) as [(k & s & A & B & C & D)|[A B]].
  - left. exists k, s. repeat split; auto. now apply (chain_elems _ _ Hl).
  - right. split; [|exact B]. intros k s Hk Hs Eq. apply (A k s); auto. apply (Hmem k s Hk Hs). now rewrite Eq.
Qed.
End Sysv.
