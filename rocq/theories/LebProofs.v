From Verif Require Import Base Leb LebSpec.

Lemma land_127 b : Z.land b 127 = b mod 128.
Proof. change 127 with (Z.ones 7). now rewrite Z.land_ones by lia. Qed.
Lemma land_128_final b : final b -> Z.land b 128 = 0.
Proof.
  intros H. apply Z.bits_inj'. intros n Hn. rewrite Z.land_spec, Z.bits_0.
  change 128 with (2 ^ 7). rewrite Z.pow2_bits_eqb by lia.
  destruct (7 =? n) eqn:E; [|apply andb_false_r]. replace n with 7 by lia.
  rewrite andb_true_r. destruct (Z.eq_dec b 0) as [->|]; [reflexivity|].
  apply Z.bits_above_log2; [unfold final in H; lia|].
  apply Z.log2_lt_pow2; unfold final in H; lia.
Qed.
Lemma testbit7 b : continuation b -> Z.testbit b 7 = true.
Proof.
  intros H. unfold continuation in H. rewrite Z.testbit_true by lia.
  change (2^7) with 128. replace (b / 128) with 1 by lia. reflexivity.
Qed.
Lemma land_128_cont b : continuation b -> (Z.land b 128 =? 0) = false.
Proof.
  intros H. apply Z.eqb_neq. intros E.
  assert (Z.testbit (Z.land b 128) 7 = false) by now rewrite E, Z.bits_0.
  rewrite Z.land_spec, testbit7 in H0 by assumption. discriminate.
Qed.
Lemma land_64 b : final b -> (Z.land b 64 =? 0) = (b <? 64).
Proof.
  intros H. unfold final in H. destruct (b <? 64) eqn:E.
  - apply Z.eqb_eq. apply Z.bits_inj'. intros n Hn. rewrite Z.land_spec, Z.bits_0.
    change 64 with (2 ^ 6). rewrite Z.pow2_bits_eqb by lia.
    destruct (6 =? n) eqn:E2; [|apply andb_false_r]. replace n with 6 by lia.
    rewrite andb_true_r. destruct (Z.eq_dec b 0) as [->|]; [reflexivity|].
    apply Z.bits_above_log2; [lia|]. apply Z.log2_lt_pow2; lia.
  - apply Z.eqb_neq. intros E2.
    assert (Hf : Z.testbit (Z.land b 64) 6 = false) by now rewrite E2, Z.bits_0.
    rewrite Z.land_spec in Hf. change (Z.testbit 64 6) with true in Hf. rewrite andb_true_r in Hf.
    rewrite Z.testbit_false in Hf by lia. change (2^6) with 64 in Hf. lia.
Qed.

(** Disjoint [lor] is addition. *)
Lemma lor_disjoint a b k : 0 <= k -> 0 <= a < 2 ^ k -> Z.lor a (b * 2 ^ k) = a + b * 2 ^ k.
Proof.
  intros Hk Ha.
  assert (Hl : Z.land a (b * 2 ^ k) = 0).
  { apply Z.bits_inj'. intros n Hn. rewrite Z.land_spec, Z.bits_0.
    destruct (Z_lt_dec n k).
    - rewrite Z.mul_pow2_bits_low by lia. apply andb_false_r.
    - destruct (Z.eq_dec a 0) as [->|]; [now rewrite Z.bits_0|].
      rewrite (Z.bits_above_log2 a n); [reflexivity|lia|].
      apply Z.lt_le_trans with k; [|lia]. apply Z.log2_lt_pow2; lia. }
  rewrite <- Z.lxor_lor by exact Hl. symmetry. now apply Z.add_nocarry_lxor.
Qed.

Lemma u64_shiftl x s : 0 <= s < 64 -> u64 (Z.shiftl x s) = (x mod 2 ^ (64 - s)) * 2 ^ s.
Proof.
  intros Hs. unfold u64, W64. rewrite Z.shiftl_mul_pow2 by lia.
  change 18446744073709551616 with (2 ^ 64).
  replace (2 ^ 64) with (2 ^ (64 - s) * 2 ^ s).
  2:{ rewrite <- Z.pow_add_r by lia. f_equal. lia. }
  apply Z.mul_mod_distr_r; apply Z.pow_nonzero; lia.
Qed.

Lemma u64_add_mul acc x s : 0 <= s < 64 -> 0 <= acc < 2 ^ s ->
  acc + (x mod 2 ^ (64 - s)) * 2 ^ s = u64 (acc + x * 2 ^ s).
Proof.
  intros Hs Ha. unfold u64, W64. change 18446744073709551616 with (2 ^ 64).
  assert (HP : 2 ^ 64 = 2 ^ (64 - s) * 2 ^ s).
  { rewrite <- Z.pow_add_r by lia. f_equal. lia. }
  assert (H1 : 0 < 2 ^ s) by (apply Z.pow_pos_nonneg; lia).
  assert (H2 : 0 < 2 ^ (64 - s)) by (apply Z.pow_pos_nonneg; lia).
  set (q := x / 2 ^ (64 - s)).
  assert (Hx : x = 2 ^ (64 - s) * q + x mod 2 ^ (64 - s)) by (apply Z.div_mod; lia).
  pose proof (Z.mod_pos_bound x _ H2) as Hm.
  apply (Z.mod_unique_pos _ _ q).
  - rewrite HP. split; [nia|]. 
    assert (x mod 2 ^ (64 - s) + 1 <= 2 ^ (64 - s)) by lia.
    assert ((x mod 2 ^ (64 - s) + 1) * 2 ^ s <= 2 ^ (64 - s) * 2 ^ s) by (apply Z.mul_le_mono_nonneg_r; lia).
    lia.
  - rewrite Hx at 1. rewrite HP. ring.
Qed.

Lemma digits7_nonneg bs : 0 <= digits7 bs.
Proof. induction bs as [|b r IH]; cbn [digits7]; [lia|]. pose proof (Z.mod_pos_bound b 128). lia. Qed.
Lemma digits7_app a b : digits7 (a ++ b) = digits7 a + 2 ^ (7 * zlen a) * digits7 b.
Proof.
  induction a as [|x a IH]; cbn [app digits7]; [change (zlen (@nil Z)) with 0; rewrite Z.mul_0_r, Z.pow_0_r; ring|].
  rewrite IH, zlen_cons. pose proof (zlen_nonneg a).
  replace (7 * (zlen a + 1)) with (7 + 7 * zlen a) by lia. rewrite Z.pow_add_r by lia.
  change (2 ^ 7) with 128. ring.
Qed.
Lemma digits7_bound a : 0 <= digits7 a < 2 ^ (7 * zlen a).
Proof.
  induction a as [|x a IH]; cbn [digits7]; [change (zlen (@nil Z)) with 0; cbn; lia|].
  rewrite zlen_cons. pose proof (zlen_nonneg a).
  replace (7 * (zlen a + 1)) with (7 + 7 * zlen a) by lia. rewrite Z.pow_add_r by lia.
  change (2 ^ 7) with 128. pose proof (Z.mod_pos_bound x 128). lia.
Qed.

(** The loop over the continuation bytes. *)
Lemma lebLoop_cont sg eos pre : Forall continuation pre ->
  forall shift acc n rest, 0 <= shift -> 0 <= acc < 2 ^ shift -> acc < 2 ^ 64 -> shift + 7 * zlen pre < 64 ->
  lebLoop sg eos (pre ++ rest) shift acc n =
  lebLoop sg eos rest (shift + 7 * zlen pre) (acc + digits7 pre * 2 ^ shift) (n + zlen pre).
Proof.
  induction pre as [|b pre IH]; intros Hf shift acc n rest H0 Ha H64 Hs.
  - change (zlen (@nil Z)) with 0. cbn [app digits7]. f_equal; ring.
  - inversion Hf; subst. rewrite zlen_cons in *. pose proof (zlen_nonneg pre).
    cbn [app lebLoop]. replace (shift >=? 64) with false by lia.
    rewrite land_128_cont by assumption.
    rewrite land_127. rewrite u64_shiftl by lia.
    rewrite (Z.mod_small (b mod 128)).
    2:{ pose proof (Z.mod_pos_bound b 128 ltac:(lia)). split; [lia|].
        apply Z.lt_le_trans with (2 ^ 7); [change (2^7) with 128; lia|]. apply Z.pow_le_mono_r; lia. }
    rewrite lor_disjoint by lia.
    assert (Hp : 2 ^ (shift + 7) = 2 ^ shift * 128) by (rewrite Z.pow_add_r by lia; reflexivity).
    pose proof (Z.mod_pos_bound b 128 ltac:(lia)).
    rewrite IH; try assumption; try lia.
    + cbn [digits7]. rewrite Hp. f_equal; lia.
    + rewrite Hp. nia.
    + apply Z.lt_le_trans with (2 ^ (shift + 7)); [rewrite Hp; nia|]. apply Z.pow_le_mono_r; lia.
Qed.

Lemma lebLoop_final sg eos b rest shift acc n : final b -> 0 <= shift < 64 -> 0 <= acc < 2 ^ shift ->
  lebLoop sg eos (b :: rest) shift acc n =
  Ok (if sg then
        s64 (if (shift + 7 <? 64) && (64 <=? b) then acc + b * 2 ^ shift - 2 ^ (shift + 7) else acc + b * 2 ^ shift)
      else u64 (acc + b * 2 ^ shift), n + 1).
Proof.
  intros Hb Hs Ha. cbn [lebLoop]. replace (shift >=? 64) with false by lia.
  rewrite land_128_final by assumption. cbn [Z.eqb]. rewrite land_127.
  unfold final in Hb. rewrite (Z.mod_small b 128) by lia.
  rewrite u64_shiftl by lia. rewrite lor_disjoint by lia. rewrite u64_add_mul by lia.
  rewrite land_64 by (unfold final; lia).
  destruct sg; cbn [andb]; [|reflexivity].
  destruct (shift + 7 <? 64) eqn:E7; cbn [andb].
  - replace (negb (b <? 64)) with (64 <=? b) by lia.
    destruct (64 <=? b) eqn:E64.
    + assert (Hp : 2 ^ (shift + 7) = 2 ^ shift * 128) by (rewrite Z.pow_add_r by lia; reflexivity).
      assert (Hlt : 2 ^ (shift + 7) <= 2 ^ 63) by (apply Z.pow_le_mono_r; lia).
      rewrite (u64_id (acc + b * 2 ^ shift)).
      2:{ unfold isU64, W64. change (2^63) with 9223372036854775808 in Hlt. nia. }
      rewrite u64_shiftl by lia. rewrite lor_disjoint; [|lia|nia].
      rewrite u64_add_mul; [|lia|nia].
      do 2 f_equal. unfold s64, sgn, u64. rewrite Z.mod_mod by (unfold W64; lia).
      assert (Heq : (acc + b * 2 ^ shift + (W64 - 1) * 2 ^ (shift + 7)) mod W64
              = (acc + b * 2 ^ shift - 2 ^ (shift + 7)) mod W64).
      { replace (acc + b * 2 ^ shift + (W64 - 1) * 2 ^ (shift + 7))
          with (acc + b * 2 ^ shift - 2 ^ (shift + 7) + 2 ^ (shift + 7) * W64) by ring.
        now rewrite Z.mod_add by (unfold W64; lia). }
      now rewrite Heq.
    + unfold s64, sgn, u64. now rewrite Z.mod_mod by (unfold W64; lia).
  - unfold s64, sgn, u64. now rewrite Z.mod_mod by (unfold W64; lia).
Qed.

(** Full description on every terminated byte string. *)
Lemma leb_unsigned eos pre b rest : Forall continuation pre -> final b -> zlen pre <= 9 ->
  readULEB eos (pre ++ b :: rest) = Ok (u64 (digits7 (pre ++ [b])), zlen pre + 1).
Proof.
  intros Hp Hb Hl. pose proof (zlen_nonneg pre). unfold readULEB.
  pose proof (digits7_bound pre) as Hd.
  rewrite lebLoop_cont; try assumption; try lia; try (cbn; lia).
  rewrite Z.pow_0_r, Z.mul_1_r, !Z.add_0_l.
  rewrite lebLoop_final; [|assumption|lia|lia].
  do 2 f_equal. rewrite digits7_app. cbn [digits7]. unfold final in Hb.
  rewrite (Z.mod_small b) by lia. f_equal. ring.
Qed.
Lemma leb_signed eos pre b rest : Forall continuation pre -> final b -> zlen pre <= 9 ->
  readSLEB eos (pre ++ b :: rest) =
  Ok (s64 (if (zlen pre <? 9) && (64 <=? b) then digits7 (pre ++ [b]) - 2 ^ (7 * (zlen pre + 1))
           else digits7 (pre ++ [b])), zlen pre + 1).
Proof.
  intros Hp Hb Hl. pose proof (zlen_nonneg pre). unfold readSLEB.
  pose proof (digits7_bound pre) as Hd.
  rewrite lebLoop_cont; try assumption; try lia; try (cbn; lia).
  rewrite Z.pow_0_r, Z.mul_1_r, !Z.add_0_l.
  rewrite lebLoop_final; [|assumption|lia|lia].
  do 2 f_equal. rewrite digits7_app. cbn [digits7]. unfold final in Hb.
  rewrite (Z.mod_small b) by lia. replace (7 * zlen pre + 7 <? 64) with (zlen pre <? 9) by lia.
  replace (7 * (zlen pre + 1)) with (7 * zlen pre + 7) by lia. f_equal.
  destruct ((zlen pre <? 9) && (64 <=? b)); ring.
Qed.
Lemma lebLoop_long sg eos b : forall pre shift acc n rest, 7 * zlen pre + shift >= 64 -> Forall continuation pre ->
  0 <= shift -> lebLoop sg eos (pre ++ b :: rest) shift acc n = UB.
Proof.
  induction pre as [|x pre IH]; intros shift acc n rest Hs Hf H0.
  - cbn [app lebLoop]. change (zlen (@nil Z)) with 0 in Hs. now replace (shift >=? 64) with true by lia.
  - inversion Hf; subst. rewrite zlen_cons in Hs. cbn [app lebLoop].
    destruct (shift >=? 64) eqn:E; [reflexivity|]. rewrite land_128_cont by assumption.
    apply IH; try assumption; lia.
Qed.
(** Ten continuation bytes followed by anything: the eleventh shift is 70. *)
Lemma leb_overlong sg eos pre b rest : Forall continuation pre -> 10 <= zlen pre ->
  lebLoop sg eos (pre ++ b :: rest) 0 0 0 = UB.
Proof. intros Hf Hl. apply lebLoop_long; [lia|assumption|lia]. Qed.
(** Data that ends before a final byte. *)
Lemma leb_truncated sg eos pre : Forall continuation pre -> zlen pre <= 9 ->
  lebLoop sg eos pre 0 0 0 = eos.
Proof.
  intros Hf Hl. rewrite <- (app_nil_r pre).
  rewrite lebLoop_cont; try assumption; try lia; try (cbn; lia). reflexivity.
Qed.

(** ** Encoders *)
Lemma encodeU_shape n : forall v, 0 <= v < 128 ^ Z.of_nat n -> (0 < n)%nat ->
  exists pre b, encodeU n v = pre ++ [b] /\ Forall continuation pre /\ final b /\
    digits7 (pre ++ [b]) = v /\ zlen pre <= Z.of_nat n - 1.
Proof.
  induction n as [|n IH]; intros v Hv Hn; [lia|]. cbn [encodeU].
  destruct (v <? 128) eqn:E.
  - exists [], v. repeat split; try constructor; try (unfold final; lia).
    + cbn [app digits7]. rewrite Z.mod_small by lia. ring.
    + change (zlen (@nil Z)) with 0. lia.
  - assert (Hn0 : (0 < n)%nat).
    { destruct n; [|lia]. change (128 ^ Z.of_nat 1) with 128 in Hv. lia. }
    assert (Hp : 128 ^ Z.of_nat (S n) = 128 * 128 ^ Z.of_nat n).
    { rewrite Nat2Z.inj_succ, Z.pow_succ_r by lia. reflexivity. }
    destruct (IH (v / 128)) as (pre & b & He & Hc & Hb & Hd & Hl).
    { rewrite Hp in Hv. split; [lia|]. apply Z.div_lt_upper_bound; lia. }
    { exact Hn0. }
    exists ((v mod 128 + 128) :: pre), b. repeat split.
    + now rewrite He.
    + constructor; [unfold continuation; pose proof (Z.mod_pos_bound v 128); lia|assumption].
    + apply Hb.
    + apply Hb.
    + cbn [app digits7]. rewrite Hd.
      replace ((v mod 128 + 128) mod 128) with (v mod 128) by lia. lia.
    + rewrite zlen_cons. lia.
Qed.

Lemma uleb_roundtrip eos v rest : 0 <= v < W64 ->
  readULEB eos (encodeU 10 v ++ rest) = Ok (v, zlen (encodeU 10 v)).
Proof.
  intros Hv. destruct (encodeU_shape 10 v) as (pre & b & He & Hc & Hb & Hd & Hl).
  { unfold W64 in Hv. change (128 ^ Z.of_nat 10) with 1180591620717411303424. lia. }
  { lia. }
  rewrite He, <- app_assoc. cbn [app]. rewrite leb_unsigned; [|assumption|assumption|lia].
  rewrite Hd, u64_id by exact Hv. rewrite zlen_app. reflexivity.
Qed.

Lemma encodeS_shape n : forall v, - (64 * 128 ^ (Z.of_nat n - 1)) <= v < 64 * 128 ^ (Z.of_nat n - 1) -> (0 < n)%nat ->
  exists pre b, encodeS n v = pre ++ [b] /\ Forall continuation pre /\ final b /\
    (if 64 <=? b then digits7 (pre ++ [b]) - 2 ^ (7 * (zlen pre + 1)) else digits7 (pre ++ [b])) = v /\
    zlen pre <= Z.of_nat n - 1.
Proof.
  induction n as [|n IH]; intros v Hv Hn; [lia|]. cbn [encodeS].
  pose proof (Z.mod_pos_bound v 128 ltac:(lia)) as Hm.
  destruct (((v / 128 =? 0) && (v mod 128 <? 64)) || ((v / 128 =? -1) && (64 <=? v mod 128))) eqn:E.
  - exists [], (v mod 128). repeat split; try constructor; try (unfold final; lia).
    + cbn [app digits7]. rewrite Z.mod_mod by lia. change (7 * (zlen (@nil Z) + 1)) with 7. change (2^7) with 128.
      destruct (64 <=? v mod 128) eqn:E2; lia.
    + change (zlen (@nil Z)) with 0. lia.
  - assert (Hn0 : (0 < n)%nat).
    { destruct n; [|lia]. change (128 ^ (Z.of_nat 1 - 1)) with 1 in Hv. lia. }
    assert (Hp : 128 ^ (Z.of_nat (S n) - 1) = 128 * 128 ^ (Z.of_nat n - 1)).
    { replace (Z.of_nat (S n) - 1) with (Z.succ (Z.of_nat n - 1)) by lia. rewrite Z.pow_succ_r by lia. reflexivity. }
    destruct (IH (v / 128)) as (pre & b & He & Hc & Hb & Hd & Hl).
    { rewrite Hp in Hv. lia. }
    { exact Hn0. }
    exists ((v mod 128 + 128) :: pre), b. repeat split.
    + now rewrite He.
    + constructor; [unfold continuation; lia|assumption].
    + apply Hb.
    + apply Hb.
    + cbn [app digits7]. replace ((v mod 128 + 128) mod 128) with (v mod 128) by lia.
      rewrite zlen_cons. pose proof (zlen_nonneg pre).
      replace (7 * (zlen pre + 1 + 1)) with (7 + 7 * (zlen pre + 1)) by lia. rewrite Z.pow_add_r by lia.
      change (2 ^ 7) with 128. destruct (64 <=? b); lia.
    + rewrite zlen_cons. lia.
Qed.

Lemma sgn_id v : - 2 ^ 63 <= v < 2 ^ 63 -> s64 v = v.
Proof.
  intros H. unfold s64, sgn, W64. change (2^63) with 9223372036854775808 in H.
  change (18446744073709551616 / 2) with 9223372036854775808.
  destruct (v mod 18446744073709551616 <? 9223372036854775808) eqn:E; lia.
Qed.
Lemma sgn_add v k : s64 (v + k * W64) = s64 v.
Proof. unfold s64, sgn. now rewrite !Z.mod_add by (unfold W64; lia). Qed.

Lemma sleb_roundtrip eos v rest : - 2 ^ 63 <= v < 2 ^ 63 ->
  readSLEB eos (encodeS 10 v ++ rest) = Ok (v, zlen (encodeS 10 v)).
Proof.
  intros Hv. destruct (encodeS_shape 10 v) as (pre & b & He & Hc & Hb & Hd & Hl).
  { change (128 ^ (Z.of_nat 10 - 1)) with (2 ^ 63). change (2^63) with 9223372036854775808 in *. lia. }
  { lia. }
  rewrite He, <- app_assoc. cbn [app]. rewrite leb_signed; [|assumption|assumption|lia].
  rewrite zlen_app. do 2 f_equal.
  destruct (zlen pre <? 9) eqn:E9; cbn [andb].
  - rewrite Hd. now apply sgn_id.
  - assert (Hz : zlen pre = 9) by lia. destruct (64 <=? b).
    + rewrite Hz in Hd. replace (digits7 (pre ++ [b])) with (v + 64 * W64).
      2:{ rewrite <- Hd. change (2 ^ (7 * (9 + 1))) with (64 * W64). lia. }
      rewrite sgn_add. now apply sgn_id.
    + rewrite Hd. now apply sgn_id.
Qed.
