From Verif Require Import Base Reader ReaderSpec ReaderProofs Leb LebSpec LebProofs DwarfReader.

(** Positional value of a little-endian byte string: the specification. *)
Fixpoint leValue (bs : list Z) : Z :=
  match bs with [] => 0 | b :: r => b + 256 * leValue r end.
(** Two's complement value of a non-empty little-endian byte string. *)
Definition leSigned (bs : list Z) : Z :=
  if 2 * leValue bs <? 256 ^ zlen bs then leValue bs else leValue bs - 256 ^ zlen bs.

Lemma leValue_app a b : leValue (a ++ b) = leValue a + 256 ^ zlen a * leValue b.
Proof.
  induction a as [|x a IH]; cbn [app leValue].
  - change (zlen (@nil Z)) with 0. rewrite Z.pow_0_r. ring.
  - rewrite IH, zlen_cons, Z.pow_add_r by (try apply zlen_nonneg; lia). ring.
Qed.
Lemma leValue_bound bs : Forall isByte bs -> 0 <= leValue bs < 256 ^ zlen bs.
Proof.
  induction bs as [|b r IH]; intros H; cbn [leValue].
  - change (zlen (@nil Z)) with 0. rewrite Z.pow_0_r. lia.
  - inversion H; subst. specialize (IH H3). rewrite zlen_cons, Z.pow_add_r by (try apply zlen_nonneg; lia).
    unfold isByte in *. lia.
Qed.

Lemma secBytes_ok data off n : 0 <= off -> 0 <= n -> off + n < W64 ->
  secBytes data off n = (if (n =? 0) || (off + n <=? zlen data) then Ok (ztake n (zdrop off data)) else Throw).
Proof.
  intros Ho Hn Hw. unfold secBytes, readObj. destruct (n =? 0) eqn:E0; cbn [orb].
  - replace n with 0 by lia. now rewrite ztake_neg by lia.
  - rewrite Z.mul_1_r. rewrite u64_id by (unfold isU64; lia). unfold secRead.
    destruct (off >? zlen data) eqn:E; cbn [bind].
    + now replace (off + n <=? zlen data) with false by lia.
    + rewrite zlen_ztake, zlen_zdrop by lia.
      destruct (off + n <=? zlen data) eqn:E2.
      * now replace (Z.min n (Z.max 0 (zlen data - off)) =? n) with true by lia.
      * now replace (Z.min n (Z.max 0 (zlen data - off)) =? n) with false by lia.
Qed.

Lemma lor8 x b : isByte b -> Z.lor (u64 (Z.shiftl x 8)) b = u64 (x * 256 + b).
Proof.
  intros Hb. unfold isByte in Hb. rewrite u64_shiftl by lia. rewrite Z.lor_comm.
  rewrite lor_disjoint by (change (2^8) with 256; lia).
  rewrite u64_add_mul by (change (2^8) with 256; lia). f_equal. change (2^8) with 256. ring.
Qed.
Lemma u64_u64_affine x b : u64 (u64 x * 256 + b) = u64 (x * 256 + b).
Proof.
  unfold u64. rewrite Zplus_mod, Zmult_mod, Z.mod_mod by (unfold W64; lia).
  rewrite <- Zmult_mod, <- Zplus_mod. reflexivity.
Qed.

Lemma shiftOr_val bs : Forall isByte bs -> forall rc, shiftOr (u64 rc) bs = u64 (rc * 256 ^ zlen bs + leValue (rev bs)).
Proof.
  induction bs as [|b r IH]; intros H rc; cbn [shiftOr rev].
  - change (zlen (@nil Z)) with 0. cbn [leValue]. f_equal. rewrite Z.pow_0_r. ring.
  - inversion H; subst. rewrite lor8 by assumption. rewrite u64_u64_affine, IH by assumption.
    f_equal. rewrite leValue_app, zlen_cons, Z.pow_add_r by (try apply zlen_nonneg; lia).
    cbn [leValue]. replace (zlen (rev r)) with (zlen r) by (unfold zlen; now rewrite rev_length). ring.
Qed.

Lemma getuint_spec data off len : Forall isByte data -> 0 <= off -> off + 16 < W64 -> 0 <= len ->
  getuint data off len =
  if (len <=? 16) && ((len =? 0) || (off + len <=? zlen data))
  then Ok (u64 (leValue (ztake len (zdrop off data))), off + len) else Throw.
Proof.
  intros Hd Ho Hw Hl. unfold getuint. destruct (len >? 16) eqn:E.
  - now replace (len <=? 16) with false by lia.
  - replace (len <=? 16) with true by lia. cbn [andb]. rewrite secBytes_ok by lia.
    destruct ((len =? 0) || (off + len <=? zlen data)); cbn [bind]; [|reflexivity].
    do 2 f_equal. change 0 with (u64 0) at 1. rewrite shiftOr_val.
    + rewrite rev_involutive. f_equal. 
    + apply Forall_rev. rewrite Forall_forall in *. intros x Hx. apply Hd.
      rewrite <- (ztake_zdrop off data). apply in_or_app. right.
      rewrite <- (ztake_zdrop len (zdrop off data)). apply in_or_app. now left.
Qed.

Lemma getuint_le8 data off len : Forall isByte data -> 0 <= off -> off + 16 < W64 -> 0 <= len <= 8 ->
  off + len <= zlen data ->
  getuint data off len = Ok (leValue (ztake len (zdrop off data)), off + len).
Proof.
  intros Hd Ho Hw Hl Hz. rewrite getuint_spec by (try assumption; lia).
  replace (len <=? 16) with true by lia. replace (off + len <=? zlen data) with true by lia.
  rewrite orb_true_r. cbn [andb]. do 2 f_equal. apply u64_id.
  assert (Hb : Forall isByte (ztake len (zdrop off data))).
  { rewrite Forall_forall in *. intros x Hx. apply Hd.
    rewrite <- (ztake_zdrop off data). apply in_or_app. right.
    rewrite <- (ztake_zdrop len (zdrop off data)). apply in_or_app. now left. }
  pose proof (leValue_bound _ Hb) as Hv. rewrite zlen_ztake, zlen_zdrop in Hv by lia.
  replace (Z.min len (Z.max 0 (zlen data - off))) with len in Hv by lia.
  unfold isU64. split; [lia|]. apply Z.lt_le_trans with (256 ^ len); [lia|].
  change W64 with (256 ^ 8). apply Z.pow_le_mono_r; lia.
Qed.

Lemma land_128_byte b : isByte b -> (Z.land b 128 =? 0) = (b <? 128).
Proof.
  intros H. unfold isByte in H. destruct (b <? 128) eqn:E.
  - rewrite land_128_final; [reflexivity|unfold final; lia].
  - apply land_128_cont. unfold continuation. lia.
Qed.

Lemma getint_spec data off len : Forall isByte data -> 0 <= off -> off + 16 < W64 -> 1 <= len <= 8 ->
  off + len <= zlen data ->
  getint data off len = Ok (leSigned (ztake len (zdrop off data)), off + len).
Proof.
  intros Hd Ho Hw Hl Hz. unfold getint. replace ((len >? 16) || (len <? 1)) with false by lia.
  rewrite secBytes_ok by lia. replace (off + len <=? zlen data) with true by lia. rewrite orb_true_r. cbn [bind].
  set (q := ztake len (zdrop off data)).
  assert (Hb : Forall isByte q).
  { unfold q. rewrite Forall_forall in *. intros x Hx. apply Hd.
    rewrite <- (ztake_zdrop off data). apply in_or_app. right.
    rewrite <- (ztake_zdrop len (zdrop off data)). apply in_or_app. now left. }
  assert (Hq : zlen q = len) by (unfold q; rewrite zlen_ztake, zlen_zdrop by lia; lia).
  do 2 f_equal.
  destruct (rev q) as [|t r] eqn:Er.
  { assert (Hq2 : q = []) by (rewrite <- (rev_involutive q), Er; reflexivity).
    rewrite Hq2 in Hq. change (zlen (@nil Z)) with 0 in Hq. lia. }
  assert (Hqq : q = rev r ++ [t]) by (rewrite <- (rev_involutive q), Er; reflexivity).
  assert (Ht : isByte t).
  { rewrite Forall_forall in Hb. apply Hb. rewrite Hqq. apply in_or_app. right. now left. }
  assert (Hr : Forall isByte (rev r)).
  { rewrite Hqq in Hb. now apply Forall_app in Hb. }
  assert (Hzr : zlen (rev r) = len - 1) by (rewrite Hqq, zlen_app in Hq; change (zlen [t]) with 1 in Hq; lia).
  cbn [hd]. rewrite land_128_byte by assumption.
  assert (Hval : leValue q = leValue (rev r) + 256 ^ (len - 1) * t).
  { rewrite Hqq, leValue_app. cbn [leValue]. rewrite Hzr. ring. }
  pose proof (leValue_bound _ Hr) as Hrb. rewrite Hzr in Hrb.
  assert (Hp : 256 ^ len = 256 * 256 ^ (len - 1)).
  { replace len with (Z.succ (len - 1)) at 1 by lia. rewrite Z.pow_succ_r by lia. reflexivity. }
  assert (Hp8 : 256 ^ len <= W64) by (change W64 with (256 ^ 8); apply Z.pow_le_mono_r; lia).
  unfold leSigned. rewrite Hq.
  assert (Hs : shiftOr (if t <? 128 then 0 else W64 - 1) (t :: r) =
               u64 ((if t <? 128 then 0 else W64 - 1) * 256 ^ len + leValue q)).
  { replace (if t <? 128 then 0 else W64 - 1) with (u64 (if t <? 128 then 0 else W64 - 1)) at 1
      by (destruct (t <? 128); reflexivity).
    rewrite shiftOr_val; [|rewrite <- Er; now apply Forall_rev].
    rewrite <- Er, rev_involutive. replace (zlen (rev q)) with (zlen q) by (unfold zlen; now rewrite rev_length).
    now rewrite Hq. }
  rewrite Hs. unfold isByte in Ht.
  assert (Hsu : forall x, s64 (u64 x) = s64 x).
  { intros x. unfold s64, sgn, u64. now rewrite Z.mod_mod by (unfold W64; lia). }
  rewrite Hsu. change (2^63) with 9223372036854775808 in *. 
  destruct (t <? 128) eqn:Et.
  - replace (2 * leValue q <? 256 ^ len) with true by nia.
    rewrite Z.mul_0_l, Z.add_0_l. apply sgn_id. change (2^63) with 9223372036854775808. unfold W64 in *. nia.
  - replace (2 * leValue q <? 256 ^ len) with false by nia.
    replace ((W64 - 1) * 256 ^ len + leValue q) with (leValue q - 256 ^ len + 256 ^ len * W64) by ring.
    rewrite sgn_add. apply sgn_id. change (2^63) with 9223372036854775808. unfold W64 in *. nia.
Qed.

(** Fixed width readers agree with getuint. *)
Lemma shift_or4 a b c d : isByte a -> isByte b -> isByte c -> isByte d ->
  Z.lor (Z.lor (Z.lor a (Z.shiftl b 8)) (Z.shiftl c 16)) (Z.shiftl d 24) = a + 256 * (b + 256 * (c + 256 * d)).
Proof.
  unfold isByte. intros Ha Hb Hc Hd. rewrite !Z.shiftl_mul_pow2 by lia.
  rewrite (lor_disjoint a b 8) by (change (2^8) with 256; lia).
  rewrite (lor_disjoint _ c 16) by (change (2^8) with 256; change (2^16) with 65536; lia).
  rewrite (lor_disjoint _ d 24) by (change (2^8) with 256; change (2^16) with 65536; change (2^24) with 16777216; lia).
  change (2^8) with 256; change (2^16) with 65536; change (2^24) with 16777216. ring.
Qed.
Lemma four_bytes (q : list Z) : zlen q = 4 -> exists a b c d, q = [a; b; c; d].
Proof.
  intros H. do 4 (destruct q as [|? q]; [unfold zlen in H; cbn in H; lia|]).
  destruct q as [|? q]; [|unfold zlen in H; cbn [length] in H; lia]. eauto.
Qed.
Lemma slice_bytes data off n : Forall isByte data -> Forall isByte (ztake n (zdrop off data)).
Proof.
  rewrite !Forall_forall. intros Hd x Hx. apply Hd.
  rewrite <- (ztake_zdrop off data). apply in_or_app. right.
  rewrite <- (ztake_zdrop n (zdrop off data)). apply in_or_app. now left.
Qed.
Lemma getu32_spec data off : Forall isByte data -> 0 <= off -> off + 4 < W64 ->
  getu32 data off = if off + 4 <=? zlen data then Ok (leValue (ztake 4 (zdrop off data)), off + 4) else Throw.
Proof.
  intros Hd Ho Hw. unfold getu32. rewrite secBytes_ok by lia. cbn [Z.eqb orb].
  destruct (off + 4 <=? zlen data) eqn:E; cbn [bind]; [|reflexivity].
  pose proof (slice_bytes data off 4 Hd) as Hb. set (q := ztake 4 (zdrop off data)) in *.
  assert (Hq : zlen q = 4) by (unfold q; rewrite zlen_ztake, zlen_zdrop by lia; lia).
  destruct (four_bytes q Hq) as (a & b & c & d & Hqq). rewrite Hqq in *. cbn [nth leValue].
  inversion Hb; subst. inversion H2; subst. inversion H4; subst. inversion H6; subst.
  rewrite shift_or4 by assumption. do 2 f_equal. rewrite u32_id; [ring|].
  unfold isByte, isU32, W32 in *. lia.
Qed.
Lemma getu8_spec data off : 0 <= off -> off + 1 < W64 ->
  getu8 data off = match znth off data with Some b => Ok (b, off + 1) | None => Throw end.
Proof.
  intros Ho Hw. unfold getu8. rewrite secBytes_ok by lia. cbn [Z.eqb orb].
  destruct (off + 1 <=? zlen data) eqn:E; cbn [bind].
  - destruct (znth_lt off data) as [b Hb]; [lia|]. rewrite Hb. do 2 f_equal.
    assert (H0 : znth 0 (zdrop off data) = Some b) by (rewrite znth_zdrop by lia; now rewrite Z.add_0_r).
    destruct (zdrop off data) as [|x t]; [discriminate|]. cbn in H0. inversion H0. reflexivity.
  - rewrite znth_ge by lia. reflexivity.
Qed.

(** Initial length. *)
Lemma getlength_spec data off : Forall isByte data -> 0 <= off -> off + 32 < W64 -> off + 4 <= zlen data ->
  let l := leValue (ztake 4 (zdrop off data)) in
  getlength data off =
    if l =? 4294967295 then
      if off + 12 <=? zlen data then Ok (leValue (ztake 8 (zdrop (off + 4) data)), 8, off + 12) else Throw
    else if 4294967280 <=? l then Ok (0, 0, off + 4)
    else Ok (l, 4, off + 4).
Proof.
  intros Hd Ho Hw Hz l. unfold getlength. rewrite getu32_spec by (try assumption; lia).
  replace (off + 4 <=? zlen data) with true by lia. cbn [bind]. fold l.
  destruct (l =? 4294967295).
  - destruct (off + 12 <=? zlen data) eqn:E.
    + rewrite getuint_le8 by (try assumption; lia). cbn [bind]. do 2 f_equal. lia.
    + rewrite getuint_spec by (try assumption; lia).
      replace (off + 4 + 8 <=? zlen data) with false by lia. reflexivity.
  - replace (l >=? 4294967280) with (4294967280 <=? l) by lia. destruct (4294967280 <=? l); reflexivity.
Qed.
