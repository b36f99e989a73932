From Verif Require Import Base Maps MapsSpec MapsProofs Child ChildSpec.

(** ** Words *)
Lemma findFrom_shift c s : forall off k, (k <= off)%nat -> findFrom c s off k = option_map (fun i => (i + k)%nat) (findFrom c s (off - k) 0).
Proof.
  assert (G : forall s off k j, (k <= off)%nat -> findFrom c s off (k + j) = option_map (fun i => (i + k)%nat) (findFrom c s (off - k) j)).
  { clear. induction s as [|x r IH]; intros off k j H; cbn [findFrom]; [reflexivity|]. replace (off <=? k + j)%nat with (off - k <=? j)%nat by (destruct (Nat.leb_spec (off - k) j), (Nat.leb_spec off (k + j)); lia).
    destruct (_ && _); [cbn [option_map]; f_equal; lia|]. replace (1 + (k + j))%nat with (k + (1 + j))%nat by lia. apply IH. lia. }
  intros off k H. rewrite <- (Nat.add_0_r k) at 1. now apply G.
Qed.
Lemma findFrom_past c a : forall s off k, (off <= k)%nat -> findFrom c (a ++ s) off k = match findFrom c a off k with Some i => Some i | None => findFrom c s off (k + length a) end.
Proof.
  induction a as [|x a IH]; intros s off k H; cbn [app findFrom length]; [f_equal; lia|]. destruct (_ && _); [reflexivity|]. rewrite IH by lia. replace (1 + k + length a)%nat with (k + S (length a))%nat by lia. reflexivity.
Qed.
Lemma findFrom_none c a : ~ In c a -> forall off k, findFrom c a off k = None.
Proof.
  induction a as [|x a IH]; intros N off k; cbn [findFrom]; [reflexivity|]. replace (x =? c) with false by (symmetry; apply Z.eqb_neq; intros ->; apply N; now left). rewrite andb_false_r. apply IH. intros I. apply N. now right.
Qed.
(** Searching beyond a prefix. *)
Lemma findFrom_skip c a : forall s off k, (length a + k <= off)%nat -> findFrom c (a ++ s) off k = findFrom c s off (k + length a).
Proof.
  induction a as [|x a IH]; intros s off k H; cbn [app findFrom length] in *; [f_equal; lia|]. replace (off <=? k)%nat with false by (symmetry; apply Nat.leb_gt; lia). cbn [andb].
  rewrite IH by lia. f_equal. lia.
Qed.
Lemma words_nospace w : ~ In 32 w -> words w = [w].
Proof.
  induction w as [|c w IH]; intros N; cbn [words]; [reflexivity|]. replace (c =? 32) with false by (symmetry; apply Z.eqb_neq; intros ->; apply N; now left). rewrite IH; [reflexivity|]. intros I. apply N. now right.
Qed.
Lemma words_cons w s : ~ In 32 w -> words (w ++ 32 :: s) = w :: words s.
Proof.
  induction w as [|c w IH]; intros N; cbn [words app]; [reflexivity|]. replace (c =? 32) with false by (symmetry; apply Z.eqb_neq; intros ->; apply N; now left). rewrite IH; [reflexivity|]. intros I. apply N. now right.
Qed.
Lemma words_inv s : (~ In 32 s) \/ exists w r, s = w ++ 32 :: r /\ ~ In 32 w.
Proof.
  induction s as [|c s IH]; [left; now intros []|]. destruct (Z.eq_dec c 32) as [->|Hc]; [right; exists [], s; split; [reflexivity|now intros []]|].
  destruct IH as [N|(w & r & -> & N)]; [left; intros [?|?]; [congruence|auto]|right; exists (c :: w), r; split; [reflexivity|intros [?|?]; [congruence|auto]]].
Qed.
Lemma spaces_app a b : spaces (a ++ b) = (spaces a + spaces b)%nat.
Proof. unfold spaces. induction a as [|x a IH]; cbn [app filter]; [reflexivity|]. destruct (x =? 32); cbn [length]; rewrite ?IH; reflexivity. Qed.
Lemma spaces_none a : ~ In 32 a -> spaces a = 0%nat.
Proof.
  unfold spaces. induction a as [|x a IH]; intros N; cbn [filter]; [reflexivity|]. replace (x =? 32) with false by (symmetry; apply Z.eqb_neq; intros ->; apply N; now left). apply IH. intros I. apply N. now right.
Qed.
(** What the loop makes of the command from [off] on: as many arguments as there are words, each the
    rest of the command from its word's beginning, cut after as many characters as the word's end
    is from the beginning of the whole command. *)
Lemma split_count : forall fuel a s, (spaces s < fuel)%nat -> exists l, splitArgs fuel (a ++ s) (length a) = Ok l /\ length l = S (spaces s) /\ last l [] = last (words s) [].
Proof.
  induction fuel as [|f IH]; intros a s H; [lia|]. cbn [splitArgs]. rewrite findFrom_skip by lia. destruct (words_inv s) as [N|(w & r & -> & N)].
  - rewrite findFrom_none by exact N. eexists. split; [reflexivity|]. rewrite spaces_none by exact N. rewrite words_nospace by exact N. rewrite skipn_app, Nat.sub_diag, skipn_all. split; reflexivity.
  - rewrite findFrom_past by lia. rewrite (findFrom_none _ w N). cbn [findFrom]. replace (length a <=? 0 + length a + length w)%nat with true by (symmetry; apply Nat.leb_le; lia). cbn [andb Z.eqb Pos.eqb].
    rewrite spaces_app, (spaces_none w N) in H. change (spaces (32 :: r)) with (S (spaces r)) in H.
    destruct (IH (a ++ w ++ [32]) r ltac:(lia)) as (l & E & L & LW). replace (a ++ w ++ 32 :: r) with ((a ++ w ++ [32]) ++ r) by (rewrite <- !app_assoc; reflexivity).
    replace (0 + length a + length w + 1)%nat with (length (a ++ w ++ [32])) by (rewrite !app_length; cbn [length]; lia). rewrite E. cbn [bind]. eexists. split; [reflexivity|]. split.
    + cbn [length]. rewrite L. f_equal. rewrite spaces_app, (spaces_none w N). reflexivity.
    + rewrite (words_cons _ _ N). destruct l as [|x l]; [discriminate|]. destruct (words r) as [|y ys] eqn:W; [|exact LW]. destruct (words_inv r) as [M|(w2 & r2 & -> & M)]; [rewrite words_nospace in W by exact M|rewrite words_cons in W by exact M]; discriminate.
Qed.
Lemma split_first f w r : ~ In 32 w -> splitArgs (S f) (w ++ 32 :: r) 0 = let* l := splitArgs f (w ++ 32 :: r) (length (w ++ [32])) in Ok (w :: l).
Proof.
  intros N. cbn [splitArgs]. rewrite findFrom_past by lia. rewrite (findFrom_none _ w N). cbn [findFrom Nat.leb andb Z.eqb Pos.eqb]. rewrite app_length. cbn [length].
  replace (0 + length w)%nat with (length w) by lia. unfold substr. cbn [skipn]. rewrite firstn_app, Nat.sub_diag, firstn_all. cbn [firstn]. rewrite app_nil_r. reflexivity.
Qed.
Lemma split_last f a s : ~ In 32 s -> splitArgs (S f) (a ++ s) (length a) = Ok [s].
Proof.
  intros N. cbn [splitArgs]. rewrite findFrom_skip by lia. rewrite (findFrom_none _ s N). rewrite skipn_app, Nat.sub_diag, skipn_all. reflexivity.
Qed.

(** ** Masks *)
Lemma fgets_line l r : forall n, ~ In 10 l -> zlen l < n -> fgets n (l ++ 10 :: r) = (l ++ [10], r).
Proof.
  induction l as [|c l IH]; intros n N L; cbn [app fgets].
  - replace (n <=? 0) with false by (change (zlen (@nil Z)) with 0 in L; lia). reflexivity.
  - rewrite zlen_cons in L. pose proof (zlen_nonneg l). replace (n <=? 0) with false by lia. replace (c =? 10) with false by (symmetry; apply Z.eqb_neq; intros ->; apply N; now left).
    rewrite IH; [reflexivity|intros I; apply N; now right|lia].
Qed.
Lemma strtoull_numeral s v : numeral 16 s v -> v < W64 -> forall r, hexDigit (hd 0 r) = None -> strtoullHex 0 (s ++ r) = v.
Proof.
  intros H. assert (G : v < W64 -> forall r, strtoullHex 0 (s ++ r) = strtoullHex v r).
  { induction H as [c d D|s v c d H IH D]; intros L r.
    - cbn [app strtoullHex]. rewrite (hexDigit_digit 16 c d ltac:(lia) D). f_equal. destruct D as [D _]. lia.
    - pose proof (numeral_nonneg 16 s v ltac:(lia) H). pose proof D as [D0 _]. rewrite <- app_assoc. rewrite IH by lia. cbn [app strtoullHex]. rewrite (hexDigit_digit 16 c d ltac:(lia) D). f_equal. lia. }
  intros L r R. rewrite G by exact L. destruct r as [|c r]; [reflexivity|]. cbn [strtoullHex]. cbn [hd] in R. now rewrite R.
Qed.
Lemma startsWith_app p l : startsWith p (p ++ l) = Some l.
Proof. induction p as [|x p IH]; cbn [startsWith app]; [now destruct l|]. now rewrite Z.eqb_refl. Qed.
Lemma startsWith_some p : forall l t, startsWith p l = Some t -> l = p ++ t.
Proof.
  induction p as [|x p IH]; intros l t H; [destruct l; cbn in H; inversion H; reflexivity|]. destruct l as [|y l]; cbn [startsWith] in H; [discriminate|]. destruct (x =? y) eqn:E; [|discriminate].
  apply IH in H. subst. cbn [app]. f_equal. lia.
Qed.
Definition upd (m : masks) (line : list Z) : masks :=
  match startsWith sigBlkTxt line with
  | Some t => mkMasks (strtoullHex 0 t) (mIgn m) (mCgt m)
  | None => match startsWith sigCgtTxt line with
            | Some t => mkMasks (mBlk m) (mIgn m) (strtoullHex 0 t)
            | None => match startsWith sigIgnTxt line with
                      | Some t => mkMasks (mBlk m) (strtoullHex 0 t) (mCgt m)
                      | None => m
                      end
            end
  end.
Lemma readMasks_lines : forall ls fuel m, Forall (fun l => ~ In 10 l /\ zlen l < 4095) ls -> (length ls < fuel)%nat ->
  readMasks fuel (flat_map (fun l => l ++ [10]) ls) m = Ok (fold_left upd (map (fun l => l ++ [10]) ls) m).
Proof.
  induction ls as [|l ls IH]; intros fuel m F L; (destruct fuel as [|f]; [cbn in L; lia|]); cbn [flat_map map fold_left readMasks]; [reflexivity|].
  inversion F as [|? ? [N Q] F']; subst. rewrite <- app_assoc. cbn [app]. rewrite fgets_line by assumption. destruct (l ++ 10 :: flat_map (fun l => l ++ [10]) ls) eqn:X; [destruct l; discriminate|].
  cbn [length] in L. rewrite IH by (try assumption; lia). reflexivity.
Qed.
Lemma upd_other m l : otherLine l -> upd m (l ++ [10]) = m.
Proof.
  intros O. assert (G : forall p t, startsWith (p : list Z) (l ++ [10]) = Some t -> ~ In 10 p -> exists t', l = p ++ t').
  { intros p t E N. apply startsWith_some in E. destruct (exists_last (l := t)) as (t' & x & ->); [intros ->; rewrite app_nil_r in E; apply N; rewrite <- E; apply in_or_app; right; now left|].
    rewrite app_assoc in E. apply app_inj_tail in E as [E _]. eauto. }
  unfold upd. destruct (startsWith sigBlkTxt (l ++ [10])) eqn:E1.
  { apply G in E1 as [t' ->]; [|vm_compute; tauto || (intros X; vm_compute in X; lia)]. exfalso. apply (O [66; 108; 107] t'); [now left|reflexivity]. }
  destruct (startsWith sigCgtTxt (l ++ [10])) eqn:E2.
  { apply G in E2 as [t' ->]; [|intros X; vm_compute in X; lia]. exfalso. apply (O [67; 103; 116] t'); [right; right; now left|reflexivity]. }
  destruct (startsWith sigIgnTxt (l ++ [10])) eqn:E3; [|reflexivity].
  apply G in E3 as [t' ->]; [|intros X; vm_compute in X; lia]. exfalso. apply (O [73; 103; 110] t'); [right; now left|reflexivity].
Qed.
Lemma fold_other ls m : Forall otherLine ls -> fold_left upd (map (fun l => l ++ [10]) ls) m = m.
Proof. revert m. induction ls as [|l ls IH]; intros m F; [reflexivity|]. inversion F; subst. cbn [map fold_left]. rewrite upd_other by assumption. now apply IH. Qed.
Lemma flat_len ls : (length ls <= length (flat_map (fun l => l ++ [10%Z]) ls))%nat.
Proof. induction ls as [|l ls IH]; cbn [flat_map length]; [lia|]. rewrite !app_length. cbn [length]. lia. Qed.
Lemma readMasks_status text blk ign cgt m : statusText text blk ign cgt -> blk < W64 -> ign < W64 -> cgt < W64 ->
  readMasks (1 + length text) text m = Ok (mkMasks blk ign cgt).
Proof.
  intros (before & b & i & c & after & -> & (sb & -> & Nb) & (si & -> & Ni) & (sc & -> & Nc) & F & Oth) Lb Li Lc.
  rewrite readMasks_lines; [|exact F|pose proof (flat_len (before ++ [[83; 105; 103] ++ [66; 108; 107] ++ [58; 9] ++ sb; [83; 105; 103] ++ [73; 103; 110] ++ [58; 9] ++ si; [83; 105; 103] ++ [67; 103; 116] ++ [58; 9] ++ sc] ++ after)); lia].
  apply Forall_app in Oth as [O1 O2]. rewrite map_app, fold_left_app, (fold_other _ _ O1). rewrite map_app, fold_left_app, fold_other by exact O2. cbn [map fold_left]. f_equal.
  assert (H10 : hexDigit (hd 0 [10]) = None) by reflexivity.
  assert (U1 : forall m0, upd m0 (([83; 105; 103] ++ [66; 108; 107] ++ [58; 9] ++ sb) ++ [10]) = mkMasks blk (mIgn m0) (mCgt m0)).
  { intros m0. unfold upd. rewrite <- !app_assoc. change ([83; 105; 103] ++ [66; 108; 107] ++ [58; 9] ++ sb ++ [10]) with (sigBlkTxt ++ (sb ++ [10])). now rewrite startsWith_app, (strtoull_numeral _ _ Nb Lb _ H10). }
  assert (U2 : forall m0, upd m0 (([83; 105; 103] ++ [73; 103; 110] ++ [58; 9] ++ si) ++ [10]) = mkMasks (mBlk m0) ign (mCgt m0)).
  { intros m0. unfold upd. rewrite <- !app_assoc. change (startsWith sigBlkTxt ([83; 105; 103] ++ [73; 103; 110] ++ [58; 9] ++ si ++ [10])) with (@None (list Z)). change (startsWith sigCgtTxt ([83; 105; 103] ++ [73; 103; 110] ++ [58; 9] ++ si ++ [10])) with (@None (list Z)).
    change ([83; 105; 103] ++ [73; 103; 110] ++ [58; 9] ++ si ++ [10]) with (sigIgnTxt ++ (si ++ [10])). now rewrite startsWith_app, (strtoull_numeral _ _ Ni Li _ H10). }
  assert (U3 : forall m0, upd m0 (([83; 105; 103] ++ [67; 103; 116] ++ [58; 9] ++ sc) ++ [10]) = mkMasks (mBlk m0) (mIgn m0) cgt).
  { intros m0. unfold upd. rewrite <- !app_assoc. change (startsWith sigBlkTxt ([83; 105; 103] ++ [67; 103; 116] ++ [58; 9] ++ sc ++ [10])) with (@None (list Z)).
    change ([83; 105; 103] ++ [67; 103; 116] ++ [58; 9] ++ sc ++ [10]) with (sigCgtTxt ++ (sc ++ [10])). now rewrite startsWith_app, (strtoull_numeral _ _ Nc Lc _ H10). }
  rewrite U1, U2, U3. reflexivity.
Qed.

(** ** One stop *)
Lemma land_bit n h : 0 <= n -> (Z.land (2 ^ n) h =? 0) = negb (Z.testbit h n).
Proof.
  intros Hn. destruct (Z.testbit h n) eqn:E; cbn [negb].
  - apply Z.eqb_neq. intros X. assert (Y : Z.testbit (Z.land (2 ^ n) h) n = true) by (rewrite Z.land_spec, Z.pow2_bits_true, E by lia; reflexivity). rewrite X, Z.bits_0 in Y. discriminate.
  - apply Z.eqb_eq. apply Z.bits_inj'. intros k Hk. rewrite Z.land_spec, Z.bits_0. destruct (Z.eq_dec k n) as [->|K]; [rewrite E; apply andb_false_r|]. rewrite Z.pow2_bits_false by lia. reflexivity.
Qed.
