From Verif Require Import Base Leb LebSpec DwarfReader DwarfReaderProofs Reader ReaderSpec ReaderProofs ReaderArray ReaderArrayProofs CfiSpec CfiProofs ElfHash ElfObj ElfFile ElfFileSpec.

(** ** Lists and fields *)
Lemma ztake_zdrop_len {A} (l : list A) n o : 0 <= o -> 0 <= n -> o + n <= zlen l -> zlen (ztake n (zdrop o l)) = n.
Proof. intros. rewrite zlen_ztake, zlen_zdrop by lia. lia. Qed.
Lemma ztake_ztake {A} (l : list A) : forall n k, n <= k -> ztake n (ztake k l) = ztake n l.
Proof.
  induction l as [|x l IH]; intros n k H; [reflexivity|]. cbn [ztake]. destruct (k <=? 0) eqn:E; [cbn [ztake]; destruct (n <=? 0) eqn:E2; [reflexivity|lia]|].
  cbn [ztake]. destruct (n <=? 0); [reflexivity|]. f_equal. apply IH. lia.
Qed.
Lemma zdrop_ztake {A} (l : list A) : forall n k, 0 <= n -> zdrop n (ztake k l) = ztake (k - n) (zdrop n l).
Proof.
  induction l as [|x l IH]; intros n k H; [reflexivity|]. cbn [ztake zdrop]. destruct (k <=? 0) eqn:E.
  - destruct (n <=? 0) eqn:E2; cbn [zdrop]; [|now rewrite ztake_neg by lia]. cbn [ztake]. destruct (k - n <=? 0) eqn:?; [reflexivity|lia].
  - cbn [zdrop]. destruct (n <=? 0) eqn:E2; [cbn [ztake]; destruct (k - n <=? 0) eqn:?; [lia|]; f_equal; f_equal; lia|]. rewrite IH by lia. f_equal. lia.
Qed.
Lemma fileAt_len file off bs : fileAt file off bs -> bs <> [] -> off + zlen bs <= zlen file.
Proof.
  intros [H E] Hn. destruct (Z_le_dec (zlen file) off).
  - rewrite zdrop_all in E by lia. cbn in E. congruence.
  - apply (f_equal zlen) in E. pose proof (zlen_nonneg bs). rewrite zlen_ztake, zlen_zdrop in E by lia. lia.
Qed.
Lemma fileAt_sub file off x y z : fileAt file off (x ++ y ++ z) -> fileAt file (off + zlen x) y.
Proof.
  intros [H E]. pose proof (zlen_nonneg x). split; [lia|]. rewrite Z.add_comm, <- zdrop_zdrop by lia.
  assert (E2 : ztake (zlen y + zlen z) (zdrop (zlen x) (zdrop off file)) = y ++ z).
  { pose proof (zlen_nonneg y). pose proof (zlen_nonneg z).
    apply (f_equal (zdrop (zlen x))) in E. rewrite zdrop_app_zlen, zdrop_ztake, !zlen_app in E by lia. rewrite <- E. f_equal. lia. }
  apply (f_equal (ztake (zlen y))) in E2. rewrite ztake_app_zlen in E2. rewrite <- E2 at 2. symmetry. apply ztake_ztake. pose proof (zlen_nonneg z). lia.
Qed.
Lemma fld_at n pre v post o : zlen pre = o -> 0 <= v < 256 ^ Z.of_nat n -> fld (Z.of_nat n) (pre ++ leBytes n v ++ post) o = v.
Proof.
  intros <- H. unfold fld. rewrite zdrop_app_zlen. rewrite <- (leBytes_len n v). rewrite ztake_app_zlen. now apply leValue_leBytes.
Qed.
Lemma fld_end n pre v o : zlen pre = o -> 0 <= v < 256 ^ Z.of_nat n -> fld (Z.of_nat n) (pre ++ leBytes n v) o = v.
Proof. intros H1 H2. rewrite <- (app_nil_r (leBytes n v)). now apply fld_at. Qed.

(** ** Readers holding an image *)
Definition P62 : 2 ^ 62 = W64 / 4 := eq_refl.
Section Image.
Context (m : memory) (io : reader) (file : list Z) (HI : holdsImage m io file).
Let L := zlen file.
Lemma img_len : 0 <= zlen file < W64 / 4.
Proof. destruct HI as [H _]. rewrite P62 in H. pose proof (zlen_nonneg file). lia. Qed.
Lemma mem_slice base o n : (forall k, 0 <= k < zlen file -> m (base + k) = znth k file) -> 0 <= o -> 0 <= n -> o + n <= zlen file ->
  memread m (base + o) (Z.to_nat n) = Some (ztake n (zdrop o file)).
Proof.
  intros H Ho Hn Hl. apply memread_some_iff. rewrite <- prefix_shift. rewrite (prefix_ext _ (ofList file)) by (intros k Hk; apply H; lia).
  rewrite prefix_ofList, Z2Nat.id by lia. split; [reflexivity|]. pose proof (ztake_zdrop_len file n o Ho Hn Hl) as E. unfold zlen in E. lia.
Qed.
Lemma img_size : rsize io = zlen file.
Proof. destruct HI as (_ & [-> | (b & -> & _)]); reflexivity. Qed.
Lemma img_read off cnt : 0 <= off <= zlen file -> 0 <= cnt -> rread m io off cnt = Ok (ztake cnt (zdrop off file)).
Proof.
  intros Ho Hc. pose proof img_len as HL. destruct HI as (_ & [-> | (b & -> & B0 & B1 & Hm)]); cbn [rread].
  - replace (off >=? W64 / 2) with false; [reflexivity|]. symmetry. unfold Z.geb. pose proof (Z.compare_lt_iff off (W64/2)). assert (off < W64 / 2) by (unfold W64 in *; lia). rewrite (proj2 H) by assumption. reflexivity.
  - destruct (off >? zlen file) eqn:E; [lia|]. change (2 ^ 64) with W64 in B1. rewrite u64_id by (unfold isU64; lia).
    rewrite mem_slice by (try assumption; lia). f_equal. destruct (Z_le_dec cnt (zlen file - off)); [now rewrite Z.min_l by lia|].
    rewrite Z.min_r by lia. rewrite !ztake_all by (rewrite zlen_zdrop by lia; lia). reflexivity.
Qed.
Lemma img_obj off n : 0 <= off -> 0 < n -> off + n <= zlen file -> readObj (rread m io) n off 1 = Ok (ztake n (zdrop off file)).
Proof.
  intros Ho Hn Hl. pose proof img_len as HL. unfold readObj. change (1 =? 0) with false. cbv iota. rewrite Z.mul_1_l, u64_id by (unfold isU64, W64 in *; lia).
  rewrite img_read by lia. cbn [bind]. rewrite ztake_zdrop_len by lia. now rewrite Z.eqb_refl.
Qed.
(** A view inside the image *)
Lemma view_read o l off cnt : 0 <= o -> 0 <= l -> o + l <= zlen file -> 0 <= off <= l -> 0 <= cnt < W64 / 4 ->
  rread m (rview io o l) off cnt = Ok (ztake cnt (zdrop off (ztake l (zdrop o file)))).
Proof.
  intros Ho Hl Hs Hoff Hc. pose proof img_len as HL. assert (HW : W64 = 4 * (W64 / 4)) by reflexivity.
  assert (E : forall c, 0 <= c -> ztake c (zdrop off (ztake l (zdrop o file))) = ztake (Z.min c (l - off)) (zdrop (o + off) file)).
  { intros c Hc0. rewrite zdrop_ztake, zdrop_zdrop by lia. rewrite (Z.add_comm off o). destruct (Z_le_dec c (l - off)).
    - rewrite Z.min_l by lia. apply ztake_ztake. lia.
    - rewrite Z.min_r by lia. apply ztake_all. rewrite zlen_ztake, zlen_zdrop by lia. lia. }
  rewrite E by lia. clear E. destruct HI as (_ & [-> | (b & -> & B0 & B1 & Hm)]).
  - cbn [rview]. unfold mkOffset. replace (l =? offMax) with false by (unfold offMax; lia). cbn [rread].
    destruct (off >? l) eqn:E; [lia|]. rewrite !u64_id by (unfold isU64; lia).
    destruct (off + o >=? W64 / 2) eqn:E2; [assert (W64 / 2 = 2 * (W64 / 4)) by reflexivity; lia|].
    f_equal. rewrite (Z.add_comm off o). destruct (off + cnt >? l) eqn:E3; [rewrite Z.min_r by lia|rewrite Z.min_l by lia]; reflexivity.
  - cbn [rview rread]. destruct (off >? l) eqn:E; [lia|]. change (2 ^ 64) with W64 in B1. rewrite (u64_id (b + o)) by (unfold isU64; lia).
    rewrite u64_id by (unfold isU64; lia). rewrite <- Z.add_assoc. rewrite mem_slice by (try assumption; lia). reflexivity.
Qed.
Lemma view_obj o l off n : 0 <= o -> 0 <= l -> o + l <= zlen file -> 0 <= off -> 0 < n -> off + n <= l ->
  readObj (rread m (rview io o l)) n off 1 = Ok (ztake n (zdrop off (ztake l (zdrop o file)))).
Proof.
  intros Ho Hl Hs Hoff Hn Hi. pose proof img_len as HL. unfold readObj. change (1 =? 0) with false. cbv iota. rewrite Z.mul_1_l, u64_id by (unfold isU64; lia).
  rewrite view_read by lia. cbn [bind]. assert (HW : zlen (ztake l (zdrop o file)) = l) by (apply ztake_zdrop_len; lia).
  rewrite ztake_zdrop_len by lia. now rewrite Z.eqb_refl.
Qed.
Lemma view_view o l o2 l2 : 0 <= o -> 0 <= o2 -> o + o2 <= zlen file -> rview (rview io o l) o2 l2 = rview io (o + o2) l2.
Proof.
  intros Ho H2 Hs. pose proof img_len as HL. destruct HI as (_ & [-> | (b & -> & B0 & B1 & Hm)]).
  - cbn [rview]. unfold mkOffset at 1. cbn [rview]. rewrite u64_id by (unfold isU64; lia). reflexivity.
  - cbn [rview]. f_equal. change (2 ^ 64) with W64 in B1. rewrite (u64_id (b + o)) by (unfold isU64; lia). f_equal. lia.
Qed.
Lemma view_size o l : 0 <= l < W64 / 4 -> rsize (rview io o l) = l.
Proof.
  intros H. destruct HI as (_ & [-> | (b & -> & _)]); [|reflexivity]. cbn [rview]. unfold mkOffset. replace (l =? offMax) with false by (unfold offMax, W64 in *; lia). reflexivity.
Qed.
(** Text in the image *)
Lemma textAt_until off t : textAt file off t -> untilNul (zdrop off file) = t.
Proof.
  intros [[H E] F]. assert (zlen (t ++ [0]) <= zlen (zdrop off file)).
  { pose proof (fileAt_len file off (t ++ [0]) (conj H E)) as HH. rewrite zlen_zdrop by lia. assert (t ++ [0] <> []) by (destruct t; discriminate). specialize (HH H0). lia. }
  rewrite <- (ztake_zdrop (zlen (t ++ [0])) (zdrop off file)). rewrite E, <- app_assoc. rewrite untilNul_app_nonul by (now apply Forall_forall).
  cbn [app untilNul]. change (0 =? 0) with true. cbv iota. apply app_nil_r.
Qed.
Lemma textAt_len off t : textAt file off t -> 0 <= off /\ off + zlen t + 1 <= zlen file.
Proof.
  intros [H F]. pose proof (fileAt_len _ _ _ H) as E. destruct H as [H _]. rewrite zlen_app in E. change (zlen [0]) with 1 in E. split; [exact H|]. assert (t ++ [0] <> []) by (destruct t; discriminate). specialize (E H0). lia.
Qed.
Lemma img_string fuel off t : 0 < off -> textAt file off t -> (length file < fuel)%nat -> rstring fuel m io off = Ok t.
Proof.
  intros Ho Ht Hf. pose proof img_len as HL. pose proof (textAt_len off t Ht) as [_ Hl]. pose proof (zlen_nonneg t) as Ht0. destruct HI as (_ & [-> | (b & -> & B0 & B1 & Hm)]).
  - rewrite file_readString; [now rewrite (textAt_until off t Ht)|unfold W64 in *; lia|unfold W64 in *; lia|exact Hf].
  - change (2 ^ 64) with W64 in B1. cbn [rstring]. rewrite u64_id by (unfold isU64; lia). apply cstring_spec. destruct Ht as [[_ E] F].
    assert (G : forall k x, znth k (t ++ [0]) = Some x -> m (b + off + k) = Some x).
    { intros k x Hk. pose proof (znth_some _ _ _ Hk) as Hr. rewrite zlen_app in Hr. change (zlen [0]) with 1 in Hr. rewrite <- Z.add_assoc, Hm by lia.
      rewrite <- E in Hk. rewrite <- znth_zdrop by lia. rewrite <- Hk.
      rewrite <- (ztake_zdrop (zlen (t ++ [0])) (zdrop off file)) at 1. apply znth_app_l. rewrite ztake_zdrop_len; rewrite ?zlen_app; change (zlen [0]) with 1; lia. }
    repeat split.
    + unfold zlen in *. lia.
    + pose proof (proj1 (nth_error_Some t k) ltac:(congruence)). apply G. rewrite znth_app_l by (unfold zlen; lia). rewrite znth_nth_error, Nat2Z.id by lia. assumption.
    + rewrite Forall_forall in F. apply F. now apply nth_error_In in H.
    + apply G. rewrite znth_app_r by (unfold zlen; lia). replace (Z.of_nat (length t) - zlen t) with 0 by (unfold zlen; lia). reflexivity.
Qed.
Lemma view_string fuel o l off t : 0 <= o -> 0 <= off -> 0 < o + off -> textAt file (o + off) t -> (length file < fuel)%nat -> rstring fuel m (rview io o l) off = Ok t.
Proof.
  intros Ho Hoff Hp Ht Hf. pose proof img_len as HL. pose proof (textAt_len _ t Ht) as [_ Hl]. pose proof (zlen_nonneg t) as Ht0.
  rewrite <- (img_string fuel (o + off) t Hp Ht Hf). destruct HI as (_ & [-> | (b & -> & B0 & B1 & Hm)]).
  - cbn [rview]. unfold mkOffset. cbn [rstring]. rewrite (Z.add_comm off o), u64_id by (unfold isU64; lia). reflexivity.
  - change (2 ^ 64) with W64 in B1. cbn [rview rstring]. f_equal. rewrite (u64_id (b + o)) by (unfold isU64; lia). f_equal. lia.
Qed.
Lemma view_serves o l : 0 <= o -> 0 <= l -> o + l <= zlen file -> serves (rread m (rview io o l)) (ofList (ztake l (zdrop o file))).
Proof.
  intros Ho Hl Hs off cnt Hoff Hc Hw. pose proof img_len as HL. assert (HW : zlen (ztake l (zdrop o file)) = l) by (apply ztake_zdrop_len; lia).
  rewrite prefix_ofList, Z2Nat.id by lia. destruct (Z_lt_dec l off).
  - right. split; [|rewrite zdrop_all by lia; reflexivity]. destruct HI as (_ & [-> | (b & -> & B0 & B1 & Hm)]); cbn [rview].
    + unfold mkOffset. replace (l =? offMax) with false by (unfold offMax, W64 in *; lia). cbn [rread]. destruct (off >? l) eqn:?; [reflexivity|lia].
    + cbn [rread]. destruct (off >? l) eqn:?; [reflexivity|lia].
  - left. destruct (Z_lt_dec cnt (W64 / 4)); [apply view_read; lia|].
    assert (E : rread m (rview io o l) off cnt = rread m (rview io o l) off (l - off)).
    { destruct HI as (_ & [-> | (b & -> & B0 & B1 & Hm)]); cbn [rview].
      - unfold mkOffset. replace (l =? offMax) with false by (unfold offMax, W64 in *; lia). cbn [rread]. destruct (off >? l) eqn:?; [reflexivity|].
        rewrite !(u64_id (off + _)) by (unfold isU64; lia). destruct (off + cnt >? l) eqn:?; [|lia]. destruct (off + (l - off) >? l) eqn:?; [lia|]. reflexivity.
      - cbn [rread]. destruct (off >? l) eqn:?; [reflexivity|]. rewrite Z.min_r by lia. rewrite Z.min_id. reflexivity. }
    rewrite E, view_read by lia. f_equal. rewrite (ztake_all (l - off)), (ztake_all cnt) by (rewrite zlen_zdrop by lia; lia). reflexivity.
Qed.
End Image.
