From Verif Require Import Base Reader ReaderSpec ReaderProofs ReaderArray CacheProofs.

Section P.
Variable rd : Z -> Z -> res (list Z).
Variable src : memory.
Variables sz cachesize base : Z.
Hypothesis Hs : serves rd src.
Hypothesis Hsz : 0 < sz.
Hypothesis Hcs : 0 < cachesize.
Hypothesis Hb : 0 <= base.

Definition itemAt (idx : Z) : res (list Z) :=
  match memread src (base + idx * sz) (Z.to_nat sz) with Some bs => Ok bs | None => Throw end.

Definition AInv (s : astate) : Prop :=
  0 <= cacheStart s /\
  forall idx, cacheStart s <= idx < cacheEnd s ->
    itemAt idx = Ok (ztake sz (zdrop ((idx - cacheStart s) * sz) (abuf s))).

Lemma memread_some_iff m a n bs : memread m a n = Some bs <-> prefix m a n = bs /\ length bs = n.
Proof.
  split; [apply memread_prefix|]. revert a bs; induction n as [|n IH]; intros a bs [H1 H2]; cbn [memread prefix] in *.
  - now subst.
  - destruct (m a); [|subst; discriminate]. destruct bs as [|x bs]; [discriminate|].
    inversion H1; subst. rewrite (IH (a+1) (prefix m (a+1) n)); [easy|]. split; [easy|]. cbn [length] in H2; lia.
Qed.
Lemma memread_none_iff m a n : memread m a n = None <-> (length (prefix m a n) < n)%nat.
Proof.
  split.
  - intros H. pose proof (prefix_length m a n).
    destruct (Nat.eq_dec (length (prefix m a n)) n) as [E|E]; [|lia].
    rewrite (proj2 (memread_some_iff m a n _) (conj eq_refl E)) in H. discriminate.
  - intros H. destruct (memread m a n) eqn:E; [|easy].
    apply memread_some_iff in E. destruct E as [E1 E2]. rewrite E1 in H. lia.
Qed.

Lemma getitem_spec s idx : AInv s -> 0 <= idx -> base + idx * sz + cachesize * sz < W64 ->
  snd (getitem rd sz cachesize base s idx) = itemAt idx /\
  AInv (fst (getitem rd sz cachesize base s idx)).
Proof.
  intros Hi H0 Hw. unfold getitem.
  destruct ((cacheStart s >? idx) || (idx >=? cacheEnd s)) eqn:E.
  - rewrite (u64_id (idx * sz + base)) by (unfold isU64; nia).
    rewrite (u64_id (cachesize * sz)) by (unfold isU64; nia).
    replace (idx * sz + base) with (base + idx * sz) by lia.
    destruct (Hs (base + idx * sz) (cachesize * sz)) as [H|[H Hp]]; try nia; rewrite H.
    + set (A := base + idx * sz) in *. set (L := prefix src A (Z.to_nat (cachesize * sz))).
      assert (HL : zlen L <= cachesize * sz).
      { unfold zlen, L. pose proof (prefix_length src A (Z.to_nat (cachesize * sz))). nia. }
      assert (Hitem : forall j, 0 <= j -> j * sz + sz <= zlen L ->
                memread src (A + j * sz) (Z.to_nat sz) = Some (ztake sz (zdrop (j * sz) L))).
      { intros j Hj Hjl. apply memread_some_iff.
        rewrite ztake_firstn, zdrop_skipn by nia.
        replace (A + j * sz) with (A + Z.of_nat (Z.to_nat (j * sz))) by nia. split.
        - unfold L. apply prefix_of_page; [nia|]. fold L. unfold zlen in *. nia.
        - rewrite firstn_length, skipn_length. unfold zlen in *. nia. }
      assert (Hinv : AInv (mkA idx (idx + zlen L / sz) L)).
      { split; [exact H0|]. cbn [cacheStart cacheEnd abuf]. intros j Hj.
        unfold itemAt. replace (base + j * sz) with (A + (j - idx) * sz) by (unfold A; lia).
        rewrite Hitem; [reflexivity|lia|].
        assert (sz * (zlen L / sz) <= zlen L) by (apply Z.mul_div_le; lia). nia. }
      destruct (zlen L <? sz) eqn:El; cbn [fst snd]; (split; [|exact Hinv]).
      * unfold itemAt. fold A.
        assert (Hn : memread src A (Z.to_nat sz) = None).
        { apply memread_none_iff. rewrite (prefix_firstn src A (Z.to_nat sz) (Z.to_nat (cachesize * sz))) by nia.
          fold L. rewrite firstn_length. unfold zlen in El. nia. }
        now rewrite Hn.
      * unfold itemAt. fold A. specialize (Hitem 0). rewrite Z.mul_0_l, Z.add_0_r in Hitem.
        rewrite Hitem by nia. now rewrite zdrop_neg by lia.
    + cbn [fst snd]. split; [|exact Hi]. unfold itemAt.
      assert (Hn : memread src (base + idx * sz) (Z.to_nat sz) = None).
      { apply memread_none_iff. rewrite (prefix_firstn _ _ (Z.to_nat sz) (Z.to_nat (cachesize * sz))) by nia.
        rewrite Hp, firstn_nil. cbn. lia. }
      now rewrite Hn.
  - cbn [fst snd]. split; [|exact Hi]. destruct Hi as [_ Hi]. symmetry. apply Hi. lia.
Qed.

Lemma ainit_inv : AInv ainit.
Proof. split; cbn; [lia|]. intros; lia. Qed.

Lemma accesses_spec idxs : forall s, AInv s ->
  Forall (fun i => 0 <= i /\ base + i * sz + cachesize * sz < W64) idxs ->
  accesses rd sz cachesize base s idxs = map itemAt idxs.
Proof.
  induction idxs as [|i idxs IH]; intros s Hi Hf; [reflexivity|].
  inversion Hf; subst. cbn [accesses map].
  pose proof (getitem_spec s i Hi (proj1 H1) (proj2 H1)) as [Hg1 Hg2].
  destruct (getitem rd sz cachesize base s i) as [s' x]. cbn [fst snd] in *. subst x.
  f_equal. now apply IH.
Qed.

Lemma iterate_spec n : forall s idx, AInv s -> 0 <= idx ->
  base + (idx + Z.of_nat n) * sz + cachesize * sz < W64 ->
  (forall a, base + idx * sz <= a < base + (idx + Z.of_nat n) * sz -> src a <> None) ->
  exists items, snd (iterate rd sz cachesize base n s idx) = Ok items /\
    length items = n /\
    forall k, (k < n)%nat -> Some (nth k items []) = memread src (base + (idx + Z.of_nat k) * sz) (Z.to_nat sz).
Proof.
  induction n as [|n IH]; intros s idx Hi H0 Hw Hall; cbn [iterate].
  - exists []. repeat split; lia.
  - pose proof (getitem_spec s idx Hi H0 ltac:(nia)) as [Hg1 Hg2].
    destruct (getitem rd sz cachesize base s idx) as [s' x]. cbn [fst snd] in *.
    destruct (memread_all src (base + idx * sz) (Z.to_nat sz)) as [bs Hbs].
    { intros k Hk. apply Hall. nia. }
    unfold itemAt in Hg1. rewrite Hbs in Hg1. subst x.
    destruct (IH s' (idx + 1) Hg2 ltac:(lia) ltac:(nia)) as (items & He & Hl & Hn).
    { intros a Ha. apply Hall. nia. }
    destruct (iterate rd sz cachesize base n s' (idx + 1)) as [s'' r]. cbn [snd] in He. subst r.
    exists (bs :: items). repeat split; [cbn; lia|].
    intros [|k] Hk; cbn [nth].
    + rewrite <- Hbs. f_equal. lia.
    + rewrite Hn by lia. f_equal. lia.
Qed.
End P.

(** The records of a section. *)
Lemma nth_records sz : 0 < sz -> forall fuel l k, (length l < fuel)%nat -> Z.of_nat k * sz + sz <= zlen l ->
  nth k (records fuel sz l) [] = ztake sz (zdrop (Z.of_nat k * sz) l).
Proof.
  intros Hsz. induction fuel as [|f IH]; intros l k Hf Hk; [lia|]. cbn [records].
  replace (zlen l <? sz) with false by nia. destruct k as [|k]; cbn [nth].
  - now rewrite zdrop_neg by lia.
  - rewrite IH.
    + rewrite zdrop_zdrop by nia. do 2 f_equal. nia.
    + assert (zlen (zdrop sz l) < zlen l) by (rewrite zlen_zdrop by lia; nia). unfold zlen in *. lia.
    + rewrite zlen_zdrop by lia. nia.
Qed.
Lemma length_records sz : 0 < sz -> forall fuel l, (length l < fuel)%nat -> zlen (records fuel sz l) = zlen l / sz.
Proof.
  intros Hsz. induction fuel as [|f IH]; intros l Hf; [lia|]. cbn [records].
  destruct (zlen l <? sz) eqn:E.
  - rewrite Z.div_small; [reflexivity|]. pose proof (zlen_nonneg l). lia.
  - rewrite zlen_cons, IH, zlen_zdrop by (try (unfold zlen in *; rewrite ?zdrop_skipn, ?skipn_length by lia); lia).
    replace (Z.max 0 (zlen l - sz)) with (zlen l - sz) by lia.
    replace (zlen l) with ((zlen l - sz) + 1 * sz) at 2 by lia. rewrite Z.div_add by lia. reflexivity.
Qed.

Lemma array_iteration_lemma c sz cachesize rd :
  serves rd (ofList c) -> 0 < sz -> 0 < cachesize -> zlen c + cachesize * sz < W64 ->
  arrayEof (zlen c) sz 0 = (if zlen c mod sz =? 0 then Ok (zlen c / sz) else Throw) /\
  (zlen c mod sz = 0 ->
   snd (iterate rd sz cachesize 0 (Z.to_nat (zlen c / sz)) ainit 0) = Ok (records (S (length c)) sz c)).
Proof.
  intros Hs Hsz Hcs Hw. pose proof (zlen_nonneg c) as Hc. split.
  - unfold arrayEof. replace (zlen c =? offMax) with false by (unfold offMax; nia). cbn [negb andb].
    rewrite Z.sub_0_r, u64_id by (unfold isU64; nia). destruct (zlen c mod sz =? 0); reflexivity.
  - intros Hm. assert (Hd : zlen c = sz * (zlen c / sz)).
    { pose proof (Z.div_mod (zlen c) sz ltac:(lia)) as E. rewrite Hm in E. lia. }
    assert (Hdn : 0 <= zlen c / sz) by (apply Z.div_pos; lia).
    destruct (iterate_spec rd (ofList c) sz cachesize 0 Hs Hsz Hcs ltac:(lia)
                (Z.to_nat (zlen c / sz)) ainit 0) as (items & He & Hl & Hn).
    + split; cbn; intros; lia.
    + lia.
    + rewrite Z.add_0_l, Z2Nat.id by lia. nia.
    + intros a Ha. unfold ofList. destruct (znth_lt a c) as [x ->]; [nia|discriminate].
    + rewrite He. f_equal. apply nth_ext with (d := []) (d' := []).
      * pose proof (length_records sz Hsz (S (length c)) c ltac:(lia)). unfold zlen at 1 in H. lia.
      * intros k Hk. rewrite Hl in Hk. specialize (Hn k Hk).
        rewrite nth_records; [|assumption|lia|nia].
        rewrite Z.add_0_l, Z.add_0_l in Hn.
        assert (Hm2 : memread (ofList c) (Z.of_nat k * sz) (Z.to_nat sz) = Some (ztake sz (zdrop (Z.of_nat k * sz) c))).
        { apply memread_some_iff. rewrite prefix_ofList by nia. rewrite Z2Nat.id by lia. split; [reflexivity|].
          rewrite ztake_firstn, zdrop_skipn by nia. rewrite firstn_length, skipn_length. unfold zlen in *. nia. }
        rewrite Hm2 in Hn. now inversion Hn.
Qed.
