(** Properties C42, C43, C66, C67, C68: canal. *)
From Verif Require Import Base Canal CanalSpec CanalProofs.

(** For all patterns and names (C strings: no zero bytes): the match terminates, never reads past the end of either string, and is true exactly
    when the name matches. *)
Theorem C42_globmatch : forall pattern name, Forall (fun c => c <> 0) pattern -> Forall (fun c => c <> 0) name ->
  exists n, forall fuel, (n <= fuel)%nat -> exists b, globmatch fuel pattern name = Ok b /\ (b = true <-> matches pattern name).
Proof. intros p n Hp Hn. eexists. intros fuel Hf. exact (glob_spec p n Hp Hn fuel Hf). Qed.
(** "a*b*" against "axxbc" and against "axx" *)
Example C42_case : globmatch 50 [97; 42; 98; 42] [97; 120; 120; 98; 99] = Ok true /\ matches [97; 42; 98; 42] [97; 120; 120; 98; 99] /\ globmatch 50 [97; 42; 98; 42] [97; 120; 120] = Ok false.
Proof.
  repeat split; try (vm_compute; reflexivity). apply MChar; [lia|]. apply (MStar [120; 120]). apply MChar; [lia|]. apply (MStar [99] [] []). constructor.
Qed.

(** Whatever symbols have been added, in whatever order: a symbol that is found contains the address. *)
Theorem C43_find_sound : forall ys a k y, Forall symOk ys -> storeFind matchFree (fold_left storeAdd ys []) a = Some (k, y) ->
  In y ys /\ lsValue y + lsBase y <= a < lsValue y + lsBase y + lsSize y.
Proof. intros ys a k y. exact (find_sound ys a k y). Qed.
(** Symbols of positive size that do not overlap: the symbol containing the address is found, unless some symbol ends at that address.
    Missing for the full property: that case, for which it is false (below). *)
Theorem C43_find_complete_partial : forall ys a y, Forall symOk ys -> disjoint ys -> (forall z, In z ys -> 0 < lsSize z) ->
  In y ys -> lsValue y + lsBase y <= a < lsValue y + lsBase y + lsSize y -> (forall z, In z ys -> lsValue z + lsBase z + lsSize z <> a) ->
  exists k, storeFind matchFree (fold_left storeAdd ys []) a = Some (k, y).
Proof. intros ys a y Ho Hd Hp Hy Ha Hn. eexists. exact (proj1 (find_complete ys a y Ho Hd Hy Ha Hp Hn)). Qed.
(** The full property is false: if one symbol ends where another starts, then the start of the second is not attributed to any symbol,
    whatever other symbols there are. *)
Theorem C43_adjacent_refuted : forall ys y z, Forall symOk ys -> disjoint ys -> (forall x, In x ys -> 0 < lsSize x) -> In y ys -> In z ys ->
  lsValue y + lsBase y + lsSize y = lsValue z + lsBase z ->
  storeFind matchFree (fold_left storeAdd ys []) (lsValue z + lsBase z) = None.
Proof.
  intros ys y z Ho Hd Hp Hy Hz E. destruct (find_at ys (lsValue z + lsBase z) y matchFree Ho Hy) as (y' & H1 & H2 & _ & H3).
  - unfold ends. lia.
  - intros x Hx L. unfold ends in *. lia.
  - change (fold_left storeAdd ys []) with (build ys). rewrite H3. rewrite Forall_forall in Ho. unfold matchFree. rewrite key_ok by (apply Ho, H1). rewrite H2. unfold ends. rewrite E.
    replace (lsValue z + lsBase z >? lsValue z + lsBase z) with false by lia. now rewrite andb_false_r.
Qed.
Definition exA : lsym := mkLs 16 16 4096 [97].
Definition exB : lsym := mkLs 32 16 4096 [98].
Example C43_case : Forall symOk [exB; exA] /\ disjoint [exB; exA] /\ storeFind matchFree (fold_left storeAdd [exB; exA] []) 4130 = Some (4144, exB) /\
  storeFind matchFree (fold_left storeAdd [exB; exA] []) 4128 = None /\ lsValue exB + lsBase exB <= 4128 < lsValue exB + lsBase exB + lsSize exB.
Proof.
  split; [repeat constructor; vm_compute; congruence|]. split.
  - intros y z [<-|[<-|[]]] [<-|[<-|[]]]; unfold disjoint2, ends, starts; cbn; auto; right; lia.
  - repeat split; try (vm_compute; reflexivity); vm_compute; congruence.
Qed.

(** C66: with an offset, exactly the references to symbol + offset are found (no symbol ending in between). *)
Theorem C66_offset_sound : forall ys off a k y, Forall symOk ys -> isU64 a -> storeFind (matchBound off) (fold_left storeAdd ys []) a = Some (k, y) ->
  In y ys /\ u64 (lsValue y + lsBase y + off) = a.
Proof.
  intros ys off a k y Ho Ha H. change (fold_left storeAdd ys []) with (build ys) in H. destruct (build_spec ys Ho) as (A & B & C). unfold storeFind in H. destruct (mapLowerBound a (build ys)) as [[k' [y' n]]|] eqn:E; [|discriminate].
  destruct (matchBound off a y') eqn:Em; [|discriminate]. injection H as <- <-. destruct (lb_some _ _ _ A E) as (I1 & _). destruct (B _ I1) as (z & Hz & Ez). injection Ez as -> -> ->. split; [exact Hz|].
  unfold matchBound in Em. rewrite Forall_forall in Ho. rewrite memaddr_ok in Em by (apply Ho, Hz). unfold starts in Em. lia.
Qed.
Theorem C66_offset_complete_partial : forall ys off y, Forall symOk ys -> disjoint ys -> (forall z, In z ys -> 0 < lsSize z) -> In y ys -> 0 < off <= lsSize y ->
  exists k, storeFind (matchBound off) (fold_left storeAdd ys []) (lsValue y + lsBase y + off) = Some (k, y).
Proof.
  intros ys off y Ho Hd Hp Hy Hoff. assert (Hall := Ho). rewrite Forall_forall in Hall. destruct (find_at ys (lsValue y + lsBase y + off) y (matchBound off) Ho Hy) as (y' & H1 & H2 & _ & H3).
  - unfold ends. lia.
  - intros z Hz L. pose proof (Hall z Hz). pose proof (Hp z Hz). destruct (Hd y z Hy Hz) as [<-|[D|D]]; [lia| |]; unfold symOk, starts, ends in *; lia.
  - change (fold_left storeAdd ys []) with (build ys). pose proof (Hall y Hy) as Oy. pose proof (Hp y' H1). pose proof (Hp y Hy). assert (y' = y) by (destruct (Hd y' y H1 Hy) as [->|[D|D]]; [reflexivity| |]; unfold starts, ends in *; lia). subst y'.
    eexists. rewrite H3. unfold matchBound. rewrite memaddr_ok by exact Oy. unfold starts. rewrite u64_id by (unfold symOk, ends, isU64 in *; lia). now rewrite Z.eqb_refl.
Qed.
Example C66_case : storeFind (matchBound 4) (fold_left storeAdd [exB; exA] []) 4116 = Some (4128, exA) /\ storeFind (matchBound 4) (fold_left storeAdd [exB; exA] []) 4117 = None.
Proof. split; vm_compute; reflexivity. Qed.

(** C67: the histogram.  After scanning any words, each symbol's count is the number of words that point into it (symbols of positive size, not
    overlapping; no word is the end address of a symbol: see C43). *)
Theorem C67_histogram_partial : forall ys ws loc words y, Forall symOk ys -> disjoint ys -> (forall z, In z ys -> 0 < lsSize z) -> In y ys ->
  (forall w z, In w words -> In z ys -> lsValue z + lsBase z + lsSize z <> w) ->
  exists k, In (k, (y, zlen (filter (fun w => (lsValue y + lsBase y <=? w) && (w <? lsValue y + lsBase y + lsSize y)) words)))
    (fst (searchSyms matchFree ws (fold_left storeAdd ys []) loc words)).
Proof.
  intros ys ws loc words y Ho Hd Hp Hy Hw. change (fold_left storeAdd ys []) with (build ys). assert (Hall := Ho). rewrite Forall_forall in Hall. destruct (build_spec ys Ho) as (A & B & C). exists (ends y).
  assert (Hin : In (ends y, (y, 0)) (build ys)).
  { destruct (C y Hy) as (v & Hv). destruct (B _ Hv) as (z & Hz & Ez). injection Ez as E1 ->. assert (z = y) by (pose proof (Hp z Hz); pose proof (Hp y Hy); destruct (Hd z y Hz Hy) as [->|[D|D]]; [reflexivity| |]; unfold starts, ends in *; lia). now subst z. }
  pose proof (search_count matchFree ws words (build ys) loc _ _ _ (in_countOf _ _ _ A Hin)) as H.
  assert (Ef : filter (foundAt matchFree (build ys) (ends y)) words = filter (fun w => (lsValue y + lsBase y <=? w) && (w <? lsValue y + lsBase y + lsSize y)) words).
  { apply filter_ext_in. intros w Hin'. destruct ((lsValue y + lsBase y <=? w) && (w <? lsValue y + lsBase y + lsSize y)) eqn:E; unfold foundAt.
    - destruct (find_complete ys w y Ho Hd Hy) as (F & _); [unfold starts, ends; lia|exact Hp|intros z Hz; exact (Hw w z Hin' Hz)|]. rewrite F. apply Z.eqb_refl.
    - destruct (storeFind matchFree (build ys) w) as [[k z]|] eqn:F; [|reflexivity]. destruct (find_sound ys w k z Ho F) as (Hz & Rz).
      assert (k = ends z). { destruct (find_complete ys w z Ho Hd Hz Rz Hp ltac:(intros x Hx; exact (Hw w x Hin' Hx))) as (F' & _). congruence. } subst k.
      destruct (ends z =? ends y) eqn:Ek; [|reflexivity]. exfalso. pose proof (Hp z Hz). pose proof (Hp y Hy). destruct (Hd z y Hz Hy) as [->|[D|D]]; unfold starts, ends in *; lia. }
  rewrite Ef in H. rewrite Z.add_0_l in H. clear -H. set (s := fst (searchSyms matchFree ws (build ys) loc words)) in *. revert H. generalize s. clear s. intros s H.
  induction s as [|[k v] s IH]; cbn [countOf] in H; [discriminate|]. destruct (k =? ends y) eqn:E; [injection H as ->; left; f_equal; lia|right; auto].
Qed.
(** Every line printed gives the address of a word and the symbol it points into, with the offset into it; in order of address. *)
Theorem C67_references_partial : forall ys ws loc words, Forall symOk ys -> Forall isU64 words ->
  Forall (fun o => let '(name, at_, off) := o in exists i w y, nth_error words i = Some w /\ at_ = loc + ws * Z.of_nat i /\ In y ys /\ name = lsName y /\ w = lsValue y + lsBase y + off /\ 0 <= off < lsSize y)
    (snd (searchSyms matchFree ws (fold_left storeAdd ys []) loc words)).
Proof.
  intros ys ws loc words Ho Hw. change (fold_left storeAdd ys []) with (build ys). rewrite search_out. rewrite Forall_forall. intros [[name at_] off] H. apply in_flat_map in H. destruct H as ((i & w) & Hi & H). cbn [fst snd] in H.
  destruct (storeFind matchFree (build ys) w) as [[k y]|] eqn:F; [|destruct H]. destruct H as [H|[]]. injection H as <- <- <-. destruct (find_sound ys w k y Ho F) as (Hy & R).
  assert (Hn : nth_error words i = Some w).
  { clear -Hi. assert (G : forall n l, In (i, w) (combine (seq n (length l)) l) -> (n <= i)%nat /\ nth_error l (i - n) = Some w).
    { intros n l. revert n. induction l as [|x l IH]; intros n Hin; cbn [length seq combine] in Hin; [destruct Hin|]. destruct Hin as [E|Hin]; [injection E as <- <-; rewrite Nat.sub_diag; split; [lia|reflexivity]|].
      destruct (IH _ Hin) as (L & E). split; [lia|]. replace (i - n)%nat with (S (i - S n)) by lia. exact E. }
    destruct (G 0%nat words Hi) as (_ & E). now rewrite Nat.sub_0_r in E. }
  exists i, w, y. split; [exact Hn|]. split; [reflexivity|]. split; [exact Hy|]. split; [reflexivity|]. rewrite Forall_forall in Ho, Hw. pose proof (Ho y Hy) as Oy. pose proof (Hw w (nth_error_In _ _ Hn)) as Ow.
  rewrite memaddr_ok by exact Oy. unfold starts, ends, isU64, symOk in *. rewrite u64_id by (unfold isU64, ends in *; lia). lia.
Qed.
(** Searching for address ranges: the address of a word is printed once for each range the word's value is in, in order of address. *)
Theorem C67_ranges : forall ws ranges loc words a, count_occ Z.eq_dec (searchRanges ws ranges loc words) a =
  fold_right Nat.add 0%nat (map (fun iw => if a =? loc + ws * Z.of_nat (fst iw) then length (filter (fun rg => (fst rg <=? snd iw) && (snd iw <? snd rg)) ranges) else 0%nat) (combine (seq 0 (length words)) words)).
Proof.
  intros ws ranges loc words a. rewrite ranges_out. generalize (combine (seq 0 (length words)) words). induction l as [|(i & w) l IH]; [reflexivity|]. cbn [flat_map map fold_right fst snd]. rewrite count_occ_app, IH. f_equal.
  clear. induction ranges as [|[lo hi] r IH]; cbn [flat_map filter fst snd]; [now destruct (a =? _)|]. rewrite count_occ_app, IH. rewrite Z.geb_leb. destruct ((lo <=? w) && (w <? hi)); cbn [count_occ length].
  - destruct (Z.eq_dec (loc + ws * Z.of_nat i) a) as [E|E]; [replace (a =? loc + ws * Z.of_nat i) with true by lia; reflexivity|replace (a =? loc + ws * Z.of_nat i) with false by lia; reflexivity].
  - destruct (a =? loc + ws * Z.of_nat i); reflexivity.
Qed.
Example C67_case : searchSyms matchFree 8 (fold_left storeAdd [exB; exA] []) 65536 [4130; 7; 4112; 4131] = ([(4128, (exA, 1)); (4144, (exB, 2))], [([98], 65536, 2); ([97], 65552, 0); ([98], 65560, 3)]) /\
  searchRanges 8 [(5, 10); (9, 11)] 65536 [9; 10; 4] = [65536; 65536; 65544].
Proof. split; vm_compute; reflexivity. Qed.

(** C68 is false: if the search of a segment for a text ends at all, it has reported nothing, whatever the memory holds... *)
Theorem C68_string_search_refuted : forall mem fuel segStart segEnd fileEnd findstr out,
  findString mem fuel segStart segEnd fileEnd findstr = Ok out -> out = [].
Proof. intros mem fuel segStart segEnd fileEnd findstr out H. unfold findString in H. now apply findSegment_silent in H. Qed.
(** ... and it never ends if the segment is smaller than the buffer (4096 bytes, for texts of up to 1024), or if the text is in the first part. *)
Theorem C68_string_search_hangs_refuted : forall mem segStart segEnd fileEnd findstr, 0 <= segStart < segEnd -> segStart <= fileEnd < W64 ->
  fileEnd - segStart < 4096 \/ (exists i, 0 <= i /\ i + zlen findstr <= Z.min (fileEnd - segStart) 4096 /\ memRead mem (segStart + i) (zlen findstr) = findstr /\ findstr <> []) ->
  forall fuel, findString mem fuel segStart segEnd fileEnd findstr = OutOfFuel.
Proof.
  intros mem segStart segEnd fileEnd findstr H1 H2 H3 fuel. unfold findString. destruct fuel as [|f]; [reflexivity|]. cbn [findSegment]. replace (segStart <? segEnd) with true by lia. cbv zeta. rewrite findLoop_ne; [reflexivity|].
  change (zlen (@nil Z)) with 0. cbn [app]. rewrite Z.sub_0_r. rewrite (u64_id (fileEnd - segStart)) by (unfold isU64; lia). pose proof (zlen_nonneg findstr) as Hz.
  set (n := Z.min (fileEnd - segStart) (Z.max 4096 (zlen findstr * 4))). assert (Hn : 0 <= n) by lia. destruct H3 as [H3|(i & Hi1 & Hi2 & Hi3 & Hne)].
  - pose proof (stdSearch_le (memRead mem segStart n) findstr) as L. rewrite memRead_len in L by exact Hn. lia.
  - assert (E : exists p r, memRead mem segStart n = p ++ findstr ++ r).
    { exists (memRead mem segStart i), (memRead mem (segStart + i + zlen findstr) (n - i - zlen findstr)). rewrite <- Hi3 at 1.
      assert (G : forall a x y, 0 <= x -> 0 <= y -> memRead mem a (x + y) = memRead mem a x ++ memRead mem (a + x) y).
      { clear. intros a x y Hx Hy. unfold memRead. rewrite Z2Nat.inj_add by lia. rewrite seq_app, map_app. f_equal. rewrite <- (Nat.add_0_l (Z.to_nat x)) at 1. cbn [Nat.add].
        assert (S : forall k m, map (fun i => mem (a + Z.of_nat i)) (seq (k + Z.to_nat x) m) = map (fun i => mem (a + x + Z.of_nat i)) (seq k m)).
        { intros k m. revert k. induction m as [|m IH]; intros k; [reflexivity|]. cbn [seq map]. f_equal; [f_equal; lia|]. apply (IH (S k)). }
        apply (S 0%nat). }
      rewrite <- G by lia. replace (zlen findstr + (n - i - zlen findstr)) with (n - i) by lia. rewrite <- G by lia. f_equal. lia. }
    destruct E as (p & r & E). rewrite E. pose proof (stdSearch_found p findstr r Hne) as L. rewrite <- E in L. rewrite memRead_len in L by exact Hn. rewrite <- E. lia.
Qed.
Example C68_case : findString (fun a => a mod 256) 100 4096 8192 8192 [65; 66; 67] = OutOfFuel.
Proof. vm_compute. reflexivity. Qed.
Print Assumptions C42_globmatch.
Print Assumptions C43_find_sound.
Print Assumptions C43_find_complete_partial.
Print Assumptions C43_adjacent_refuted.
Print Assumptions C66_offset_sound.
Print Assumptions C66_offset_complete_partial.
Print Assumptions C67_histogram_partial.
Print Assumptions C67_references_partial.
Print Assumptions C67_ranges.
Print Assumptions C68_string_search_refuted.
Print Assumptions C68_string_search_hangs_refuted.
