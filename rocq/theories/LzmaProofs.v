From Verif Require Import Base Lzma LzmaSpec.

Lemma zlen_zeros n : 0 <= n -> zlen (zeros n) = n.
Proof. intros H. unfold zlen, zeros. rewrite repeat_length. lia. Qed.
Lemma plain_len bs b : consistent bs -> In b bs -> zlen (plain b) = lbSize b.
Proof. intros C H. destruct (C b H) as (H0 & H1). unfold plain. destruct (lbDec b) as [| |d]; [now apply zlen_zeros..|now apply H1]. Qed.
Lemma cons_tl b bs : consistent (b :: bs) -> consistent bs.
Proof. intros C x Hx. apply C. now right. Qed.
Lemma lz_nonneg bs : consistent bs -> 0 <= lzSize bs.
Proof. induction bs as [|b bs IH]; intros C; cbn [lzSize fold_right]; [lia|]. fold (lzSize bs). pose proof (IH (cons_tl _ _ C)). destruct (C b ltac:(now left)). lia. Qed.
Lemma lz_app a b : lzSize (a ++ b) = lzSize a + lzSize b.
Proof. induction a as [|x a IH]; cbn [app lzSize fold_right]; [reflexivity|]. fold (lzSize (a ++ b)). fold (lzSize a). lia. Qed.
Lemma dec_len bs : consistent bs -> zlen (decompressed bs) = lzSize bs.
Proof. induction bs as [|b bs IH]; intros C; [reflexivity|]. cbn [decompressed flat_map lzSize fold_right]. fold (decompressed bs). fold (lzSize bs). rewrite zlen_app, IH by exact (cons_tl _ _ C). rewrite (plain_len (b :: bs)) by (auto; now left). reflexivity. Qed.
Lemma locate_spec bs : forall st off, consistent bs -> st <= off ->
  match locate bs st off with
  | Some (s, b) => exists pre post, bs = pre ++ b :: post /\ s = st + lzSize pre /\ s <= off < s + lbSize b
  | None => st + lzSize bs <= off
  end.
Proof.
  induction bs as [|b bs IH]; intros st off C H; cbn [locate lzSize fold_right]; [lia|]. fold (lzSize bs). destruct (C b ltac:(now left)) as (Hb & _).
  destruct ((st <=? off) && (off <? st + lbSize b)) eqn:E.
  - exists [], bs. cbn. split; [reflexivity|]. lia.
  - specialize (IH (st + lbSize b) off (cons_tl _ _ C) ltac:(lia)). destruct (locate bs (st + lbSize b) off) as [(s & b')|]; [|lia]. destruct IH as (pre & post & -> & Es & Hs). exists (b :: pre), post. split; [reflexivity|]. cbn [lzSize fold_right]. fold (lzSize pre). lia.
Qed.
Lemma locate_at bs pre b post : consistent bs -> bs = pre ++ b :: post -> 0 < lbSize b -> locate bs 0 (lzSize pre) = Some (lzSize pre, b).
Proof.
  intros C -> Hb. enough (G : forall pre st, consistent (pre ++ b :: post) -> locate (pre ++ b :: post) st (st + lzSize pre) = Some (st + lzSize pre, b)) by (apply (G pre 0 C)).
  clear C pre. induction pre as [|x pre IH]; intros st C; cbn [app locate lzSize fold_right].
  - replace ((st <=? st + 0) && (st + 0 <? st + lbSize b)) with true by lia. repeat f_equal. lia.
  - fold (lzSize pre). destruct (C x ltac:(now left)) as (Hx & _). assert (Np : 0 <= lzSize pre) by (apply lz_nonneg; intros y Hy; apply C; right; apply in_or_app; now left).
    replace ((st <=? st + (lbSize x + lzSize pre)) && (st + (lbSize x + lzSize pre) <? st + lbSize x)) with false by lia. replace (st + (lbSize x + lzSize pre)) with (st + lbSize x + lzSize pre) by lia. apply IH. exact (cons_tl _ _ C).
Qed.
(** the cache only holds, under the offset of a block, its data *)
Definition cacheOk (bs : list lblock) (c : list (Z * list Z)) : Prop :=
  forall pre b post, bs = pre ++ b :: post -> 0 < lbSize b -> lookupBlock c (lzSize pre) = [] \/ lookupBlock c (lzSize pre) = plain b.
Lemma cacheOk_nil bs : cacheOk bs []. Proof. intros pre b post _ _. now left. Qed.
Lemma cacheOk_cons bs c pre b post v : consistent bs -> bs = pre ++ b :: post -> 0 < lbSize b -> v = [] \/ v = plain b -> cacheOk bs c -> cacheOk bs ((lzSize pre, v) :: c).
Proof.
  intros C E Hb Hv Hc pre' b' post' E' Hb'. cbn [lookupBlock]. destruct (lzSize pre' =? lzSize pre) eqn:K; [|exact (Hc _ _ _ E' Hb')]. apply Z.eqb_eq in K.
  pose proof (locate_at bs pre b post C E Hb) as L. pose proof (locate_at bs pre' b' post' C E' Hb') as L'. rewrite K, L in L'. injection L' as <-. exact Hv.
Qed.
Lemma getBlock_ok bs c pre b post : consistent bs -> bs = pre ++ b :: post -> 0 < lbSize b -> cacheOk bs c ->
  cacheOk bs (fst (getBlock c (lzSize pre) b)) /\ (snd (getBlock c (lzSize pre) b) = Throw \/ snd (getBlock c (lzSize pre) b) = Ok (plain b)) /\ ((exists d, lbDec b = Good d) -> snd (getBlock c (lzSize pre) b) = Ok (plain b)).
Proof.
  intros C E Hb Hc. unfold getBlock. destruct (C b) as (_ & Hd); [rewrite E; apply in_or_app; right; now left|]. destruct (lookupBlock c (lzSize pre)) as [|x l] eqn:K.
  - destruct (lbDec b) as [| |d] eqn:D; cbn [fst snd].
    + split; [apply (cacheOk_cons bs c pre b post); auto|]. split; [now left|]. intros (d & X). discriminate.
    + split; [apply (cacheOk_cons bs c pre b post); auto; right; unfold plain; now rewrite D|]. split; [now left|]. intros (d & X). discriminate.
    + rewrite (Hd d eq_refl). replace (lbSize b >? lbSize b) with false by lia. replace (lbSize b - lbSize b) with 0 by lia. change (zeros 0) with (@nil Z). rewrite app_nil_r. cbn [fst snd].
      assert (Ep : plain b = d) by (unfold plain; now rewrite D). rewrite Ep. split; [apply (cacheOk_cons bs c pre b post); auto|]. auto.
  - cbn [fst snd]. split; [exact Hc|]. destruct (Hc pre b post E Hb) as [X|X]; rewrite K in X; [discriminate|]. rewrite X. auto.
Qed.
Lemma ztake_split {A} (l : list A) : forall a n, 0 <= a <= n -> ztake n l = ztake a l ++ ztake (n - a) (zdrop a l).
Proof.
  induction l as [|x l IH]; intros a n H; [reflexivity|]. cbn [ztake zdrop]. destruct (a <=? 0) eqn:Ea; [cbn [app]; now replace (n - a) with n by lia|]. replace (n <=? 0) with false by lia. cbn [app]. f_equal. rewrite (IH (a - 1) (n - 1)) by lia. now replace (n - 1 - (a - 1)) with (n - a) by lia.
Qed.
Lemma zdrop_app_le {A} (l1 l2 : list A) n : 0 <= n <= zlen l1 -> zdrop n (l1 ++ l2) = zdrop n l1 ++ l2.
Proof. intros H. unfold zlen in H. rewrite !zdrop_skipn by lia. rewrite skipn_app. replace (Z.to_nat n - length l1)%nat with 0%nat by lia. reflexivity. Qed.
Lemma ztake_app_le {A} (l1 l2 : list A) n : 0 <= n <= zlen l1 -> ztake n (l1 ++ l2) = ztake n l1.
Proof. intros H. unfold zlen in H. rewrite !ztake_firstn by lia. rewrite firstn_app. replace (Z.to_nat n - length l1)%nat with 0%nat by lia. cbn [firstn]. apply app_nil_r. Qed.

Lemma read_ok bs : consistent bs -> lzSize bs < W64 -> forall fuel c off size, cacheOk bs c -> 0 <= off -> 0 <= size ->
  cacheOk bs (fst (lzRead fuel bs c off size)) /\
  (snd (lzRead fuel bs c off size) = Throw \/ snd (lzRead fuel bs c off size) = OutOfFuel \/ snd (lzRead fuel bs c off size) = Ok (ztake size (zdrop off (decompressed bs)))) /\
  (size < Z.of_nat fuel -> snd (lzRead fuel bs c off size) <> OutOfFuel) /\
  (size < Z.of_nat fuel -> off + size <= lzSize bs -> decodes bs off size -> snd (lzRead fuel bs c off size) = Ok (ztake size (zdrop off (decompressed bs)))) /\
  (size < Z.of_nat fuel -> 0 < size -> lzSize bs < off + size -> snd (lzRead fuel bs c off size) = Throw).
Proof.
  intros C W. induction fuel as [|f IH]; intros c off size Hc Ho Hs; cbn [lzRead].
  { cbn [fst snd]. split; [exact Hc|]. split; [auto|]. split; [lia|]. split; lia. }
  destruct (size =? 0) eqn:E0.
  { cbn [fst snd]. replace size with 0 by lia. rewrite ztake_neg by lia. split; [exact Hc|]. split; [auto|]. split; [discriminate|]. split; [reflexivity|lia]. }
  pose proof (locate_spec bs 0 off C Ho) as L. destruct (locate bs 0 off) as [(st & b)|].
  2: { cbn [fst snd]. split; [exact Hc|]. split; [auto|]. split; [discriminate|]. split; [lia|reflexivity]. }
  destruct L as (pre & post & E & Es & Hr). rewrite Z.add_0_l in Es. subst st.
  destruct (getBlock_ok bs c pre b post C E ltac:(lia) Hc) as (G1 & G2 & G3). destruct (getBlock c (lzSize pre) b) as (c' & rb). cbn [fst snd] in G1, G2, G3.
  assert (Hin : In b bs) by (rewrite E; apply in_or_app; right; now left). assert (Lp : zlen (plain b) = lbSize b) by exact (plain_len bs b C Hin).
  assert (Ez : lzSize bs = lzSize pre + lbSize b + lzSize post) by (rewrite E, lz_app; cbn [lzSize fold_right]; fold (lzSize post); lia).
  assert (Cp : consistent pre) by (intros x Hx; apply C; rewrite E; apply in_or_app; now left). assert (Cq : consistent post) by (intros x Hx; apply C; rewrite E; apply in_or_app; right; now right).
  pose proof (lz_nonneg pre Cp) as Np. pose proof (lz_nonneg post Cq) as Nq.
  destruct G2 as [-> | ->].
  { cbn [fst snd]. split; [exact G1|]. split; [auto|]. split; [discriminate|]. split; [|reflexivity]. intros _ Hf Hd. destruct (Hd pre b post E ltac:(lia) ltac:(lia)) as (d & Ed). specialize (G3 (ex_intro _ d Ed)). discriminate. }
  rewrite Lp. set (a := Z.min (lbSize b - (off - lzSize pre)) size). assert (Ha : 0 < a /\ a <= size /\ a <= lbSize b - (off - lzSize pre)) by (unfold a; lia).
  rewrite (u64_id (off + a)) by (unfold isU64; lia). destruct (IH c' (off + a) (size - a) G1 ltac:(lia) ltac:(lia)) as (I1 & I2 & I3 & I4 & I5).
  destruct (lzRead f bs c' (off + a) (size - a)) as (c2 & r2). cbn [fst snd] in *. split; [exact I1|].
  assert (Sl : ztake size (zdrop off (decompressed bs)) = ztake a (zdrop (off - lzSize pre) (plain b)) ++ ztake (size - a) (zdrop (off + a) (decompressed bs))).
  { rewrite (ztake_split _ a size) by lia. rewrite zdrop_zdrop by lia. rewrite (Z.add_comm a off). f_equal. rewrite E. unfold decompressed. rewrite flat_map_app. cbn [flat_map]. fold (decompressed pre).
    replace off with (off - lzSize pre + lzSize pre) at 1 by lia. rewrite <- zdrop_zdrop by lia. rewrite <- (dec_len pre Cp) at 2. rewrite zdrop_app_zlen. rewrite zdrop_app_le by lia. apply ztake_app_le. rewrite zlen_zdrop by lia. lia. }
  rewrite Sl. split; [|split; [|split]].
  - destruct I2 as [-> |[-> | ->]]; cbn [bind]; auto.
  - intros Hf. destruct I2 as [-> |[X| ->]]; cbn [bind]; try discriminate. exfalso. apply (I3 ltac:(lia)). exact X.
  - intros Hf He Hd. rewrite (I4 ltac:(lia) ltac:(lia)); [reflexivity|]. intros p' b' q' E' H1 H2. apply (Hd p' b' q' E'); lia.
  - intros Hf _ He. rewrite I5 by lia. reflexivity.
Qed.
Lemma run_cacheOk bs fuel h : consistent bs -> lzSize bs < W64 -> Forall (fun x => 0 <= fst x /\ 0 <= snd x) h -> forall c, cacheOk bs c -> cacheOk bs (lzRun fuel bs c h).
Proof.
  intros C W. induction 1 as [|(o & s) h (H1 & H2) _ IH]; intros c Hc; cbn [lzRun]; [exact Hc|]. apply IH. apply read_ok; auto.
Qed.
