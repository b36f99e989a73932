(** The list of large freed blocks (heap.c:150-162) across a run. *)
From Coq Require Import Permutation.
From Verif Require Import Base CfiSpec CfiProofs DwarfReaderProofs ElfHash ElfHashProofs CacheProofs Heap HeapSpec HeapProofs.

Definition described (t : Z -> option desc) (id : Z) (b : blk) : Prop := exists ser, t id = Some (mkD (bSize b) (bPtr b - 16) (bBase b) ser).
(** the first [n] large blocks that were given back to the real allocator *)
Definition bigOnes (bt : Z) (n : Z) (l : list blk) : list blk := firstn (Z.to_nat n) (filter (fun b => bt <=? bSize b) l).

Lemma F2_length {A B} (R : A -> B -> Prop) l l' : Forall2 R l l' -> length l = length l'.
Proof. induction 1; cbn [length]; congruence. Qed.

Section Big.
Variable hr : Z -> bool.
Variable max : nat.
Variables bt mb : Z.
Hypothesis mb0 : 0 <= mb.
Definition bigInv (s : hst) (p : sp) : Prop :=
  Forall2 (described (hDescs s)) (hBig s) (bigOnes bt mb (gone max (spFreed p))) /\ hNumBig s = zlen (hBig s) /\ hBigThresh s = bt /\ hMaxBig s = mb.

Lemma build_big s p base guard size d s' : inv hr max s p -> freshDesc p d -> buildAlloc s base guard size d = Ok s' ->
  hBig s' = hBig s /\ hNumBig s' = hNumBig s /\ hBigThresh s' = hBigThresh s /\ hMaxBig s' = hMaxBig s /\ (forall x, In x (hBig s) -> hDescs s' x = hDescs s x).
Proof.
  intros [_ _ IN ID _ _ _ _ _ _ _ _ _] (D1 & D2) E. unfold buildAlloc in E.
  assert (N : forall x, In x (hBig s) -> x <> (let '(id, _) := match hPool s with [] => (d, []) | y :: r => (y, r) end in id)).
  { intros x Hx. destruct (hPool s) as [|y r] eqn:Ep; intros ->; [apply D2, ID; tauto|]. specialize (IN y). rewrite cnt_cons, Z.eqb_refl in IN. rewrite cnt_in in Hx. lia. }
  destruct (match hPool s with [] => (d, []) | y :: r => (y, r) end) as [id pool]. destruct (id =? 0); [discriminate|]. destruct (guard =? 0); [discriminate|].
  cbv zeta in E. destruct (_ && _ && _); [discriminate|]. injection E as <-. cbn [hBig hNumBig hBigThresh hMaxBig hDescs]. repeat split; auto. intros x Hx. specialize (N x Hx). unfold updD. now replace (x =? id) with false by lia.
Qed.
Lemma described_keep s s' p : bigInv s p -> hBig s' = hBig s -> hNumBig s' = hNumBig s -> hBigThresh s' = hBigThresh s -> hMaxBig s' = hMaxBig s -> (forall x, In x (hBig s) -> hDescs s' x = hDescs s x) ->
  forall p', gone max (spFreed p') = gone max (spFreed p) -> bigInv s' p'.
Proof.
  intros (B1 & B2 & B3 & B4) E1 E2 E3 E4 Hd p' Eg. unfold bigInv. rewrite E1, E2, E3, E4, Eg. repeat split; auto. clear -B1 Hd. induction B1 as [|x y l l' R _ IH]; constructor.
  - destruct R as (ser & R). exists ser. rewrite Hd by (now left). exact R.
  - apply IH. intros z Hz. apply Hd. now right.
Qed.
Lemma free_big s p l1 b l2 s' : inv hr max s p -> spLive p = l1 ++ b :: l2 -> bigInv s p -> free hr s (bPtr b) = Ok s' ->
  bigInv s' (mkSp (l1 ++ l2) (spFreed p ++ [b]) (spPeak p) (spDescs p)).
Proof.
  intros I El B E. pose proof (inv_use hr max s p I) as Hu. assert (Hb : In b (spLive p)) by (rewrite El; apply in_or_app; right; now left).
  destruct (inv_mem hr max s p b I Hb) as (id & ser & Hl & Ed). pose proof (inv_layout hr max s p b I ltac:(apply in_or_app; now left)) as (L1 & L2 & L3 & L4).
  destruct I as [IH IF IN ID IL IA IM IS [IT1 IT2] IP IR IFi ILi]. pose proof (held_len max (spFreed p)) as Hh.
  unfold free in E. replace (bPtr b =? 0) with false in E by lia. rewrite Hu in E. cbn [bind] in E. rewrite (linked_ptr _ _ _ _ _ Hl) in E. unfold withDesc at 1 in E. rewrite Ed in E.
  rewrite (linked_state _ _ _ _ _ ser Hl) in E. cbn [bind] in E. rewrite beq_refl in E. cbn [negb dData dLen] in E. unfold guardSize at 1 in E. rewrite Z.eqb_refl in E. cbn [negb] in E. cbv zeta in E.
  assert (G : Forall2 (described (hDescs s)) (id :: hFree s) (rev (held max (spFreed p) ++ [b]))).
  { rewrite rev_app_distr. cbn [rev app]. constructor; [now exists ser|]. clear -IF. induction IF as [|x y l l' R _ IH]; constructor; [|exact IH]. now destruct R as (_ & R & _). }
  destruct (held_app max (spFreed p) b) as [(Lf & E1 & E2)|(Lf & x & E1 & E2)].
  - replace (hSize s =? hMax s) with false in E by (rewrite IS, IM, Hh; unfold zlen; lia). injection E as <-. apply (described_keep s _ p B); try reflexivity. exact E2.
  - replace (hSize s =? hMax s) with true in E by (rewrite IS, IM, Hh; unfold zlen; lia).
    rewrite E1 in G. cbn [rev] in G. apply Forall2_app_inv_r in G. destruct G as (fl & lx & G2 & G3 & Efl). inversion G3 as [|idx ? ? ? Gx G4]; subst. inversion G4; subst. rewrite Efl in E.
    rewrite removelast_last, last_last in E. unfold freeDesc in E. destruct Gx as (serx & Edx). unfold withDesc in E. cbn [hDescs hMem] in E. rewrite Edx in E.
    destruct (sanityFree _ _ _) as [[]| | |]; cbn [bind] in E; try discriminate. cbn [hBigThresh hNumBig hMaxBig dLen] in E. injection E as <-.
    destruct B as (B1 & B2 & B3 & B4). unfold bigInv. cbn [hDescs hBig hNumBig hBigThresh hMaxBig spFreed]. rewrite E2. unfold bigOnes in *. rewrite filter_app. cbn [filter].
    rewrite B2, B3, B4. rewrite Z.geb_leb. set (g := filter (fun b0 => bt <=? bSize b0) (gone max (spFreed p))) in *.
    assert (Ln : zlen (hBig s) = Z.min mb (zlen g)) by (pose proof (F2_length _ _ _ B1) as Lq; unfold zlen; rewrite Lq, firstn_length; lia).
    destruct (bt <=? bSize x) eqn:Ex; cbn [andb].
    + destruct (zlen (hBig s) <? mb) eqn:Em.
      * assert (Lg : (length g < Z.to_nat mb)%nat) by (unfold zlen in *; lia). rewrite firstn_app. rewrite (firstn_all2 g) in B1 |- * by lia.
        replace (firstn (Z.to_nat mb - length g) [x]) with [x] by (destruct (Z.to_nat mb - length g)%nat eqn:En; [lia|cbn [firstn]; now rewrite firstn_nil]).
        split; [apply Forall2_app; [exact B1|]; constructor; [now exists serx|constructor]|]. split; [|auto]. rewrite zlen_app. reflexivity.
      * assert (Lg : (Z.to_nat mb <= length g)%nat) by (unfold zlen in *; lia). rewrite firstn_app. replace (Z.to_nat mb - length g)%nat with 0%nat by lia. cbn [firstn]. rewrite app_nil_r. auto.
    + rewrite app_nil_r. auto.
Qed.
Lemma malloc_big s p size r d s' q : inv hr max s p -> freshDesc p d -> malloc s size r d = Ok (s', q) ->
  hBig s' = hBig s /\ hNumBig s' = hNumBig s /\ hBigThresh s' = hBigThresh s /\ hMaxBig s' = hMaxBig s /\ (forall x, In x (hBig s) -> hDescs s' x = hDescs s x).
Proof.
  intros I D E. unfold malloc in E. rewrite (inv_use hr max s p I) in E. cbn [bind] in E. destruct (buildAlloc (counts s 1 0 0 0) r r size d) as [t| | |] eqn:Eb; cbn [bind] in E; try discriminate. injection E as <- _.
  exact (build_big (counts s 1 0 0 0) p r r size d t (inv_counts hr max s p 1 0 0 0 I) D Eb).
Qed.
Lemma step_big s p e r p' s' q : inv hr max s p -> bigInv s p -> okEv hr max p e r p' -> hstep hr s e = Ok (s', q) -> bigInv s' p'.
Proof.
  intros I B Ev E.
  destruct Ev as [p size rr d Hs F D S|p al size rr d Ha Hs F D S|p n size rr d Hs F D S|p|p l1 b l2 El|p size rr d Hs F D S|p b size rr d Hb Hs|p l1 b l2 size rr d El Hs F D S|p b a v Hb Ha]; cbn [hstep] in E.
  - destruct (malloc_big s p size rr d s' q I D E) as (E1 & E2 & E3 & E4 & E5). apply (described_keep s s' p B E1 E2 E3 E4 E5). reflexivity.
  - unfold alignedAlloc in E. rewrite (inv_use hr max s p I) in E. cbn [bind] in E. replace (al =? 0) with false in E by lia. cbv zeta in E.
    destruct (buildAlloc (counts s 0 0 1 0) rr _ size d) as [t| | |] eqn:Eb; cbn [bind] in E; try discriminate. injection E as <- _.
    destruct (build_big (counts s 0 0 1 0) p _ _ _ _ t (inv_counts hr max s p 0 0 1 0 I) D Eb) as (E1 & E2 & E3 & E4 & E5). apply (described_keep s t p B E1 E2 E3 E4 E5). reflexivity.
  - unfold calloc in E. rewrite (inv_use hr max s p I) in E. cbn [bind] in E. destruct (malloc (counts s 0 0 1 0) (u64 (size * n)) rr d) as [[t u]| | |] eqn:Em; cbn [bind] in E; try discriminate. injection E as <- _.
    destruct (malloc_big _ p _ _ _ t u (inv_counts hr max s p 0 0 1 0 I) D Em) as (E1 & E2 & E3 & E4 & E5). apply (described_keep s _ p B E1 E2 E3 E4 E5). reflexivity.
  - injection E as <- _. exact B.
  - destruct (free hr s (bPtr b)) as [t| | |] eqn:Ef; cbn [bind] in E; try discriminate. injection E as <- _. exact (free_big s p l1 b l2 t I El B Ef).
  - unfold realloc in E. rewrite (inv_use hr max s p I) in E. cbn [bind Z.eqb] in E.
    destruct (malloc_big _ p _ _ _ s' q (inv_counts hr max s p 0 0 0 1 I) D E) as (E1 & E2 & E3 & E4 & E5). apply (described_keep s s' p B E1 E2 E3 E4 E5). reflexivity.
  - pose proof (inv_layout hr max s p b I ltac:(apply in_or_app; now left)) as (L1 & L2 & L3 & L4). unfold realloc in E. rewrite (inv_use hr max s p I) in E. cbn [bind] in E. replace (bPtr b =? 0) with false in E by lia. destruct (inv_mem hr max s p b I Hb) as (id & ser & Hl & Ed).
    cbn [counts hMem hDescs] in E. rewrite (linked_ptr _ _ _ _ _ Hl) in E. unfold withDesc in E. cbn [counts hDescs] in E. rewrite Ed in E. cbn [dLen] in E. replace (bSize b >=? size) with true in E by lia. injection E as <- _. exact B.
  - assert (Hb : In b (spLive p)) by (rewrite El; apply in_or_app; right; now left). pose proof (inv_layout hr max s p b I ltac:(apply in_or_app; now left)) as (L1 & L2 & L3 & L4). unfold realloc in E. rewrite (inv_use hr max s p I) in E. cbn [bind] in E. replace (bPtr b =? 0) with false in E by lia. destruct (inv_mem hr max s p b I Hb) as (id & ser & Hl & Ed).
    set (s0 := counts s 0 0 0 1) in *. assert (I0 : inv hr max s0 p) by (apply inv_counts; exact I). cbv zeta in E.
    change (hMem s0) with (hMem s) in E at 1. rewrite (linked_ptr _ _ _ _ _ Hl) in E. unfold withDesc at 1 in E. change (hDescs s0) with (hDescs s) in E. rewrite Ed in E. cbn [dLen] in E. replace (bSize b >=? size) with false in E by lia.
    destruct (malloc_ok hr max s0 p size rr d I0 ltac:(lia) F D S) as (s1 & E1 & Is & M). rewrite E1 in E. cbn [bind] in E.
    destruct (malloc_big s0 p size rr d s1 _ I0 D E1) as (F1 & F2 & F3 & F4 & F5).
    assert (B1 : bigInv s1 (addBlock p (mallocBlk size rr) d)) by (apply (described_keep s0 s1 p B F1 F2 F3 F4 F5); reflexivity).
    destruct (inv_mem hr max s1 _ b Is ltac:(now right)) as (id1 & ser1 & Hl1 & Ed1). rewrite (linked_ptr _ _ _ _ _ Hl1) in E. unfold withDesc in E. rewrite Ed1 in E. cbn [dLen] in E. replace (bSize b <? size) with true in E by lia.
    set (m2 := put (hMem s1) (rr + 16) (get (hMem s1) (bPtr b) (Z.to_nat (bSize b)))) in *.
    assert (Zg : zlen (get (hMem s1) (bPtr b) (Z.to_nat (bSize b))) = bSize b) by (unfold zlen, get; rewrite map_length, seq_length; lia).
    assert (Hout : forall x, ~ (rr + 16 <= x < rr + 16 + size) -> m2 x = hMem s1 x) by (intros x Hx; unfold m2; apply put_out; lia).
    assert (I2 : inv hr max (setMem s1 m2) (addBlock p (mallocBlk size rr) d)) by (apply (write_ok hr max s1 _ (mallocBlk size rr)); [exact Is|now left|exact Hout]).
    destruct (free hr (setMem s1 m2) (bPtr b)) as [t| | |] eqn:Ef; cbn [bind] in E; try discriminate. injection E as <- _.
    pose proof (free_big (setMem s1 m2) _ (mallocBlk size rr :: l1) b l2 t I2 ltac:(cbn [addBlock spLive app]; now rewrite El) B1 Ef) as X. exact X.
  - injection E as <- _. exact B.
Qed.
Lemma run_big es : forall s p p' s', inv hr max s p -> bigInv s p -> okRun hr max p es p' -> hrun hr s es = Ok s' -> inv hr max s' p' /\ bigInv s' p'.
Proof.
  induction es as [|e es IH]; intros s p p' s' I B R E; inversion R as [|? ? ? ? ? ? Ev R']; subst; [injection E as <-; auto|].
  destruct (step_ok hr max s p e _ _ I Ev) as (s1 & E1 & I1 & _). cbn [hrun] in E. rewrite E1 in E. cbn [bind] in E. pose proof (step_big s p e _ _ s1 _ I B Ev E1) as B1. exact (IH s1 _ p' s' I1 B1 R' E).
Qed.
Lemma big_init m level : bigInv (hinit m (Z.of_nat max) level false bt mb 0) spInit.
Proof. unfold bigInv, hinit, spInit, bigOnes, gone. cbn [hBig hDescs hNumBig hBigThresh hMaxBig spFreed length Nat.sub firstn filter]. rewrite firstn_nil. repeat split; constructor. Qed.
End Big.
