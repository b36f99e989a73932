(** Lemmas about Reader.v. *)
From Verif Require Import Base Reader ReaderSpec.

Lemma prefix_window src o l off n : 0 <= off ->
  prefix (window src o l) off n =
  prefix src (o + off) (Z.to_nat (Z.min (Z.of_nat n) (Z.max 0 (l - off)))).
Proof.
  revert off; induction n as [|n IH]; intros off H; cbn [prefix].
  - replace (Z.min (Z.of_nat 0) (Z.max 0 (l - off))) with 0 by lia. reflexivity.
  - unfold window at 1. destruct (off <? l) eqn:E.
    + replace (0 <=? off) with true by lia. cbn [andb].
      replace (Z.to_nat (Z.min (Z.of_nat (S n)) (Z.max 0 (l - off))))
        with (S (Z.to_nat (Z.min (Z.of_nat n) (Z.max 0 (l - (off + 1)))))) by lia.
      cbn [prefix]. destruct (src (o + off)); [|reflexivity]. f_equal.
      rewrite IH by lia. f_equal. lia.
    + rewrite andb_false_r.
      replace (Z.min (Z.of_nat (S n)) (Z.max 0 (l - off))) with 0 by lia. reflexivity.
Qed.

(** ** Memory reader *)
Lemma mem_read_exact m base size off count :
  0 <= base -> 0 <= size -> base + size <= W64 ->
  (forall a, base <= a < base + size -> m a <> None) ->
  0 <= off < W64 -> 0 <= count < W64 ->
  (size < off -> rread m (RMem base size) off count = Throw) /\
  (off <= size ->
     exists bs, rread m (RMem base size) off count = Ok bs /\
       zlen bs = Z.min count (size - off) /\
       forall k, 0 <= k < zlen bs -> znth k bs = m (base + off + k)).
Proof.
  intros Hb Hs Hbs Hm Hoff Hc. cbn [rread]. split.
  - intros H. replace (off >? size) with true by lia. reflexivity.
  - intros H. replace (off >? size) with false by lia.
    destruct (Z.eq_dec off size) as [->|Hne].
    + replace (Z.min count (size - size)) with 0 by lia. cbn [Z.to_nat memread].
      exists []. split; [easy|]. split; [change (zlen (@nil Z)) with 0; lia|]. intros k Hk; change (zlen (@nil Z)) with 0 in Hk; lia.
    + rewrite u64_id by (unfold isU64; lia).
      destruct (memread_all m (base + off) (Z.to_nat (Z.min count (size - off)))) as [bs E].
      { intros k Hk. apply Hm. lia. }
      rewrite E. exists bs. destruct (memread_prefix _ _ _ _ E) as [Hp Hl].
      split; [easy|]. split; [unfold zlen; lia|].
      intros k Hk. apply prefix_spec in Hp. destruct Hp as (_ & Hp & _).
      destruct (znth_lt k bs Hk) as [b Hb']. rewrite Hb'.
      rewrite znth_nth_error in Hb' by lia. apply Hp in Hb'. symmetry; etransitivity; [|exact Hb']. f_equal. lia.
Qed.

Lemma mem_serves m base size :
  0 <= base -> 0 <= size -> base + size <= W64 ->
  (forall a, base <= a < base + size -> m a <> None) ->
  serves (rread m (RMem base size)) (window m base size).
Proof.
  intros Hb Hs Hbs Hm off count Ho Hc Hoc. cbn [rread].
  rewrite prefix_window by lia. rewrite Z2Nat.id by lia.
  destruct (off >? size) eqn:E.
  - right. split; [easy|].
    replace (Z.min count (Z.max 0 (size - off))) with 0 by lia. reflexivity.
  - left. destruct (Z.eq_dec off size) as [->|Hne].
    + replace (Z.min count (size - size)) with 0 by lia.
      replace (Z.min count (Z.max 0 (size - size))) with 0 by lia. reflexivity.
    + rewrite u64_id by (unfold isU64; lia).
      replace (Z.max 0 (size - off)) with (size - off) by lia.
      destruct (memread_all m (base + off) (Z.to_nat (Z.min count (size - off)))) as [bs E'].
      { intros k Hk. apply Hm. lia. }
      rewrite E'. now destruct (memread_prefix _ _ _ _ E') as [-> _].
Qed.

Lemma file_serves m c : zlen c <= W64 / 2 -> serves (rread m (RFile c)) (ofList c).
Proof.
  intros Hc off count Ho Hcn Hoc. cbn [rread]. rewrite prefix_ofList by lia.
  rewrite Z2Nat.id by lia.
  destruct (off >=? W64 / 2) eqn:E; [right|left; reflexivity].
  split; [easy|]. rewrite zdrop_all by lia. reflexivity.
Qed.

Lemma offset_serves m up src o l :
  serves (rread m up) src -> 0 <= o -> 0 <= l -> o + l < W64 ->
  serves (rread m (ROffset up o l)) (window src o l).
Proof.
  intros Hs Ho Hl Hol off count Hoff Hc Hoc. cbn [rread].
  rewrite prefix_window by lia. rewrite Z2Nat.id by lia.
  destruct (off >? l) eqn:E.
  - right. split; [easy|]. replace (Z.min count (Z.max 0 (l - off))) with 0 by lia. reflexivity.
  - rewrite (u64_id (off + count)) by (unfold isU64; lia).
    rewrite (u64_id (off + o)) by (unfold isU64; lia).
    set (c' := if off + count >? l then l - off else count).
    assert (Hc' : c' = Z.min count (Z.max 0 (l - off))).
    { unfold c'. destruct (off + count >? l) eqn:?; lia. }
    rewrite Hc'. replace (off + o) with (o + off) by lia. apply Hs; lia.
Qed.

Lemma offset_throws_iff m up o l off count :
  l < off -> rread m (ROffset up o l) off count = Throw.
Proof. intros H. cbn [rread]. replace (off >? l) with true by lia. reflexivity. Qed.

(** ** Well-formed reader trees and views of views *)
Fixpoint wf (m : memory) (r : reader) : Prop :=
  match r with
  | RMem b s => 0 <= b /\ 0 <= s /\ b + s <= W64 /\ s < W64 /\ forall a, b <= a < b + s -> m a <> None
  | RFile c => zlen c <= W64 / 2
  | RNull => True
  | ROffset up o l => wf m up /\ 0 <= o /\ 0 <= l /\ o + l <= rsize up
  end.
(** The bytes a reader stands for. *)
Fixpoint denotes (m : memory) (r : reader) : memory :=
  match r with
  | RMem b s => window m b s
  | RFile c => ofList c
  | RNull => fun _ => None
  | ROffset up o l => window (denotes m up) o l
  end.

Lemma prefix_none n a : prefix (fun _ => None) a n = [].
Proof. destruct n; reflexivity. Qed.

Lemma wf_size m r : wf m r -> 0 <= rsize r < W64.
Proof.
  induction r as [b s|c| |up IH o l]; cbn [wf rsize].
  - lia.
  - pose proof (zlen_nonneg c). unfold W64 in *. lia.
  - unfold W64; lia.
  - intros (H & ? & ? & ?). specialize (IH H). lia.
Qed.

Lemma wf_serves m r : wf m r -> serves (rread m r) (denotes m r).
Proof.
  induction r as [b s|c| |up IH o l]; cbn [wf denotes].
  - intros (?&?&?&?&?). now apply mem_serves.
  - apply file_serves.
  - intros _ off count _ _ _. right. split; [reflexivity|]. apply prefix_none.
  - intros (H & ? & ? & ?). apply offset_serves; auto. pose proof (wf_size _ _ H). lia.
Qed.

Lemma wf_view m r : forall off len, wf m r -> 0 <= off -> 0 <= len -> off + len <= rsize r ->
  wf m (rview r off len) /\ rsize (rview r off len) = len /\
  forall a, denotes m (rview r off len) a = window (denotes m r) off len a.
Proof.
  induction r as [b s|c| |up IH o l]; intros off len Hwf Ho Hl Hol;
    pose proof (wf_size _ _ Hwf) as Hsz; cbn [wf rview rsize] in *.
  - destruct Hwf as (?&?&?&?&Hm).
    assert (Hcase : b + off < W64 \/ (b + off = W64 /\ len = 0)) by lia.
    destruct Hcase as [Hlt|[Heq ->]].
    + rewrite u64_id by (unfold isU64; lia). cbn [wf rsize denotes].
      repeat split; try lia. { intros a Ha. apply Hm; lia. }
      intros a. unfold window. destruct ((0 <=? a) && (a <? len)) eqn:E; [|reflexivity].
      replace ((0 <=? off + a) && (off + a <? s)) with true by lia. f_equal; lia.
    + rewrite Heq. cbn [wf rsize denotes]. unfold u64. rewrite Z_mod_same_full.
      repeat split; try (unfold W64; lia).
      intros a. unfold window. replace ((0 <=? a) && (a <? 0)) with false by lia. reflexivity.
  - unfold mkOffset. cbn [rsize]. pose proof (zlen_nonneg c).
    replace (len =? offMax) with false by (unfold offMax, W64 in *; lia).
    cbn [wf rsize denotes]. repeat split; auto.
  - unfold mkOffset. cbn [rsize].
    replace (len =? offMax) with false by (unfold offMax, W64 in *; lia).
    cbn [wf rsize denotes]. repeat split; auto.
  - destruct Hwf as (Hwf & Ho' & Hl' & Hol').
    pose proof (wf_size _ _ Hwf).
    cbn [denotes].
    assert (Hcase : o + off < W64) by lia.
    rewrite (u64_id (o + off)) by (unfold isU64; lia).
    destruct (IH (o + off) len Hwf) as (H1 & H2 & H3); try lia.
    repeat split; auto. intros a. rewrite H3. unfold window.
    destruct ((0 <=? a) && (a <? len)) eqn:E; [|reflexivity].
    replace ((0 <=? off + a) && (off + a <? l)) with true by lia. f_equal; lia.
Qed.

Lemma serves_ext rd s1 s2 : (forall a, s1 a = s2 a) -> serves rd s1 -> serves rd s2.
Proof.
  intros H Hs off count H1 H2 H3. rewrite <- (prefix_ext s1 s2) by (intros; apply H).
  apply Hs; assumption.
Qed.

(** A chain of views, each inside its parent. *)
Fixpoint viewChain (r : reader) (ws : list (Z * Z)) : reader :=
  match ws with
  | [] => r
  | (o, l) :: rest => viewChain (rview r o l) rest
  end.
Fixpoint windowChain (src : memory) (ws : list (Z * Z)) : memory :=
  match ws with
  | [] => src
  | (o, l) :: rest => windowChain (window src o l) rest
  end.
Fixpoint chainInside (size : Z) (ws : list (Z * Z)) : Prop :=
  match ws with
  | [] => True
  | (o, l) :: rest => 0 <= o /\ 0 <= l /\ o + l <= size /\ chainInside l rest
  end.
Lemma windowChain_ext ws : forall s1 s2, (forall a, s1 a = s2 a) -> forall a, windowChain s1 ws a = windowChain s2 ws a.
Proof.
  induction ws as [|[o l] ws IH]; intros s1 s2 H a; cbn [windowChain]; [apply H|].
  apply IH. intros b. unfold window. now rewrite H.
Qed.
Lemma viewChain_wf m ws : forall r, wf m r -> chainInside (rsize r) ws ->
  wf m (viewChain r ws) /\ forall a, denotes m (viewChain r ws) a = windowChain (denotes m r) ws a.
Proof.
  induction ws as [|[o l] ws IH]; intros r Hwf Hc; cbn [viewChain windowChain chainInside] in *.
  - split; [exact Hwf|easy].
  - destruct Hc as (H1 & H2 & H3 & H4).
    destruct (wf_view m r o l Hwf H1 H2 H3) as (Hw & Hs & Hd).
    destruct (IH (rview r o l) Hw) as [Hw' Hd'].
    { rewrite Hs. exact H4. }
    split; [exact Hw'|]. intros a. rewrite Hd'. now apply windowChain_ext.
Qed.
Lemma viewChain_serves m r ws : wf m r -> chainInside (rsize r) ws ->
  serves (rread m (viewChain r ws)) (windowChain (denotes m r) ws).
Proof.
  intros H1 H2. destruct (viewChain_wf m ws r H1 H2) as [Hw Hd].
  eapply serves_ext; [exact Hd|]. apply wf_serves, Hw.
Qed.

(** ** readString *)
Lemma untilNul_app_nonul l1 l2 : (forall x, In x l1 -> x <> 0) -> untilNul (l1 ++ l2) = l1 ++ untilNul l2.
Proof.
  induction l1 as [|x l1 IH]; intros H; [reflexivity|]. cbn [app untilNul].
  destruct (x =? 0) eqn:E. { exfalso; apply (H x); [now left|lia]. }
  f_equal. apply IH. intros; apply H; now right.
Qed.

(** over a reader that never fails inside its size *)
Lemma readStringLoop_prefix rd src size :
  (forall off, 0 <= off < size -> rd off 1 = Ok (prefix src off 1)) ->
  forall fuel off, 0 <= off -> (Z.to_nat (size - off) < fuel)%nat ->
  readStringLoop fuel rd off size = Ok (untilNul (prefix src off (Z.to_nat (size - off)))).
Proof.
  intros Hrd fuel; induction fuel as [|f IH]; intros off Hoff Hf; [lia|].
  cbn [readStringLoop]. destruct (off <? size) eqn:E.
  - rewrite Hrd by lia. cbn [prefix bind].
    replace (Z.to_nat (size - off)) with (S (Z.to_nat (size - (off + 1)))) by lia.
    cbn [prefix]. destruct (src off) as [c|]; [|reflexivity].
    cbn [untilNul]. destruct (c =? 0); [reflexivity|].
    rewrite IH by lia. reflexivity.
  - replace (Z.to_nat (size - off)) with 0%nat by lia. reflexivity.
Qed.

Lemma file_readString m c off fuel : 0 < off < W64 -> zlen c <= W64 / 2 ->
  (length c < fuel)%nat ->
  rstring fuel m (RFile c) off = Ok (untilNul (zdrop off c)).
Proof.
  intros Ho Hc Hf. cbn [rstring]. unfold readStringGen.
  replace (off =? 0) with false by lia. cbn [rsize].
  rewrite readStringLoop_prefix with (src := ofList c).
  - rewrite prefix_ofList by lia. f_equal. f_equal.
    destruct (Z_le_dec (zlen c) off).
    + rewrite zdrop_all by lia. reflexivity.
    + rewrite Z2Nat.id by lia. apply ztake_all. rewrite zlen_zdrop by lia. lia.
  - intros o Hoo. cbn [rread]. replace (o >=? W64 / 2) with false by lia.
    rewrite prefix_ofList by lia. reflexivity.
  - lia.
  - unfold zlen. lia.
Qed.

Lemma cstring_spec m : forall fuel a s, cstring fuel m a = Ok s <->
  (length s < fuel)%nat /\ (forall k b, nth_error s k = Some b -> m (a + Z.of_nat k) = Some b /\ b <> 0) /\
  m (a + Z.of_nat (length s)) = Some 0.
Proof.
  induction fuel as [|f IH]; intros a s; cbn [cstring].
  - split; [discriminate|]. intros (H & _). lia.
  - destruct (m a) as [c|] eqn:E.
    + destruct (c =? 0) eqn:Ec.
      * split.
        -- intros H; inversion H; subst; cbn. repeat split; [lia| | |].
           1,2: destruct k; discriminate. rewrite Z.add_0_r, E. f_equal; lia.
        -- intros (_ & H & _). destruct s as [|x s]; [easy|].
           destruct (H 0%nat x eq_refl) as [H1 H2]. rewrite Z.add_0_r in H1. rewrite E in H1. inversion H1. lia.
      * split.
        -- destruct (cstring f m (a + 1)) as [r| | |] eqn:Er; cbn [bind]; try discriminate.
           intros H; inversion H; subst. destruct (proj1 (IH (a+1) r) Er) as (H1 & H2 & H3).
           repeat split; [cbn; lia| | |].
           ++ destruct k as [|k]; cbn in H0; [inversion H0; subst; now rewrite Z.add_0_r|].
              destruct (H2 k b H0) as [Hx _]. rewrite <- Hx. f_equal; lia.
           ++ destruct k as [|k]; cbn in H0; [inversion H0; subst; lia|]. now destruct (H2 k b H0).
           ++ cbn [length]. rewrite <- H3. f_equal; lia.
        -- intros (H1 & H2 & H3). destruct s as [|x s].
           { cbn in H3. rewrite Z.add_0_r, E in H3. inversion H3. lia. }
           destruct (H2 0%nat x eq_refl) as [Hx _]. rewrite Z.add_0_r, E in Hx. inversion Hx; subst.
           rewrite (proj2 (IH (a+1) s)); [reflexivity|].
           repeat split; [cbn in H1; lia| | |].
           ++ destruct (H2 (S k) b H) as [Hy _]. rewrite <- Hy; f_equal; lia.
           ++ now destruct (H2 (S k) b H).
           ++ cbn [length] in H3. rewrite <- H3. f_equal; lia.
    + split; [discriminate|]. intros (_ & H & H3). destruct s as [|x s].
      * cbn in H3. rewrite Z.add_0_r in H3. congruence.
      * destruct (H 0%nat x eq_refl) as [Hx _]. rewrite Z.add_0_r in Hx. congruence.
Qed.

(** ** readObj *)
Lemma readObj_all rd sz off count bs :
  0 <= sz -> 0 <= count -> count * sz < W64 ->
  readObj rd sz off count = Ok bs ->
  zlen bs = count * sz /\ (count <> 0 -> rd off (count * sz) = Ok bs).
Proof.
  intros Hsz Hc Hw. unfold readObj. destruct (count =? 0) eqn:E.
  - intros H; inversion H; subst. replace count with 0 by lia. split; [reflexivity|lia].
  - rewrite u64_id by (unfold isU64; lia).
    destruct (rd off (count * sz)) as [b| | |] eqn:Er; cbn [bind]; try discriminate.
    destruct (zlen b =? count * sz) eqn:El; [|discriminate].
    intros H; inversion H; subst. split; [lia|reflexivity].
Qed.

Lemma readObj_serves rd src sz off count :
  serves rd src -> 0 <= off -> 0 < sz -> 0 < count -> off + count * sz < W64 ->
  readObj rd sz off count =
    match memread src off (Z.to_nat (count * sz)) with Some bs => Ok bs | None => Throw end.
Proof.
  intros Hs Ho Hsz Hc Hw. unfold readObj. replace (count =? 0) with false by lia.
  rewrite u64_id by (unfold isU64; nia).
  assert (Hcase : forall n a bs, prefix src a n = bs ->
     match memread src a n with Some b => bs = b /\ length bs = n | None => (length bs < n)%nat end).
  { clear. induction n as [|n IH]; intros a bs; cbn [prefix memread]; [intros <-; now split|].
    destruct (src a) as [b|]; [|intros <-; cbn; lia].
    intros <-. specialize (IH (a+1) _ eq_refl). destruct (memread src (a+1) n).
    - destruct IH as [-> <-]. now split.
    - cbn; lia. }
  specialize (Hcase (Z.to_nat (count * sz)) off _ eq_refl).
  destruct (Hs off (count * sz)) as [E|[E Hp]]; try nia; rewrite E; cbn [bind].
  - destruct (memread src off (Z.to_nat (count * sz))) as [b|].
    + destruct Hcase as [<- Hl]. unfold zlen. replace (_ =? _) with true by nia. reflexivity.
    + unfold zlen. replace (_ =? _) with false by nia. reflexivity.
  - rewrite Hp in Hcase. destruct (memread src off (Z.to_nat (count * sz))) as [b|]; [|reflexivity].
    destruct Hcase as [<- Hl]. cbn in Hl. nia.
Qed.
