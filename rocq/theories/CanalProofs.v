From Verif Require Import Base Canal CanalSpec.

Definition text (l : list Z) : Prop := Forall (fun c => c <> 0) l.
(** ** glob *)
Lemma star_inv p n : matches (42 :: p) n -> matches p n \/ exists d n', n = d :: n' /\ matches (42 :: p) n'.
Proof.
  intros H. inversion H as [|c p' n' Hc|s p' n' H']; subst; [congruence|]. destruct s as [|d s]; [now left|]. right. exists d, (s ++ n'). split; [reflexivity|now constructor].
Qed.
Lemma star_cons p d n : matches (42 :: p) n -> matches (42 :: p) (d :: n).
Proof. intros H. inversion H as [|c p' n' Hc|s p' n' H']; subst; [congruence|]. apply (MStar (d :: s)). exact H'. Qed.
Lemma star_here p n : matches p n -> matches (42 :: p) n.
Proof. intros H. apply (MStar []). exact H. Qed.
Lemma glob_spec : forall p n, text p -> text n ->
  (forall k, (length p * (length n + 2) + length n + 3 <= k)%nat -> exists b, globR k (p ++ [0]) (n ++ [0]) = Ok b /\ (b = true <-> matches p n)).
Proof.
  induction p as [|c p IH]; intros n Hp Hn k Hk.
  - destruct k as [|k]; [lia|]. cbn [globR app]. cbn [Z.eqb]. destruct n as [|d n]; cbn [app].
    + cbn [Z.eqb negb]. exists true. split; [reflexivity|]. split; [constructor|reflexivity].
    + inversion Hn; subst. replace (d =? 0) with false by lia. cbn [negb]. exists false. split; [reflexivity|]. split; [discriminate|]. intros H. inversion H.
  - inversion Hp as [|? ? Hc Hp']; subst. destruct k as [|k]; [lia|]. cbn [globR app]. destruct (c =? 42) eqn:E.
    + assert (c = 42) by lia. subst c. clear E Hc Hp. cbn [length Nat.mul] in Hk. assert (Hk' : (length p * (length n + 2) + length n + 3 + length n + 1 <= k)%nat) by lia. clear Hk. 
      revert k Hk'. induction n as [|d n IHn]; intros k Hk; (destruct k as [|k]; [lia|]).
      * cbn [globStar app]. destruct (IH [] Hp' Hn k) as (b & Eb & Hb); [cbn [length] in *; lia|]. cbn [app] in Eb. rewrite Eb. cbn [bind]. destruct b.
        -- exists true. split; [reflexivity|]. split; [intros _; apply star_here, Hb; reflexivity|reflexivity].
        -- exists false. split; [reflexivity|]. split; [discriminate|]. intros H. apply star_inv in H. destruct H as [H|(x & y & H & _)]; [|discriminate]. now apply Hb.
      * cbn [globStar app]. destruct (IH (d :: n) Hp' Hn k) as (b & Eb & Hb); [cbn [length] in *; lia|]. cbn [app] in Eb. rewrite Eb. cbn [bind]. destruct b.
        -- exists true. split; [reflexivity|]. split; [intros _; apply star_here, Hb; reflexivity|reflexivity].
        -- inversion Hn as [|? ? Hd Hn']; subst. replace (d =? 0) with false by lia. destruct (IHn Hn' k) as (b & Eb' & Hb'); [cbn [length] in *; lia|]. exists b. split; [exact Eb'|].
           rewrite Hb'. split; [apply star_cons|]. intros H. apply star_inv in H. destruct H as [H|(x & y & H & H')]; [apply Hb in H; discriminate|]. congruence.
    + destruct n as [|d n]; cbn [app].
      * replace (0 =? c) with false by lia. cbn [negb]. exists false. split; [reflexivity|]. split; [discriminate|]. intros H. inversion H; subst. lia.
      * inversion Hn as [|? ? Hd Hn']; subst. destruct (d =? c) eqn:Ed; cbn [negb].
        -- replace (c =? 0) with false by lia. destruct (IH n Hp' Hn' k) as (b & Eb & Hb); [cbn [length] in *; lia|]. exists b. split; [exact Eb|]. rewrite Hb. replace d with c by lia. split.
           ++ constructor; [lia|assumption].
           ++ intros H. inversion H; subst; [assumption|lia].
        -- exists false. split; [reflexivity|]. split; [discriminate|]. intros H. inversion H; subst; lia.
Qed.

(** ** the store *)
Definition ends (y : lsym) : Z := lsValue y + lsBase y + lsSize y.
Definition starts (y : lsym) : Z := lsValue y + lsBase y.
Definition symOk (y : lsym) : Prop := 0 <= lsValue y /\ 0 <= lsBase y /\ 0 <= lsSize y /\ ends y < W64.
Lemma memaddr_ok y : symOk y -> memaddr y = starts y.
Proof. unfold symOk, memaddr, starts, ends. intros. apply u64_id. unfold isU64. lia. Qed.
Lemma key_ok y : symOk y -> u64 (memaddr y + lsSize y) = ends y.
Proof. intros H. rewrite memaddr_ok by exact H. unfold symOk, starts, ends in *. apply u64_id. unfold isU64. lia. Qed.

Fixpoint sorted (s : store) : Prop := match s with [] => True | (k, _) :: r => (forall e, In e r -> k < fst e) /\ sorted r end.
Lemma emplace_in k v s e : In e (emplace k v s) -> e = (k, v) \/ In e s.
Proof. induction s as [|(k', v') r IH]; cbn [emplace In]; [intuition congruence|]. destruct (k <? k'); [cbn [In]; intuition congruence|]. destruct (k =? k'); [cbn [In]; tauto|]. cbn [In]. intuition. Qed.
Lemma emplace_old k v s e : In e s -> In e (emplace k v s).
Proof. induction s as [|(k', v') r IH]; cbn [emplace In]; [tauto|]. intros H. destruct (k <? k'); [now right|]. destruct (k =? k'); [exact H|]. cbn [In]. tauto. Qed.
Lemma emplace_new k v s : exists v', In (k, v') (emplace k v s) /\ ((forall e, In e s -> fst e <> k) -> v' = v).
Proof.
  induction s as [|(k', v') r IH]; cbn [emplace In]; [eauto|]. destruct (k <? k') eqn:E1; [exists v; cbn [In]; auto|]. destruct (k =? k') eqn:E2.
  - exists v'. replace k with k' by lia. split; [now left|]. intros H. exfalso. apply (H (k', v')); [now left|reflexivity].
  - destruct IH as (w & A & B). exists w. split; [now right|]. intros H. apply B. intros e He. apply H. now right.
Qed.
Lemma emplace_sorted k v s : sorted s -> sorted (emplace k v s).
Proof.
  induction s as [|(k', v') r IH]; cbn [emplace sorted]; [intros _; cbn; tauto|]. intros (A & B). destruct (k <? k') eqn:E1.
  - cbn [sorted]. split; [|now split]. intros e [<-|He]; cbn [fst]; [lia|]. specialize (A e He). lia.
  - destruct (k =? k') eqn:E2; [now split|]. cbn [sorted]. split; [|auto]. intros e He. apply emplace_in in He. destruct He as [-> |He]; cbn [fst]; [lia|auto].
Qed.
Definition build (ys : list lsym) : store := fold_left storeAdd ys [].
Lemma build_gen ys : forall s, sorted s -> Forall symOk ys ->
  let t := fold_left storeAdd ys s in
  sorted t /\ (forall e, In e t -> In e s \/ exists y, In y ys /\ e = (ends y, (y, 0))) /\ (forall e, In e s -> In e t) /\
  (forall y, In y ys -> exists v, In (ends y, v) t).
Proof.
  induction ys as [|y ys IH]; intros s Hs Ho t; cbn [fold_left] in t; subst t; [cbn [In]; tauto|]. inversion Ho as [|? ? O1 O2]; subst. assert (Es : storeAdd s y = emplace (ends y) (y, 0) s) by (unfold storeAdd; now rewrite key_ok). rewrite Es. clear Es.
  destruct (IH (emplace (ends y) (y, 0) s)) as (A & B & C & D); [now apply emplace_sorted|exact O2|]. split; [exact A|]. split; [|split].
  - intros e He. destruct (B e He) as [H|(z & Hz & ->)]; [|right; exists z; split; [now right|reflexivity]]. apply emplace_in in H. destruct H as [-> |H]; [right; exists y; split; [now left|reflexivity]|now left].
  - intros e He. apply C, emplace_old, He.
  - intros z [<-|Hz]; [|auto]. destruct (emplace_new (ends y) (y, 0) s) as (v & Hv & _). exists v. now apply C.
Qed.
Lemma build_spec ys : Forall symOk ys -> sorted (build ys) /\ (forall e, In e (build ys) -> exists y, In y ys /\ e = (ends y, (y, 0))) /\ (forall y, In y ys -> exists v, In (ends y, v) (build ys)).
Proof.
  intros H. destruct (build_gen ys [] I H) as (A & B & _ & D). split; [exact A|]. split; [|exact D]. intros e He. destruct (B e He) as [F|F]; [contradiction|exact F].
Qed.
Lemma lb_some a s e : sorted s -> mapLowerBound a s = Some e -> In e s /\ a <= fst e /\ forall e', In e' s -> a <= fst e' -> fst e <= fst e'.
Proof.
  induction s as [|(k, v) r IH]; cbn [mapLowerBound sorted]; [discriminate|]. intros (A & B) H. destruct (k <? a) eqn:E.
  - destruct (IH B H) as (I1 & I2 & I3). split; [now right|]. split; [exact I2|]. intros e' [<-|He] L; [cbn [fst] in L; lia|auto].
  - injection H as <-. split; [now left|]. cbn [fst]. split; [lia|]. intros e' [<-|He] L; [cbn [fst]; lia|]. specialize (A e' He). lia.
Qed.
Lemma lb_none a s e : mapLowerBound a s = None -> In e s -> fst e < a.
Proof. induction s as [|(k, v) r IH]; cbn [mapLowerBound In]; [tauto|]. destruct (k <? a) eqn:E; [|discriminate]. intros H [<-|He]; cbn [fst]; [lia|auto]. Qed.
Lemma sorted_key s k v v' : sorted s -> In (k, v) s -> In (k, v') s -> v = v'.
Proof.
  induction s as [|(k0, v0) r IH]; cbn [sorted In]; [tauto|]. intros (A & B) [H1|H1] [H2|H2]; [congruence| | |auto].
  - specialize (A _ H2). cbn [fst] in A. injection H1 as -> ->. lia.
  - specialize (A _ H1). cbn [fst] in A. injection H2 as -> ->. lia.
Qed.

(** Sound for every store. *)
Lemma find_sound ys a k y : Forall symOk ys -> storeFind matchFree (build ys) a = Some (k, y) -> In y ys /\ starts y <= a < ends y.
Proof.
  intros Ho H. destruct (build_spec ys Ho) as (A & B & C). unfold storeFind in H. destruct (mapLowerBound a (build ys)) as [[k' [y' n]]|] eqn:E; [|discriminate].
  destruct (matchFree a y') eqn:Em; [|discriminate]. injection H as <- <-. destruct (lb_some _ _ _ A E) as (I1 & _). destruct (B _ I1) as (z & Hz & Ez). injection Ez as -> -> ->. rewrite Forall_forall in Ho. pose proof (Ho z Hz) as Oz.
  split; [exact Hz|]. unfold matchFree in Em. rewrite key_ok, memaddr_ok in Em by exact Oz. lia.
Qed.
(** the entry whose end is the least not below [a] *)
Lemma find_at ys a y (m : Z -> lsym -> bool) : Forall symOk ys -> In y ys -> a <= ends y -> (forall z, In z ys -> a <= ends z -> ends y <= ends z) ->
  exists y', In y' ys /\ ends y' = ends y /\ In (ends y, (y', 0)) (build ys) /\ storeFind m (build ys) a = if m a y' then Some (ends y, y') else None.
Proof.
  intros Ho Hy Ha Hmin. destruct (build_spec ys Ho) as (A & B & C). destruct (C y Hy) as (v & Hv). destruct (B _ Hv) as (y' & Hy' & Ev). injection Ev as E1 E2. subst v.
  destruct (mapLowerBound a (build ys)) as [[k [z n]]|] eqn:E.
  - destruct (lb_some _ _ _ A E) as (I1 & I2 & I3). cbn [fst] in *. destruct (B _ I1) as (z' & Hz & Ez). injection Ez as -> -> ->. pose proof (I3 _ Hv Ha) as L1. cbn [fst] in L1. pose proof (Hmin z' Hz I2) as L2.
    assert (Ek : ends z' = ends y) by lia. rewrite Ek in *. pose proof (sorted_key _ _ _ _ A I1 Hv) as Eq. injection Eq as ->. exists y'. split; [exact Hy'|]. split; [congruence|]. split; [exact Hv|]. unfold storeFind. now rewrite E.
  - pose proof (lb_none _ _ _ E Hv) as L. cbn [fst] in L. lia.
Qed.
Definition disjoint2 (y z : lsym) : Prop := ends y <= starts z \/ ends z <= starts y.
Definition disjoint (ys : list lsym) : Prop := forall y z, In y ys -> In z ys -> y = z \/ disjoint2 y z.
Lemma find_complete ys a y : Forall symOk ys -> disjoint ys -> In y ys -> starts y <= a < ends y -> (forall z, In z ys -> 0 < lsSize z) -> (forall z, In z ys -> ends z <> a) ->
  storeFind matchFree (build ys) a = Some (ends y, y) /\ In (ends y, (y, 0)) (build ys).
Proof.
  intros Ho Hd Hy Ha Hpos Hn. destruct (find_at ys a y matchFree Ho Hy ltac:(lia)) as (y' & H1 & H2 & Hi & H3).
  - intros z Hz L. specialize (Hn z Hz). destruct (Hd y z Hy Hz) as [<-|[D|D]]; [lia| |lia]. unfold symOk, starts, ends in *. rewrite Forall_forall in Ho. pose proof (Ho z Hz). lia.
  - assert (y' = y). { destruct (Hd y' y H1 Hy) as [E|[D|D]]; [exact E|lia|]. rewrite Forall_forall in Ho. pose proof (Ho y' H1). pose proof (Hpos y' H1). unfold symOk, starts, ends in *. lia. }
    subst y'. split; [|exact Hi]. rewrite H3. rewrite Forall_forall in Ho. pose proof (Ho y Hy) as O. unfold matchFree. rewrite key_ok, memaddr_ok by exact O. now replace ((starts y <=? a) && (ends y >? a)) with true by lia.
Qed.

(** ** counting *)
Fixpoint countOf (k : Z) (s : store) : option (lsym * Z) :=
  match s with [] => None | (k', v) :: r => if k' =? k then Some v else countOf k r end.
Lemma bump_lb k a s : option_map (fun e => (fst e, fst (snd e))) (mapLowerBound a (bump k s)) = option_map (fun e => (fst e, fst (snd e))) (mapLowerBound a s).
Proof. induction s as [|(k', (y, n)) r IH]; cbn [bump mapLowerBound]; [reflexivity|]. destruct (k' =? k); cbn [mapLowerBound]; destruct (k' <? a); auto. Qed.
Lemma bump_find m k a s : storeFind m (bump k s) a = storeFind m s a.
Proof.
  unfold storeFind. pose proof (bump_lb k a s) as H. destruct (mapLowerBound a (bump k s)) as [[k1 [y1 n1]]|], (mapLowerBound a s) as [[k2 [y2 n2]]|]; cbn in H; try discriminate; [|reflexivity]. injection H as -> ->. reflexivity.
Qed.
Lemma bump_count k s j y n : countOf j s = Some (y, n) -> countOf j (bump k s) = Some (y, if j =? k then n + 1 else n).
Proof.
  induction s as [|(k', (y', n')) r IH]; cbn [bump countOf]; [discriminate|]. destruct (k' =? j) eqn:E.
  - intros H. injection H as -> ->. destruct (k' =? k) eqn:E2; cbn [countOf]; rewrite E; do 2 f_equal; destruct (j =? k) eqn:E3; (reflexivity || lia).
  - intros H. destruct (k' =? k) eqn:E2; cbn [countOf]; rewrite E; [|now apply IH]. rewrite H. do 2 f_equal. destruct (j =? k) eqn:E3; [lia|reflexivity].
Qed.
Definition foundAt (m : Z -> lsym -> bool) (s : store) (k : Z) (w : Z) : bool := match storeFind m s w with Some (k', _) => k' =? k | None => false end.
Lemma search_count m ws : forall words s loc j y n, countOf j s = Some (y, n) ->
  countOf j (fst (searchSyms m ws s loc words)) = Some (y, n + zlen (filter (foundAt m s j) words)).
Proof.
  induction words as [|w r IH]; intros s loc j y n H; cbn [searchSyms filter fst]; [rewrite H, zlen_nil, Z.add_0_r; reflexivity|].
  unfold foundAt at 1. destruct (storeFind m s w) as [[k x]|] eqn:E.
  - specialize (IH (bump k s) (loc + ws) j y _ (bump_count k s j y n H)). destruct (searchSyms m ws (bump k s) (loc + ws) r) as [s' o]. cbn [fst] in *. rewrite IH. f_equal. f_equal.
    assert (Ef : filter (foundAt m (bump k s) j) r = filter (foundAt m s j) r) by (apply filter_ext; intros a; unfold foundAt; now rewrite bump_find). rewrite Ef.
    rewrite (Z.eqb_sym k j). destruct (j =? k); [rewrite zlen_cons|]; lia.
  - now apply IH.
Qed.
Lemma in_countOf s k v : sorted s -> In (k, v) s -> countOf k s = Some v.
Proof.
  induction s as [|(k', v') r IH]; cbn [sorted In countOf]; [tauto|]. intros (A & B) [H|H]; [injection H as -> ->; now rewrite Z.eqb_refl|]. specialize (A _ H). cbn [fst] in A. replace (k' =? k) with false by lia. auto.
Qed.
Lemma search_out m ws : forall words s loc, snd (searchSyms m ws s loc words) =
  flat_map (fun iw => match storeFind m s (snd iw) with Some (_, y) => [(lsName y, loc + ws * Z.of_nat (fst iw), u64 (snd iw - memaddr y))] | None => [] end) (combine (seq 0 (length words)) words).
Proof.
  intros words. assert (G : forall i s loc, snd (searchSyms m ws s (loc + ws * Z.of_nat i) words) =
    flat_map (fun iw => match storeFind m s (snd iw) with Some (_, y) => [(lsName y, loc + ws * Z.of_nat (fst iw), u64 (snd iw - memaddr y))] | None => [] end) (combine (seq i (length words)) words)).
  { induction words as [|w r IH]; intros i s loc; cbn [searchSyms length seq combine flat_map]; [reflexivity|]. cbn [fst snd]. destruct (storeFind m s w) as [[k y]|] eqn:E.
    - specialize (IH (S i) (bump k s) loc). replace (loc + ws * Z.of_nat i + ws) with (loc + ws * Z.of_nat (S i)) by lia. destruct (searchSyms m ws (bump k s) (loc + ws * Z.of_nat (S i)) r) as [s' o]. cbn [snd] in *. rewrite IH. cbn [app]. f_equal.
      apply flat_map_ext. intros a. now rewrite bump_find.
    - replace (loc + ws * Z.of_nat i + ws) with (loc + ws * Z.of_nat (S i)) by lia. now rewrite IH. }
  intros s loc. rewrite <- G. now rewrite Z.mul_0_r, Z.add_0_r.
Qed.
Lemma ranges_out ws ranges : forall words loc, searchRanges ws ranges loc words =
  flat_map (fun iw => flat_map (fun rg => if (snd iw >=? fst rg) && (snd iw <? snd rg) then [loc + ws * Z.of_nat (fst iw)] else []) ranges) (combine (seq 0 (length words)) words).
Proof.
  intros words. assert (G : forall i loc, searchRanges ws ranges (loc + ws * Z.of_nat i) words =
    flat_map (fun iw => flat_map (fun rg => if (snd iw >=? fst rg) && (snd iw <? snd rg) then [loc + ws * Z.of_nat (fst iw)] else []) ranges) (combine (seq i (length words)) words)).
  { induction words as [|w r IH]; intros i loc; cbn [searchRanges length seq combine flat_map]; [reflexivity|]. f_equal. rewrite <- IH. f_equal. lia. }
  intros loc. rewrite <- G. now rewrite Z.mul_0_r, Z.add_0_r.
Qed.

(** ** findString *)
Lemma findLoop_spec fuel : forall bufsize filled fs pos out o, findLoop fuel bufsize filled fs pos out = Ok o -> o = out /\ stdSearch filled fs = bufsize.
Proof.
  induction fuel as [|f IH]; intros bufsize filled fs pos out o H; cbn [findLoop] in H; [discriminate|]. destruct (stdSearch filled fs =? bufsize) eqn:E; [injection H as <-; split; [reflexivity|lia]|].
  apply IH in H. destruct H as (_ & H). lia.
Qed.
Lemma findLoop_ne fuel : forall bufsize filled fs pos out, stdSearch filled fs <> bufsize -> findLoop fuel bufsize filled fs pos out = OutOfFuel.
Proof. induction fuel as [|f IH]; intros bufsize filled fs pos out H; cbn [findLoop]; [reflexivity|]. replace (stdSearch filled fs =? bufsize) with false by lia. now apply IH. Qed.
Lemma stdSearch_le t s : 0 <= stdSearch t s <= zlen t.
Proof. induction t as [|c t IH]; cbn [stdSearch]; [change (zlen (@nil Z)) with 0; lia|]. rewrite zlen_cons. destruct (isPrefix s (c :: t)); lia. Qed.
Lemma findSegment_silent mem fuel : forall bufsize fs segEnd fileEnd pos filled out o, findSegment mem fuel bufsize fs segEnd fileEnd pos filled out = Ok o -> o = out.
Proof.
  induction fuel as [|f IH]; intros bufsize fs segEnd fileEnd pos filled out o H; cbn [findSegment] in H; [discriminate|]. destruct (pos <? segEnd); [|congruence]. cbv zeta in H.
  match type of H with bind (findLoop ?a ?b ?c ?d ?e ?g) _ = _ => destruct (findLoop a b c d e g) as [o'| | |] eqn:E end; cbn [bind] in H; try discriminate. apply findLoop_spec in E. destruct E as (-> & _). apply IH in H. exact H.
Qed.
Lemma memRead_len mem a n : 0 <= n -> zlen (memRead mem a n) = n.
Proof. intros. unfold memRead, zlen. rewrite map_length, seq_length. lia. Qed.
Lemma isPrefix_spec s : forall t, isPrefix s t = true <-> exists r, t = s ++ r.
Proof.
  induction s as [|a s IH]; intros t; cbn [isPrefix app]; [split; eauto|]. destruct t as [|b t]; [split; [discriminate|intros (r & H); discriminate]|]. rewrite andb_true_iff, IH. split.
  - intros (E & r & ->). exists r. f_equal. lia.
  - intros (r & H). injection H as -> ->. split; [lia|eauto].
Qed.
Lemma stdSearch_found p s r : s <> [] -> stdSearch (p ++ s ++ r) s < zlen (p ++ s ++ r).
Proof.
  intros Hs. induction p as [|c p IH]; cbn [app].
  - destruct (s ++ r) as [|x y] eqn:E; [now destruct s|]. cbn [stdSearch]. replace (isPrefix s (x :: y)) with true by (symmetry; apply isPrefix_spec; exists r; now rewrite E). rewrite zlen_cons. pose proof (zlen_nonneg y). lia.
  - cbn [stdSearch]. rewrite zlen_cons. destruct (isPrefix s (c :: p ++ s ++ r)); [pose proof (zlen_nonneg (p ++ s ++ r))|]; lia.
Qed.
