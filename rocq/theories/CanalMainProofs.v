From Coq Require Import Ascii String Permutation Sorted.
From Verif Require Import Base Reader ReaderArray ReaderSpec ReaderArrayProofs DwarfReaderProofs Json Args ArgsSpec ArgsProofs FrameText FrameTextSpec FrameTextProofs2 HdmpProofs JsonDocProofs Canal CanalSpec CanalProofs CanalMain CanalMainSpec.
Open Scope Z_scope.

(** ** the symbols *)
Section Collect.
Variable b : list Z -> list Z -> bool.
Hypothesis Hb : forall p n, b p n = true <-> matches p n.
Definition pick (base : Z) (pats : list (list Z)) (y : Z * Z * list Z) : list lsym := flat_map (fun p => if b p (snd y) then [mkLs (fst (fst y)) (snd (fst y)) base (snd y)] else []) pats.
Definition pickObj (pats : list (list Z)) (o : cobj) : list lsym := match coTables o with Some (dyn, dbg) => flat_map (pick (coBase o) pats) (dyn ++ dbg) | None => [] end.
Lemma glob_b p n : text p -> text n -> exists N, forall fuel, (N <= fuel)%nat -> globmatch fuel p n = Ok (b p n).
Proof using Hb.
  intros Hp Hn. exists (length p * (length n + 2) + length n + 3)%nat. intros fuel L. destruct (glob_spec p n Hp Hn fuel L) as (x & E & I). unfold globmatch. rewrite E. f_equal. destruct (b p n) eqn:Eb.
  - apply I. now apply Hb.
  - destruct x; [|reflexivity]. assert (b p n = true) by (apply Hb, I; reflexivity). congruence.
Qed.
Lemma matchPatterns_ok base y pats : text (snd y) -> Forall text pats -> exists N, forall fuel, (N <= fuel)%nat -> matchPatterns fuel base y pats = Ok (pick base pats y).
Proof using Hb.
  intros Hy. induction pats as [|p r IH]; intros F; [exists 0%nat; reflexivity|]. inversion F as [|? ? F1 F2]; subst. destruct (glob_b p (snd y) F1 Hy) as (N1 & E1). destruct (IH F2) as (N2 & E2).
  exists (Nat.max N1 N2). intros fuel L. cbn [matchPatterns]. rewrite E1, E2 by lia. cbn [bind]. unfold pick. cbn [flat_map]. now destruct (b p (snd y)).
Qed.
Lemma findSymbols_ok base pats tab : Forall text pats -> (forall y, In y tab -> text (snd y)) -> exists N, forall fuel, (N <= fuel)%nat -> findSymbols fuel pats base tab = Ok (flat_map (pick base pats) tab).
Proof using Hb.
  intros F. induction tab as [|y r IH]; intros T; [exists 0%nat; reflexivity|]. destruct (matchPatterns_ok base y pats (T y (or_introl eq_refl)) F) as (N1 & E1). destruct (IH (fun z Hz => T z (or_intror Hz))) as (N2 & E2).
  exists (Nat.max N1 N2). intros fuel L. cbn [findSymbols]. rewrite E1, E2 by lia. reflexivity.
Qed.
Lemma collect_ok pats objs : cleanNames pats objs -> exists N, forall fuel, (N <= fuel)%nat -> collect fuel pats objs = Ok (flat_map (pickObj pats) objs).
Proof using Hb.
  intros (F & C). induction objs as [|o r IH]; [exists 0%nat; reflexivity|]. destruct IH as (N2 & E2); [intros; eapply C; [right|..]; eassumption|]. unfold pickObj. cbn [collect flat_map]. destruct (coTables o) as [[dyn dbg]|] eqn:E.
  - destruct (findSymbols_ok (coBase o) pats dyn F) as (N3 & E3). { intros [[v z] n] Hy. eapply C; [left; reflexivity|exact E|]. apply in_app_iff. left. exact Hy. }
    destruct (findSymbols_ok (coBase o) pats dbg F) as (N4 & E4). { intros [[v z] n] Hy. eapply C; [left; reflexivity|exact E|]. apply in_app_iff. right. exact Hy. }
    exists (Nat.max N2 (Nat.max N3 N4)). intros fuel L. rewrite E2, E3, E4 by lia. cbn [bind]. now rewrite flat_map_app.
  - exists N2. intros fuel L. rewrite E2 by lia. reflexivity.
Qed.
Lemma pick_searched pats objs y : In y (flat_map (pickObj pats) objs) <-> searched pats objs y.
Proof using Hb.
  rewrite in_flat_map. unfold searched, pickObj. split.
  - intros (o & Ho & H). destruct (coTables o) as [[dyn dbg]|] eqn:E; [|destruct H]. apply in_flat_map in H. destruct H as ([[v z] n] & Hs & H). unfold pick in H. apply in_flat_map in H. destruct H as (p & Hp & H). cbn [fst snd] in H.
    destruct (b p n) eqn:Eb; [|destruct H]. destruct H as [<-|[]]. exists o, dyn, dbg, p. cbn [lsValue lsSize lsName lsBase]. repeat split; try assumption. now apply Hb.
  - intros (o & dyn & dbg & p & Ho & E & Hs & Eb & Hp & Hm). exists o. split; [exact Ho|]. rewrite E. apply in_flat_map. eexists. split; [exact Hs|]. unfold pick. apply in_flat_map. exists p. split; [exact Hp|]. cbn [fst snd]. apply Hb in Hm. rewrite Hm. left. rewrite <- Eb. now destruct y.
Qed.
End Collect.

(** a decision procedure for the patterns exists *)
Lemma matches_dec : exists b : list Z -> list Z -> bool, forall p n, b p n = true <-> matches p n.
Proof.
  assert (G : forall p n, {matches p n} + {~ matches p n}).
  { induction p as [|c p IH]; intros n.
    - destruct n; [left; constructor|right; intros H; inversion H].
    - destruct (Z.eq_dec c 42) as [->|Nc].
      + induction n as [|d n IHn].
        * destruct (IH []) as [H|H]; [left; now apply star_here|right]. intros X. apply star_inv in X. destruct X as [X|(d & n' & X & _)]; [auto|discriminate].
        * destruct (IH (d :: n)) as [H|H]; [left; now apply star_here|]. destruct IHn as [H2|H2]; [left; now apply star_cons|right]. intros X. apply star_inv in X. destruct X as [X|(d' & n' & E & X)]; [auto|]. injection E as <- <-. auto.
      + destruct n as [|d n]; [right; intros H; inversion H; congruence|]. destruct (Z.eq_dec c d) as [<-|Nd]; [|right; intros H; inversion H; congruence]. destruct (IH n) as [H|H]; [left; now constructor|right]. intros X. inversion X; subst; congruence. }
  exists (fun p n => if G p n then true else false). intros p n. destruct (G p n); split; (congruence || tauto).
Qed.

(** ** the words *)
Lemma window_serves rd mem start len : serves rd mem -> 0 <= start -> 0 <= len -> start + len < W64 -> serves (viewRead rd start len) (window mem start len).
Proof.
  intros Hs H0 Hl Hw off count Ho Hc Hx. unfold viewRead. destruct (off >? len) eqn:E.
  - right. split; [reflexivity|]. destruct (Z.to_nat count) as [|k] eqn:Ek; [reflexivity|]. cbn [prefix]. unfold window. replace (off <? len) with false by lia. now rewrite andb_false_r.
  - rewrite (u64_id (off + count)) by (unfold isU64; lia). rewrite (u64_id (off + start)) by (unfold isU64; lia).
    assert (P : forall c, 0 <= c -> (off + c <= len \/ c = len - off) -> prefix (window mem start len) off (Z.to_nat c) = prefix mem (off + start) (Z.to_nat c)).
    { intros c C0 C1. rewrite (prefix_ext _ (fun k => mem (start + k))); [rewrite prefix_shift; f_equal; lia|]. intros k Hk. unfold window. replace ((0 <=? k) && (k <? len)) with true by lia. reflexivity. }
    destruct (off + count >? len) eqn:E2.
    + assert (Q : prefix (window mem start len) off (Z.to_nat count) = prefix (window mem start len) off (Z.to_nat (len - off))).
      { replace (Z.to_nat count) with (Z.to_nat (len - off) + Z.to_nat (count - (len - off)))%nat by lia. rewrite prefix_split. destruct (Nat.eqb _ _) eqn:En; [|reflexivity].
        destruct (Z.to_nat (count - (len - off))) as [|k] eqn:Ek; [cbn [prefix]; apply app_nil_r|]. cbn [prefix]. unfold window at 2. replace (off + Z.of_nat (Z.to_nat (len - off)) <? len) with false by lia. rewrite andb_false_r. apply app_nil_r. }
      rewrite Q, P by lia. apply Hs; lia.
    + rewrite P by lia. apply Hs; lia.
Qed.
Lemma window_memread mem start len a n : 0 <= a -> a + Z.of_nat n <= len -> memread (window mem start len) a n = memread mem (start + a) n.
Proof.
  revert a. induction n as [|n IH]; intros a H0 H1; [reflexivity|]. cbn [memread]. unfold window at 1. replace ((0 <=? a) && (a <? len)) with true by lia. rewrite IH by lia. replace (start + (a + 1)) with (start + a + 1) by lia. reflexivity.
Qed.
Lemma segWords_ok rd mem ws g : serves rd mem -> 0 < ws -> segOk ws g -> segWords rd ws g = wordsIn mem ws g.
Proof.
  intros Hs Hw (H0 & H1 & H2). unfold segWords, wordsIn. set (len := sgFileEnd g - sgStart g) in *. rewrite (u64_id len) by (unfold isU64; nia). unfold arrayEof. rewrite H2. cbn [Z.eqb negb]. rewrite andb_false_r. rewrite Z.sub_0_r, (u64_id len) by (unfold isU64; nia).
  pose proof (window_serves rd mem (sgStart g) len Hs ltac:(lia) ltac:(lia) ltac:(nia)) as V.
  assert (G : forall n s idx, AInv (window mem (sgStart g) len) ws 0 s -> 0 <= idx -> (idx + Z.of_nat n) * ws <= len ->
    wordsFrom n (viewRead rd (sgStart g) len) ws s idx = wordsAt mem ws (sgStart g + idx * ws) n).
  { induction n as [|n IH]; intros s idx I Hi Hl; [reflexivity|]. cbn [wordsFrom wordsAt].
    pose proof (getitem_spec (viewRead rd (sgStart g) len) (window mem (sgStart g) len) ws 131072 0 V Hw ltac:(lia) ltac:(lia) s idx I Hi ltac:(nia)) as [E1 E2].
    destruct (getitem _ _ _ _ s idx) as [s' x]. cbn [fst snd] in *. subst x. unfold itemAt. rewrite Z.add_0_l, window_memread by nia.
    destruct (memread mem (sgStart g + idx * ws) (Z.to_nat ws)) as [bs|]; [|reflexivity]. f_equal. rewrite IH by (assumption || lia). f_equal. lia. }
  rewrite G; [f_equal; lia|apply ainit_inv|lia|]. rewrite Z2Nat.id by (apply Z.div_pos; lia). pose proof (Z.div_mod len ws ltac:(lia)). lia.
Qed.

(** ** the scan *)
Lemma scanSyms_store show m ws : forall words s loc loc', fst (scanSyms show m ws s loc words) = fst (searchSyms m ws s loc' words).
Proof.
  induction words as [|w r IH]; intros s loc loc'; [reflexivity|]. cbn [scanSyms searchSyms]. destruct (storeFind m s w) as [[k y]|]; [|apply IH].
  specialize (IH (bump k s) (loc + ws) (loc' + ws)). destruct (scanSyms show m ws (bump k s) (loc + ws) r), (searchSyms m ws (bump k s) (loc' + ws) r). exact IH.
Qed.
Lemma search_app m ws : forall a s loc loc' b, fst (searchSyms m ws s loc (a ++ b)) = fst (searchSyms m ws (fst (searchSyms m ws s loc a)) loc' b).
Proof.
  induction a as [|w r IH]; intros s loc loc' b; cbn [app searchSyms fst].
  - rewrite <- (scanSyms_store false m ws b s loc loc). apply scanSyms_store.
  - destruct (storeFind m s w) as [[k y]|]; [|apply IH]. specialize (IH (bump k s) (loc + ws) loc' b). destruct (searchSyms m ws (bump k s) (loc + ws) (r ++ b)), (searchSyms m ws (bump k s) (loc + ws) r). exact IH.
Qed.
Lemma scan_store show off ws rd : forall segs st loc, fst (fold_left (scanSeg show off [] ws rd) segs st) =
  fst (searchSyms (if off >? 0 then matchBound off else matchFree) ws (fst st) loc (flat_map (segWords rd ws) (filter (fun g => negb (sgIo g)) segs))).
Proof.
  induction segs as [|g segs IH]; intros [s out] loc; [reflexivity|]. cbn [fold_left filter]. rewrite (IH _ loc). cbn [scanSeg fst]. destruct (sgIo g); cbn [negb flat_map]; [reflexivity|].
  rewrite (search_app _ ws (segWords rd ws g) s loc loc). rewrite <- (scanSyms_store show _ ws (segWords rd ws g) s (sgStart g) loc). now destruct (scanSyms show _ ws s (sgStart g) (segWords rd ws g)).
Qed.
Lemma bump_keys k s : map (fun e => (fst e, fst (snd e))) (bump k s) = map (fun e => (fst e, fst (snd e))) s.
Proof. induction s as [|(k', (y, n)) r IH]; [reflexivity|]. cbn [bump]. destruct (k' =? k); cbn [map fst snd]; [reflexivity|]. now rewrite IH. Qed.
Lemma search_keys m ws : forall words s loc, map (fun e => (fst e, fst (snd e))) (fst (searchSyms m ws s loc words)) = map (fun e => (fst e, fst (snd e))) s.
Proof.
  induction words as [|w r IH]; intros s loc; [reflexivity|]. cbn [searchSyms]. destruct (storeFind m s w) as [[k y]|]; [|apply IH]. specialize (IH (bump k s) (loc + ws)). destruct (searchSyms m ws (bump k s) (loc + ws) r). cbn [fst] in *. now rewrite IH, bump_keys.
Qed.
Lemma sorted_keys s t : map fst s = map fst t -> sorted s -> sorted t.
Proof.
  revert t. induction s as [|(k, v) s IH]; intros [|(k', v') t] E; cbn [map fst] in E; try discriminate; [auto|]. injection E as <- E. cbn [sorted]. intros (A & B). split; [|now apply IH].
  intros e He. assert (X : In (fst e) (map fst s)) by (rewrite E; now apply in_map). apply in_map_iff in X. destruct X as (e' & <- & He'). now apply A.
Qed.
Lemma search_sorted m ws words s loc : sorted s -> sorted (fst (searchSyms m ws s loc words)).
Proof.
  apply sorted_keys. pose proof (search_keys m ws words s loc) as H. apply (f_equal (map fst)) in H. rewrite !map_map in H. cbn [fst] in H. symmetry. exact H.
Qed.
Lemma countOf_in s k v : countOf k s = Some v -> In (k, v) s.
Proof. induction s as [|(k', v') r IH]; cbn [countOf]; [discriminate|]. destruct (k' =? k) eqn:E; [intros H; injection H as <-; left; f_equal; lia|right; auto]. Qed.
Lemma search_entries m ws words s loc k y n : sorted s -> (In (k, (y, n)) (fst (searchSyms m ws s loc words)) <-> exists n0, In (k, (y, n0)) s /\ n = n0 + zlen (filter (foundAt m s k) words)).
Proof.
  intros S. split.
  - intros H. assert (X : In (k, y) (map (fun e => (fst e, fst (snd e))) s)). { rewrite <- (search_keys m ws words s loc). apply (in_map (fun e => (fst e, fst (snd e)))) in H. exact H. }
    apply in_map_iff in X. destruct X as ((k0 & y0 & n0) & E & X). cbn [fst snd] in E. injection E as -> ->. exists n0. split; [exact X|].
    pose proof (search_count m ws words s loc k y n0 (in_countOf _ _ _ S X)) as C. rewrite (in_countOf _ _ _ (search_sorted m ws words s loc S) H) in C. now injection C as ->.
  - intros (n0 & X & ->). apply countOf_in. exact (search_count m ws words s loc k y n0 (in_countOf _ _ _ S X)).
Qed.

(** ** the symbol a word points into *)
Section Apart.
Variable ys : list lsym.
Hypothesis Ho : Forall symOk ys.
Hypothesis Ha : apart (fun y => In y ys).
Lemma apart_entry y : In y ys -> In (ends y, (y, 0)) (build ys).
Proof using Ho Ha.
  intros Hy. destruct (build_spec ys Ho) as (A & B & C). destruct (C y Hy) as (v & Hv). destruct (B _ Hv) as (z & Hz & E). injection E as E ->. destruct (Ha y z Hy Hz) as [<-|(_ & N)]; [exact Hv|]. unfold ends in E. contradiction.
Qed.
Lemma apart_find w y : In y ys -> pointsInto y w = true -> (forall z, In z ys -> ends z <> w) -> storeFind matchFree (build ys) w = Some (ends y, y).
Proof using Ho Ha.
  intros Hy P N. unfold pointsInto in P. assert (Hall := Ho). rewrite Forall_forall in Hall. destruct (find_at ys w y matchFree Ho Hy) as (y' & H1 & H2 & _ & H3).
  - unfold ends. lia.
  - intros z Hz L. specialize (N z Hz). pose proof (Hall z Hz) as Oz. unfold symOk, ends in *. destruct (Ha y z Hy Hz) as [<-|([D|D] & _)]; lia.
  - assert (y' = y) by (destruct (Ha y' y H1 Hy) as [->|(_ & D)]; [reflexivity|unfold ends in H2; contradiction]). subst y'. rewrite H3. unfold matchFree. rewrite key_ok, memaddr_ok by (apply Hall, Hy). unfold starts, ends.
    replace ((lsValue y + lsBase y <=? w) && (lsValue y + lsBase y + lsSize y >? w)) with true by lia. reflexivity.
Qed.
Lemma apart_filter words y : noEnds (fun y => In y ys) words -> In y ys -> filter (foundAt matchFree (build ys) (ends y)) words = filter (pointsInto y) words.
Proof using Ho Ha.
  intros Hn Hy. apply filter_ext_in. intros w Hw. unfold foundAt. destruct (pointsInto y w) eqn:P.
  - rewrite (apart_find w y Hy P); [apply Z.eqb_refl|]. intros z Hz. unfold ends. exact (Hn w y z Hw Hy Hz P).
  - destruct (storeFind matchFree (build ys) w) as [[k z]|] eqn:F; [|reflexivity]. destruct (find_sound ys w k z Ho F) as (Hz & R). assert (Pz : pointsInto z w = true) by (unfold pointsInto, starts, ends in *; lia).
    rewrite (apart_find w z Hz Pz) in F by (intros x Hx; unfold ends; exact (Hn w z x Hw Hz Hx Pz)). injection F as <-. destruct (ends z =? ends y) eqn:E; [|reflexivity]. exfalso. destruct (Ha z y Hz Hy) as [->|(_ & D)]; [congruence|]. unfold ends in E. lia.
Qed.
End Apart.

(** ** the report *)
Lemma filter_perm (A : Type) (f : A -> bool) l1 l2 : Permutation l1 l2 -> Permutation (filter f l1) (filter f l2).
Proof.
  induction 1 as [|x l l' H IH|x y l|l l' l'' H1 IH1 H2 IH2]; cbn [filter]; [constructor|destruct (f x); auto|destruct (f x), (f y); (apply perm_swap || reflexivity)|now transitivity (filter f l')].
Qed.
Lemma filter_sorted (A : Type) (R : A -> A -> Prop) f l : StronglySorted R l -> StronglySorted R (filter f l).
Proof.
  induction 1 as [|x l H IH F]; cbn [filter]; [constructor|]. destruct (f x); [|exact IH]. constructor; [exact IH|]. rewrite Forall_forall in *. intros y Hy. apply filter_In in Hy. now apply F.
Qed.
Lemma report_lines objs nameOf h : (forall o, In o objs -> nameOf (coBase o) = coName o) ->
  (forall y n, In (y, n) h -> 0 <= n < W64 /\ (n <> 0 -> exists o, In o objs /\ coBase o = lsBase y)) ->
  exists lines, Forall2 (ReportLine nameOf) (filter (fun e => negb (snd e =? 0)) h) lines /\ flat_map (reportLine objs) h = concat lines.
Proof.
  intros Hn. induction h as [|[y n] h IH]; intros H; [exists []; split; [constructor|reflexivity]|]. destruct IH as (lines & F & E); [intros; apply H; now right|]. cbn [filter snd flat_map]. rewrite E. unfold reportLine at 1. cbn [fst snd].
  destruct (n =? 0) eqn:E0; cbn [negb]; [exists lines; split; [exact F|reflexivity]|]. destruct (H y n (or_introl eq_refl)) as (R & N). destruct N as (o & Io & Eo); [lia|].
  assert (En : objName objs (lsBase y) = nameOf (lsBase y)).
  { unfold objName. destruct (find (fun o0 => coBase o0 =? lsBase y) objs) as [o'|] eqn:Ef; [apply find_some in Ef; destruct Ef as (I1 & I2); rewrite <- (Hn o' I1); f_equal; lia|]. exfalso. pose proof (find_none _ _ Ef o Io) as X. cbn in X. lia. }
  rewrite En. eexists (_ :: lines). split; [constructor; [|exact F]|reflexivity]. unfold W64 in R. change (txt) with lit. pose proof (intText_decimal64 n ltac:(lia)) as D. unfold intText in D. replace (n <? 0) with false in D by lia. exact (RLine nameOf y n _ D).
Qed.
Lemma hexText_canonical v : 0 <= v < W64 -> canonical 16 (hexText 16 v) v.
Proof. intros R. rewrite hexText_num. apply numText_canonical; [lia|lia|]. unfold W64 in R. change (16 ^ Z.of_nat 16) with 18446744073709551616. lia. Qed.
