From Verif Require Import Base Reader Leb LebSpec LebProofs DwarfReader DwarfReaderProofs ReaderSpec CfiSpec CfiProofs CfiProofs2 Cursor ExprProofs PubnamesProofs ElfHashProofs Lines Macros MacrosSpec.

Lemma startFile_ok li l f d fe : fileAt li f d fe -> startFile li l f = Ok (EStart l d fe).
Proof. intros (t & -> & H1 & H2). unfold startFile. now rewrite H1, H2. Qed.

Section P.
Context (data : list Z) (Hd : Forall isByte data) (Hw : zlen data + 32 < W64).
Lemma step4_ok li o e off rest : means4 li o e -> at_ data off (encode4 o ++ rest) ->
  step4 data li off = Ok (MEvent e, off + zlen (encode4 o)) /\ at_ data (off + zlen (encode4 o)) rest.
Proof.
  intros M H. split; [|now apply at_app in H as [_ H]]. unfold step4.
  destruct M as [l t Hl Ht|l t Hl Ht|l f d fe Hl Hf F|]; cbn [encode4] in *; rewrite <- ?app_assoc in H; cbn [app] in H; apply rd_u8 in H as [E H]; try assumption; rewrite E; cbn [bind].
  - change (1 =? 1) with true. cbv iota. apply rd_uleb in H as [E2 H]; [|assumption..]. rewrite E2. cbn [bind]. rewrite <- ?app_assoc in H. cbn [app] in H.
    apply rd_str in H as [E3 H]; [|assumption..]. rewrite E3. rewrite !zlen_app. change (zlen [1]) with 1. change (zlen [0]) with 1. do 2 f_equal. lia.
  - change (2 =? 1) with false. change (2 =? 0) with false. change (2 =? 2) with true. cbv iota. apply rd_uleb in H as [E2 H]; [|assumption..]. rewrite E2. cbn [bind]. rewrite <- ?app_assoc in H. cbn [app] in H.
    apply rd_str in H as [E3 H]; [|assumption..]. rewrite E3. rewrite !zlen_app. change (zlen [2]) with 1. change (zlen [0]) with 1. do 2 f_equal. lia.
  - change (3 =? 1) with false. change (3 =? 0) with false. change (3 =? 2) with false. change (3 =? 3) with true. cbv iota.
    apply rd_uleb in H as [E2 H]; [|assumption..]. rewrite E2. cbn [bind]. apply rd_uleb in H as [E3 H]; [|assumption..]. rewrite E3. cbn [bind].
    rewrite (startFile_ok _ _ _ _ _ F). cbn [bind]. rewrite !zlen_app. change (zlen [3]) with 1. do 2 f_equal. lia.
  - reflexivity.
Qed.
(** [v] fed with the events, define and undef's answers ignored. *)
Definition isDef (e : mevent) : bool := match e with EDefine _ _ | EUndef _ _ => true | _ => false end.
Definition heedless {V} (vis : V -> mevent -> V * bool) (v : V) (e : mevent) : V * bool :=
  let '(v', b) := vis v e in (v', b || isDef e).
Lemma encode4_pos o : 0 < zlen (encode4 o).
Proof. destruct o; cbn [encode4]; rewrite ?zlen_app; change (zlen [1]) with 1; change (zlen [2]) with 1; change (zlen [3]) with 1; change (zlen [4]) with 1; change (zlen [255]) with 1; repeat match goal with |- context [zlen ?l] => lazymatch l with [_] => change (zlen l) with 1 | _ => pose proof (zlen_nonneg l); generalize dependent (zlen l); intros end end; lia. Qed.
Lemma run4_ok {V} (vis : V -> mevent -> V * bool) li ops es : Forall2 (means4 li) ops es -> forall fuel off v rest,
  (length ops < fuel)%nat -> at_ data off (flat_map encode4 ops ++ 0 :: rest) ->
  run4 vis fuel data li off v = (fst (feed (heedless vis) v es), Ok (snd (feed (heedless vis) v es))).
Proof.
  induction 1 as [|o e ops es M F IH]; intros fuel off v rest Fu H; (destruct fuel as [|f]; [cbn in Fu; lia|]); cbn [run4 flat_map app] in *.
  - apply rd_u8 in H as [E H]; [|assumption..]. unfold step4. rewrite E. reflexivity.
  - rewrite <- app_assoc in H. destruct (step4_ok _ _ _ _ _ M H) as [E H']. rewrite E. cbn [feed]. unfold heedless at 1 3.
    destruct (vis v e) as [v' b] eqn:Ev.
    destruct e; cbn [isDef]; rewrite ?orb_true_r, ?orb_false_r; try (apply IH with (rest := rest); [cbn [length] in Fu; lia|exact H']);
      (destruct b; [apply IH with (rest := rest); [cbn [length] in Fu; lia|exact H']|reflexivity]).
Qed.

Lemma encode5_step en n li o e off rest : (n = 4 \/ n = 8)%nat -> meLen en = Z.of_nat n -> means5 en n li o e -> at_ data off (encode5 n o ++ rest) ->
  step5 en data (Z.of_nat n) li off = Ok (MEvent e, off + zlen (encode5 n o)) /\ at_ data (off + zlen (encode5 n o)) rest.
Proof.
  intros Hn Hl M H. split; [|now apply at_app in H as [_ H]]. unfold step5, formStr.
  assert (B : (0 < n <= 8)%nat) by lia.
  destruct M as [l t Hl1 Ht|l t Hl1 Ht|l f d fe Hl1 Hf F| |l s t Hl1 Hs Et|l s t Hl1 Hs Et|l i t Hl1 Hi Et|l i t Hl1 Hi Et];
    cbn [encode5] in *; rewrite <- ?app_assoc in H; cbn [app] in H; apply rd_u8 in H as [E H]; try assumption; rewrite E; cbn [bind Z.eqb Pos.eqb orb]; [| | |reflexivity| | | |];
    (apply rd_uleb in H as [E2 H]; [|assumption..]); rewrite E2; cbn [bind].
  - rewrite <- ?app_assoc in H; cbn [app] in H. apply rd_str in H as [E3 H]; [|assumption..]. rewrite E3. rewrite !zlen_app. change (zlen [1]) with 1. change (zlen [0]) with 1. do 2 f_equal. lia.
  - rewrite <- ?app_assoc in H; cbn [app] in H. apply rd_str in H as [E3 H]; [|assumption..]. rewrite E3. rewrite !zlen_app. change (zlen [2]) with 1. change (zlen [0]) with 1. do 2 f_equal. lia.
  - apply rd_uleb in H as [E3 H]; [|assumption..]. rewrite E3. cbn [bind]. rewrite (startFile_ok _ _ _ _ _ F). cbn [bind]. rewrite !zlen_app. change (zlen [3]) with 1. do 2 f_equal. lia.
  - rewrite Hl. apply rd_uint in H as [E3 H]; [|assumption|assumption|exact B|exact Hs]. rewrite E3. cbn [bind]. rewrite Et. cbn [bind]. rewrite !zlen_app, leBytes_len. change (zlen [5]) with 1. do 2 f_equal. lia.
  - rewrite Hl. apply rd_uint in H as [E3 H]; [|assumption|assumption|exact B|exact Hs]. rewrite E3. cbn [bind]. rewrite Et. cbn [bind]. rewrite !zlen_app, leBytes_len. change (zlen [6]) with 1. do 2 f_equal. lia.
  - apply rd_uleb in H as [E3 H]; [|assumption..]. rewrite E3. cbn [bind]. rewrite Et. cbn [bind]. rewrite !zlen_app. change (zlen [11]) with 1. do 2 f_equal. lia.
  - apply rd_uleb in H as [E3 H]; [|assumption..]. rewrite E3. cbn [bind]. rewrite Et. cbn [bind]. rewrite !zlen_app. change (zlen [12]) with 1. do 2 f_equal. lia.
Qed.
Lemma encode5_import en n li io off rest : (n = 4 \/ n = 8)%nat -> 0 <= io < 256 ^ Z.of_nat n -> at_ data off (encode5 n (PImport io) ++ rest) ->
  step5 en data (Z.of_nat n) li off = Ok (MImport io, off + zlen (encode5 n (PImport io))) /\ at_ data (off + zlen (encode5 n (PImport io))) rest.
Proof.
  intros Hn Hi H. split; [|now apply at_app in H as [_ H]]. unfold step5. cbn [encode5] in *. rewrite <- ?app_assoc in H. cbn [app] in H.
  apply rd_u8 in H as [E H]; [|assumption..]. rewrite E. cbn [bind Z.eqb Pos.eqb orb]. apply rd_uint in H as [E2 H]; [|assumption|assumption|lia|assumption]. rewrite E2. cbn [bind].
  rewrite zlen_app, leBytes_len. change (zlen [7]) with 1. do 2 f_equal. lia.
Qed.
Lemma opTable_ok t : forall off rest, Forall (fun d => isByte (fst d) /\ zlen (snd d) < 256 /\ Forall isByte (snd d)) t ->
  at_ data off (flat_map encodeOpDesc t ++ rest) ->
  opTable (length t) data off = Ok (t, off + zlen (flat_map encodeOpDesc t)) /\ at_ data (off + zlen (flat_map encodeOpDesc t)) rest.
Proof.
  induction t as [|[c fs] t IH]; intros off rest W H; cbn [length opTable flat_map] in *.
  - cbn [app] in H. change (zlen (@nil Z)) with 0. rewrite Z.add_0_r. auto.
  - inversion W as [|? ? [W1 [W2 W3]] W4]; subst. cbn [fst snd] in *. unfold encodeOpDesc at 1 in H. cbn [fst snd] in H. rewrite <- !app_assoc in H. cbn [app] in H.
    pose proof (zlen_nonneg fs).
    apply rd_u8 in H as [E H]; [|assumption..]. rewrite E. cbn [bind]. apply rd_uleb in H as [E2 H]; [|unfold W64; lia]. rewrite E2. cbn [bind].
    replace (zlen fs >? 255) with false by lia. pose proof H as HH0. apply at_app in H as [_ H].
    assert (Q : secBytes data (off + 1 + zlen (uleb (zlen fs))) (zlen fs) = Ok fs).
    { destruct fs as [|f0 fs0]; [unfold secBytes, readObj; reflexivity|].
      apply at_app in HH0 as [HH0 _]. apply (secBytes_at _ _ _ _ HH0 eq_refl); [rewrite zlen_cons; pose proof (zlen_nonneg fs0); lia|lia]. }
    rewrite Q. cbn [bind]. destruct (IH _ _ W4 H) as [-> H']. cbn [bind]. unfold encodeOpDesc at 2 4. cbn [fst snd].
    rewrite !zlen_app. change (zlen [c]) with 1.
    replace (off + (1 + (zlen (uleb (zlen fs)) + zlen fs) + zlen (flat_map encodeOpDesc t))) with (off + 1 + zlen (uleb (zlen fs)) + zlen fs + zlen (flat_map encodeOpDesc t)) by lia. auto.
Qed.
Lemma flags_bits u : Z.testbit (flagsOf u) 0 = mu64 u /\ Z.testbit (flagsOf u) 1 = (match muLine u with Some _ => true | None => false end) /\
  Z.testbit (flagsOf u) 2 = (match muTable u with Some _ => true | None => false end).
Proof. unfold flagsOf. destruct (mu64 u), (muLine u), (muTable u); repeat split; reflexivity. Qed.
Lemma offSize_48 u : (offSize u = 4 \/ offSize u = 8)%nat.
Proof. unfold offSize. destruct (mu64 u); auto. Qed.
Lemma readD5_ok u off rest : wfUnit u -> at_ data off (encodeHead u ++ rest) ->
  readD5 data off = Ok (Z.of_nat (offSize u), match muLine u with Some l => l | None => -1 end, match muTable u with Some t => t | None => [] end, off + zlen (encodeHead u)) /\ at_ data (off + zlen (encodeHead u)) rest.
Proof.
  intros (W1 & W2 & W3) H. split; [|now apply at_app in H as [_ H]]. unfold readD5, encodeHead in *. rewrite <- !app_assoc in H.
  apply rd_u16 in H as [E H]; [|assumption..]. rewrite E. cbn [bind app] in *. apply rd_u8 in H as [E2 H]; [|assumption..]. rewrite E2. cbn [bind]. cbv zeta.
  destruct (flags_bits u) as (-> & -> & ->).
  replace (if mu64 u then 8 else 4) with (Z.of_nat (offSize u)) by (unfold offSize; destruct (mu64 u); reflexivity).
  rewrite zlen_app, leBytes_len. 
  destruct (muLine u) as [l|]; cbn [bind app] in *.
  - apply rd_uint in H as [E3 H]; [|assumption|assumption|destruct (offSize_48 u); lia|].
    2:{ destruct (offSize_48 u) as [-> | ->]; [change (256 ^ Z.of_nat 4) with 4294967296|change (256 ^ Z.of_nat 8) with W64; unfold W64]; lia. }
    rewrite E3. cbn [bind]. replace (s32 l) with l by (unfold s32, sgn, W32; change (4294967296 / 2) with 2147483648; rewrite Z.mod_small by lia; destruct (l <? 2147483648) eqn:?; lia).
    rewrite zlen_cons, zlen_app, leBytes_len. destruct (muTable u) as [t|]; cbn [bind app] in *.
    + apply rd_u8 in H as [E4 H]; [|assumption..]. rewrite E4. cbn [bind]. destruct W3 as [W3 W4]. replace (Z.to_nat (zlen t)) with (length t) by (unfold zlen; lia).
      destruct (opTable_ok _ _ _ W4 H) as [-> _]. cbn [bind]. rewrite zlen_cons. do 2 f_equal. lia.
    + change (zlen (@nil Z)) with 0. do 2 f_equal. lia.
  - rewrite zlen_cons. destruct (muTable u) as [t|]; cbn [bind app] in *.
    + apply rd_u8 in H as [E4 H]; [|assumption..]. rewrite E4. cbn [bind]. destruct W3 as [W3 W4]. replace (Z.to_nat (zlen t)) with (length t) by (unfold zlen; lia).
      destruct (opTable_ok _ _ _ W4 H) as [-> _]. cbn [bind]. rewrite zlen_cons. do 2 f_equal. lia.
    + change (zlen (@nil Z)) with 0. do 2 f_equal. lia.
Qed.
Lemma open5_ok en u li off rest : wfUnit u -> linesOf en u li -> at_ data off (encodeHead u ++ rest) ->
  open5 en data off = Ok (Z.of_nat (offSize u), li, off + zlen (encodeHead u)) /\ at_ data (off + zlen (encodeHead u)) rest.
Proof.
  intros W L H. destruct (readD5_ok u off rest W H) as [E H']. split; [|exact H']. unfold open5. rewrite E. cbn [bind]. destruct W as (_ & W & _).
  unfold linesOf in L. destruct (muLine u) as [l|].
  - replace (l =? -1) with false by lia. destruct L as (t & -> & ->). reflexivity.
  - subst li. reflexivity.
Qed.
Lemma feed_app {V} (vis : V -> mevent -> V * bool) a : forall v b, feed vis v (a ++ b) = (let '(v', k) := feed vis v a in if k then feed vis v' b else (v', false)).
Proof. induction a as [|e a IH]; intros v b; cbn [app feed]; [reflexivity|]. destruct (vis v e) as [v' [|]]; [apply IH|reflexivity]. Qed.
Lemma run5_ok {V} (vis : V -> mevent -> V * bool) en (units : Z -> munit -> Prop) :
  (forall o u, units o u -> wfUnit u /\ meLen en = Z.of_nat (offSize u) /\ exists rest, at_ data o (encodeUnit u ++ rest)) ->
  forall n li ops es, events en units n li ops es -> (n = 4 \/ n = 8)%nat -> meLen en = Z.of_nat n ->
  exists need, forall fuel off v rest, (need <= fuel)%nat -> at_ data off (flat_map (encode5 n) ops ++ 0 :: rest) ->
  run5 vis fuel en data (Z.of_nat n) li off v = (fst (feed vis v es), Ok (snd (feed vis v es))).
Proof.
  intros HU n li ops es Hev. induction Hev as [n li|n li o e ops es M Hev IH|n li io u li' es' ops es Hio Hu Hli Hev1 IH1 Hev2 IH2]; intros Hn Hlen.
  - exists 1%nat. intros fuel off v rest F H. destruct fuel as [|f]; [lia|]. cbn [run5 flat_map app] in *. apply rd_u8 in H as [E H]; [|assumption..]. unfold step5. rewrite E. reflexivity.
  - destruct (IH Hn Hlen) as [need IH']. exists (S need). intros fuel off v rest F H. destruct fuel as [|f]; [lia|]. cbn [run5 flat_map] in *. rewrite <- app_assoc in H.
    destruct (encode5_step _ _ _ _ _ _ _ Hn Hlen M H) as [E H']. rewrite E. cbn [feed]. destruct (vis v e) as [v' [|]]; [|reflexivity].
    apply IH' with (rest := rest); [lia|exact H'].
  - destruct (HU _ _ Hu) as (W & L & rest' & Hat). destruct (IH1 (offSize_48 u) L) as [need1 IH1']. destruct (IH2 Hn Hlen) as [need2 IH2'].
    exists (S (need1 + need2)). intros fuel off v rest F H. destruct fuel as [|f]; [lia|]. cbn [run5 flat_map] in *. rewrite <- app_assoc in H.
    destruct (encode5_import en _ li _ _ _ Hn Hio H) as [E H']. rewrite E. unfold encodeUnit in Hat. rewrite <- !app_assoc in Hat.
    destruct (open5_ok en u li' io _ W Hli Hat) as [E2 H2]. rewrite E2. rewrite (IH1' f _ v rest'); [|lia|exact H2].
    rewrite feed_app. destruct (feed vis v es') as [v' [|]] eqn:Fe; cbn [fst snd]; [|reflexivity]. apply IH2' with (rest := rest); [lia|exact H'].
Qed.

(** Every step consumes at least a byte or ends. *)
Lemma getu8_end off : zlen data <= off -> getu8 data off = Throw.
Proof.
  intros H. pose proof (zlen_nonneg data). unfold getu8, secBytes, readObj. change (1 =? 0) with false. cbv iota. change (u64 (1 * 1)) with 1. unfold secRead.
  destruct (off >? zlen data) eqn:X; [reflexivity|]. rewrite zdrop_all by lia. reflexivity.
Qed.
Lemma getuleb_fwd off v o : getuleb data off = Ok (v, o) -> off < o.
Proof. apply getuleb_adv. Qed.
Lemma getuint_fwd off n v o : 0 <= n -> getuint data off n = Ok (v, o) -> off <= o.
Proof. unfold getuint. destruct (n >? 16); [discriminate|]. destruct (secBytes data off n); cbn [bind]; intros; try discriminate. inversion H0. lia. Qed.
Lemma getstring_fwd off s o : getstring data off = (s, o) -> off < o.
Proof. unfold getstring. intros H. inversion H. pose proof (zlen_nonneg (untilNul (zdrop off data))). lia. Qed.
Lemma getu8_fwd off v o : getu8 data off = Ok (v, o) -> o = off + 1 /\ off < zlen data.
Proof.
  intros H. split; [unfold getu8 in H; destruct (secBytes data off 1); cbn [bind] in H; inversion H; reflexivity|].
  destruct (Z_lt_dec off (zlen data)); [assumption|]. rewrite getu8_end in H by lia. discriminate.
Qed.

Lemma startFile_fuel li l f : startFile li l f <> OutOfFuel.
Proof. unfold startFile. destruct li as [t|]; [|discriminate]. destruct (znth f (ltFiles t)) as [fe|]; [|discriminate]. destruct (znth (fDir fe) (ltDirs t)); discriminate. Qed.
Definition good {A} (off : Z) (r : res (A * Z)) : Prop := match r with Ok (_, o) => off < o | OutOfFuel => False | _ => True end.
Lemma good_uleb {A} off (k : Z * Z -> res (A * Z)) base : base <= off -> (forall v o, off < o -> good base (k (v, o))) -> good base (bind (getuleb data off) k).
Proof.
  intros B H. destruct (getuleb data off) as [[v o]| | |] eqn:E; cbn [bind]; try exact I; [|now apply getuleb_fuel in E]. apply H. eapply getuleb_fwd; exact E.
Qed.
Lemma step4_good li off : 0 <= off -> good off (step4 data li off) /\ (zlen data <= off -> step4 data li off = Throw).
Proof.
  intros Ho. split; [|intros H; unfold step4; now rewrite getu8_end].
  unfold step4. destruct (getu8 data off) as [[c o1]| | |] eqn:E; cbn [bind]; try exact I; [|unfold getu8 in E; destruct (secBytes data off 1) eqn:X; try discriminate; unfold secBytes, readObj, secRead in X; destruct (1 =? 0); [discriminate|]; destruct (off >? zlen data); cbn [bind] in X; [discriminate|]; destruct (_ =? _); discriminate].
  apply getu8_fwd in E as [-> L].
  destruct (c =? 1). { apply good_uleb; [lia|]. intros v o Lo. destruct (getstring data o) as [t o3] eqn:G. apply getstring_fwd in G. cbn. lia. }
  destruct (c =? 0); [cbn; lia|].
  destruct (c =? 2). { apply good_uleb; [lia|]. intros v o Lo. destruct (getstring data o) as [t o3] eqn:G. apply getstring_fwd in G. cbn. lia. }
  destruct (c =? 3). { apply good_uleb; [lia|]. intros v o Lo. apply good_uleb; [lia|]. intros v2 o2 L2. destruct (startFile li v v2) eqn:X; cbn [bind]; try exact I; [cbn; lia|now apply startFile_fuel in X]. }
  destruct (c =? 4); cbn; lia.
Qed.
Lemma run4_total {V} (vis : V -> mevent -> V * bool) li : forall fuel off v, 0 <= off -> zlen data - off < Z.of_nat fuel -> snd (run4 vis fuel data li off v) <> OutOfFuel \/ (fuel = 0%nat).
Proof.
  induction fuel as [|f IH]; intros off v Ho F; [now right|]. left. destruct (step4_good li off Ho) as [G Th]. cbn [run4].
  assert (K : forall o v', off < o -> zlen data > off -> snd (run4 vis f data li o v') <> OutOfFuel).
  { intros o v' L L2. destruct (IH o v' ltac:(lia) ltac:(lia)) as [X|X]; [exact X|]. subst f. exfalso. lia. }
  destruct (Z_le_dec (zlen data) off) as [L|L]; [rewrite (Th L); discriminate|].
  destruct (step4 data li off) as [[s o]| | |]; cbn in G; try (cbn; discriminate); [|easy].
  destruct s as [|e|i|]; [cbn; discriminate| |apply K; lia|apply K; lia].
  destruct (vis v e) as [v' b]. destruct e; try (apply K; lia); (destruct b; [apply K; lia|cbn; discriminate]).
Qed.
(** visit5 with imports that only go forward. *)
Definition calm (en : menv) : Prop := (forall o, meLines en o <> OutOfFuel) /\ (forall o, meStr en o <> OutOfFuel) /\ (forall o, meStrx en o <> OutOfFuel) /\ 0 <= meLen en.
Lemma secBytes_fuel off n : secBytes data off n <> OutOfFuel.
Proof. unfold secBytes, readObj, secRead. destruct (n =? 0); [discriminate|]. destruct (off >? zlen data); cbn [bind]; [discriminate|]. destruct (_ =? _); discriminate. Qed.
Lemma good_uint {A} off n (k : Z * Z -> res (A * Z)) base : 0 <= n -> base <= off -> (forall v o, off <= o -> good base (k (v, o))) -> good base (bind (getuint data off n) k).
Proof.
  intros Hn B H. destruct (getuint data off n) as [[v o]| | |] eqn:E; cbn [bind]; try exact I.
  - apply H. eapply getuint_fwd; [exact Hn|exact E].
  - unfold getuint in E. destruct (n >? 16); [discriminate|]. destruct (secBytes data off n) eqn:X; cbn [bind] in E; try discriminate. now apply secBytes_fuel in X.
Qed.
Lemma formStr_good en x off base (mk : list Z -> mevent) : calm en -> base < off ->
  good base (let* (t, o3) := formStr en data x off in Ok (MEvent (mk t), o3)).
Proof.
  intros (C1 & C2 & C3 & C4) B. unfold formStr. destruct x.
  - destruct (getuleb data off) as [[v o]| | |] eqn:E; cbn [bind]; try exact I; [|now apply getuleb_fuel in E]. apply getuleb_fwd in E.
    destruct (meStrx en v) eqn:X; cbn [bind]; try exact I; [cbn; lia|now apply C3 in X].
  - destruct (getuint data off (meLen en)) as [[v o]| | |] eqn:E; cbn [bind]; try exact I.
    + apply getuint_fwd in E; [|exact C4]. destruct (meStr en v) eqn:X; cbn [bind]; try exact I; [cbn; lia|now apply C2 in X].
    + unfold getuint in E. destruct (_ >? 16); [discriminate|]. destruct (secBytes data off (meLen en)) eqn:X; cbn [bind] in E; try discriminate. now apply secBytes_fuel in X.
Qed.
Lemma step5_good en dl li off : calm en -> 0 <= dl -> 0 <= off -> good off (step5 en data dl li off) /\ (zlen data <= off -> step5 en data dl li off = Throw).
Proof.
  intros C Hdl Ho. split; [|intros H; unfold step5; now rewrite getu8_end].
  unfold step5. destruct (getu8 data off) as [[c o1]| | |] eqn:E; cbn [bind]; try exact I.
  2:{ unfold getu8 in E. destruct (secBytes data off 1) eqn:X; cbn [bind] in E; try discriminate. now apply secBytes_fuel in X. }
  apply getu8_fwd in E as [-> L].
  destruct (c =? 3). { apply good_uleb; [lia|]. intros v o Lo. apply good_uleb; [lia|]. intros v2 o2 L2. destruct (startFile li v v2) eqn:X; cbn [bind]; try exact I; [cbn; lia|now apply startFile_fuel in X]. }
  destruct (c =? 7). { apply good_uint; [exact Hdl|lia|]. intros v o Lo. cbn. lia. }
  destruct ((c =? 11) || (c =? 5)). { apply good_uleb; [lia|]. intros v o Lo. apply (formStr_good en _ _ _ (EDefine v)); [exact C|lia]. }
  destruct (c =? 1). { apply good_uleb; [lia|]. intros v o Lo. destruct (getstring data o) as [t o3] eqn:G. apply getstring_fwd in G. cbn. lia. }
  destruct ((c =? 12) || (c =? 6)). { apply good_uleb; [lia|]. intros v o Lo. apply (formStr_good en _ _ _ (EUndef v)); [exact C|lia]. }
  destruct (c =? 2). { apply good_uleb; [lia|]. intros v o Lo. destruct (getstring data o) as [t o3] eqn:G. apply getstring_fwd in G. cbn. lia. }
  destruct (c =? 4); [cbn; lia|]. destruct (c =? 0); cbn; lia.
Qed.
Lemma opTable_fwd n : forall off, match opTable n data off with Ok (_, o) => off <= o | OutOfFuel => False | _ => True end.
Proof.
  induction n as [|n IH]; intros off; cbn [opTable]; [lia|].
  destruct (getu8 data off) as [[c o1]| | |] eqn:E; cbn [bind]; try exact I.
  2:{ unfold getu8 in E. destruct (secBytes data off 1) eqn:X; cbn [bind] in E; try discriminate. now apply secBytes_fuel in X. }
  apply getu8_fwd in E as [-> L].
  destruct (getuleb data (off + 1)) as [[v o]| | |] eqn:E; cbn [bind]; try exact I; [|now apply getuleb_fuel in E]. pose proof E as E'. apply getuleb_fwd in E.
  destruct (v >? 255); [exact I|]. destruct (secBytes data o v) eqn:X; cbn [bind]; try exact I; [|now apply secBytes_fuel in X].
  assert (0 <= v). { unfold getuleb in E'. destruct (readULEB Throw (zdrop (off + 1) data)) as [[w n']| | |] eqn:R; cbn [bind] in E'; try discriminate. inversion E'; subst. clear -R.
    assert (Q : forall bs sh acc k w n', 0 <= acc -> lebLoop false Throw bs sh acc k = Ok (w, n') -> 0 <= w).
    { induction bs as [|b bs IH]; intros sh acc k w0 n0 Ha H; cbn [lebLoop] in H; [discriminate|]. destruct (sh >=? 64); [discriminate|]. cbv zeta in H.
      assert (P : 0 <= Z.lor acc (u64 (Z.shiftl (Z.land b 127) sh))) by (apply Z.lor_nonneg; split; [exact Ha|apply u64_range]).
      destruct (Z.land b 128 =? 0); [cbn [andb] in H; inversion H; subst; exact P|eapply IH; [exact P|exact H]]. }
    eapply Q; [|exact R]. lia. }
  specialize (IH (o + v)). destruct (opTable n data (o + v)) as [[? ?]| | |]; cbn [bind]; auto. lia.
Qed.
Lemma open5_good en off : calm en -> match open5 en data off with Ok (dl, _, o) => off < o /\ 0 <= dl | OutOfFuel => False | _ => True end.
Proof.
  intros C. unfold open5, readD5.
  destruct (getu16 data off) as [[c o1]| | |] eqn:E; cbn [bind]; try exact I.
  2:{ unfold getu16 in E. destruct (secBytes data off 2) eqn:X; cbn [bind] in E; try discriminate. now apply secBytes_fuel in X. }
  assert (o1 = off + 2) by (unfold getu16 in E; destruct (secBytes data off 2); cbn [bind] in E; inversion E; reflexivity). subst o1.
  destruct (getu8 data (off + 2)) as [[fl o1]| | |] eqn:E1; cbn [bind]; try exact I.
  2:{ unfold getu8 in E1. destruct (secBytes data (off + 2) 1) eqn:X; cbn [bind] in E1; try discriminate. now apply secBytes_fuel in X. }
  apply getu8_fwd in E1 as [-> L]. cbv zeta. set (dl := if Z.testbit fl 0 then 8 else 4). assert (Hdl : 0 <= dl) by (unfold dl; destruct (Z.testbit fl 0); lia).
  assert (K : forall lo o3, off < o3 ->
    match (let* (dl0, lo, _, o) := (let* (ops, o4) := if Z.testbit fl 2 then let* (n, o) := getu8 data o3 in opTable (Z.to_nat n) data o else Ok ([], o3) in Ok (dl, lo, ops, o4)) in
      if lo =? -1 then Ok (dl0, None, o) else let* t := meLines en lo in Ok (dl0, Some t, o)) with Ok (dl0, _, o) => off < o /\ 0 <= dl0 | OutOfFuel => False | _ => True end).
  { intros lo o3 L3. destruct (Z.testbit fl 2).
    - destruct (getu8 data o3) as [[n o]| | |] eqn:E2; cbn [bind]; try exact I.
      2:{ unfold getu8 in E2. destruct (secBytes data o3 1) eqn:X; cbn [bind] in E2; try discriminate. now apply secBytes_fuel in X. }
      apply getu8_fwd in E2 as [-> L2]. pose proof (opTable_fwd (Z.to_nat n) (o3 + 1)) as T. destruct (opTable (Z.to_nat n) data (o3 + 1)) as [[? ?]| | |]; cbn [bind]; try exact I; [|easy].
      destruct (lo =? -1); [lia|]. destruct C as (C1 & _). destruct (meLines en lo) eqn:X; cbn [bind]; try exact I; [lia|now apply C1 in X].
    - cbn [bind]. destruct (lo =? -1); [lia|]. destruct C as (C1 & _). destruct (meLines en lo) eqn:X; cbn [bind]; try exact I; [lia|now apply C1 in X]. }
  destruct (Z.testbit fl 1); cbn [bind]; [|apply K; lia].
  destruct (getuint data (off + 2 + 1) dl) as [[v o]| | |] eqn:E2; cbn [bind]; try exact I.
  - apply getuint_fwd in E2; [|exact Hdl]. apply K. lia.
  - unfold getuint in E2. destruct (_ >? 16); [discriminate|]. destruct (secBytes data (off + 2 + 1) dl) eqn:X; cbn [bind] in E2; try discriminate. now apply secBytes_fuel in X.
Qed.
Lemma run5_total {V} (vis : V -> mevent -> V * bool) en : calm en ->
  (forall dl li off io o, step5 en data dl li off = Ok (MImport io, o) -> off < io) ->
  forall fuel dl li off v, 0 <= dl -> 0 <= off -> zlen data - off < Z.of_nat fuel -> (0 < fuel)%nat -> snd (run5 vis fuel en data dl li off v) <> OutOfFuel.
Proof.
  intros C Fw. induction fuel as [|f IH]; intros dl li off v Hdl Ho F F0; [lia|]. destruct (step5_good en dl li off C Hdl Ho) as [G Th]. cbn [run5].
  destruct (Z_le_dec (zlen data) off) as [L|L]; [rewrite (Th L); discriminate|].
  destruct (step5 en data dl li off) as [[s o]| | |] eqn:E; cbn in G; try (cbn; discriminate); [|easy].
  destruct s as [|e|i|]; [cbn; discriminate| | |apply IH; lia].
  - destruct (vis v e) as [v' b]. destruct b; [apply IH; lia|cbn; discriminate].
  - apply Fw in E. pose proof (open5_good en i C) as Op. destruct (open5 en data i) as [[[dl' li'] o']| | |]; try (cbn; discriminate); [|easy].
    pose proof (IH dl' li' o' v ltac:(lia) ltac:(lia) ltac:(lia) ltac:(lia)) as N. destruct (run5 vis f en data dl' li' o' v) as [v' r]. cbn [snd] in N.
    destruct r as [[|]| | |]; try (cbn; discriminate); [apply IH; lia|easy].
Qed.
End P.
