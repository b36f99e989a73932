(** Proofs about attribute lookup, range lists and address tests. *)
From Verif Require Import Base Leb LebSpec DwarfReader DwarfReaderProofs ReaderSpec CfiSpec CfiProofs CfiProofs2 ExprProofs Cursor LinesSpec LinesProofs Die DieAttr DieAttrSpec.
From Coq Require Import Permutation.

(** ** Lookup *)
Lemma nameIdx_in l : forall i n k, In (n, k) (nameIdx i l) <-> exists j f im, k = i + Z.of_nat j /\ nth_error l j = Some (n, f, im).
Proof.
  induction l as [|[[m f] im] r IH]; intros i n k; cbn [nameIdx In].
  - split; [intros []|]. intros ([|j] & ? & ? & _ & E); discriminate.
  - rewrite IH. split.
    + intros [E|(j & f' & im' & -> & E)].
      * apply pair_equal_spec in E as [-> ->]. exists 0%nat, f, im. split; [lia|reflexivity].
      * exists (S j), f', im'. split; [lia|exact E].
    + intros ([|j] & f' & im' & -> & E).
      * left. cbn in E. injection E as -> -> ->. f_equal. lia.
      * right. exists j, f', im'. split; [lia|exact E].
Qed.
Lemma insertP_perm x l : Permutation (x :: l) (insertP x l).
Proof. induction l as [|y r IH]; cbn [insertP]; [reflexivity|]. destruct (pairLe x y); [reflexivity|]. rewrite perm_swap. now constructor. Qed.
Lemma sortP_perm l : Permutation l (sortP l).
Proof. induction l as [|y r IH]; [reflexivity|]. cbn [sortP fold_right]. rewrite <- insertP_perm. now constructor. Qed.
Fixpoint sortedP (l : list (Z * Z)) : Prop := match l with [] => True | x :: r => (forall y, In y r -> pairLe x y = true) /\ sortedP r end.
Lemma pairLe_trans a b c : pairLe a b = true -> pairLe b c = true -> pairLe a c = true.
Proof. unfold pairLe. destruct a, b, c; cbn [fst snd]. lia. Qed.
Lemma pairLe_total a b : pairLe a b = false -> pairLe b a = true.
Proof. unfold pairLe. destruct a, b; cbn [fst snd]. lia. Qed.
Lemma insertP_sorted x l : sortedP l -> sortedP (insertP x l).
Proof.
  induction l as [|y r IH]; cbn [insertP sortedP]; [intros _; split; [intros ? []|exact I]|]. intros [A B]. destruct (pairLe x y) eqn:E; cbn [sortedP].
  - split; [|auto]. intros z [<-|Hz]; [exact E|]. eapply pairLe_trans; [exact E|auto].
  - split; [|auto]. intros z Hz. apply (Permutation_in z (Permutation_sym (insertP_perm x r))) in Hz. destruct Hz as [<-|Hz]; [now apply pairLe_total|auto].
Qed.
Lemma sortP_sorted l : sortedP (sortP l).
Proof. induction l as [|y r IH]; [exact I|]. cbn [sortP fold_right]. now apply insertP_sorted. Qed.
Lemma lowerBound_spec name l : sortedP l ->
  match lowerBound name l with
  | Some y => In y l /\ name <= fst y /\ (forall z, In z l -> name <= fst z -> pairLe y z = true)
  | None => forall z, In z l -> fst z < name
  end.
Proof.
  induction l as [|y r IH]; cbn [lowerBound sortedP]; [intros _ z []|]. intros [A B]. destruct (fst y <? name) eqn:E.
  - specialize (IH B). destruct (lowerBound name r) as [x|].
    + destruct IH as (I1 & I2 & I3). split; [now right|]. split; [exact I2|]. intros z [<-|Hz] L; [lia|auto].
    + intros z [<-|Hz]; [lia|auto].
  - split; [now left|]. split; [lia|]. intros z [<-|Hz] L; [unfold pairLe; lia|auto].
Qed.
Lemma znth_nat {A} (l : list A) j : znth (Z.of_nat j) l = nth_error l j.
Proof. rewrite znth_nth_error by lia. now rewrite Nat2Z.id. Qed.

(** The first attribute of that name, in declaration order. *)
Lemma ownAttr_first e name : length (eVals e) = length (eAttrs e) ->
  match ownAttr e name with
  | Some (form, v) => exists i impl, nth_error (eAttrs e) i = Some (name, form, impl) /\ nth_error (eVals e) i = Some v /\
                                      forall j f im, (j < i)%nat -> nth_error (eAttrs e) j <> Some (name, f, im)
  | None => hasNo e name
  end.
Proof.
  intros L. unfold ownAttr. pose proof (lowerBound_spec name _ (sortP_sorted (nameIdx 0 (eAttrs e)))) as S.
  assert (P : forall y, In y (sortP (nameIdx 0 (eAttrs e))) <-> In y (nameIdx 0 (eAttrs e))).
  { intros y. split; apply Permutation_in; [symmetry|]; apply sortP_perm. }
  assert (NN : (forall z, In z (nameIdx 0 (eAttrs e)) -> fst z <> name) -> hasNo e name).
  { intros H X. apply in_map_iff in X as ([[n f] im] & E & X). cbn in E. subst n. apply In_nth_error in X as [j X].
    apply (H (name, Z.of_nat j)); [|reflexivity]. apply nameIdx_in. exists j, f, im. split; [lia|exact X]. }
  destruct (lowerBound name (sortP (nameIdx 0 (eAttrs e)))) as [[n i]|].
  - destruct S as (I1 & I2 & I3). cbn [fst] in I2. apply P, nameIdx_in in I1 as (j & f & im & -> & E). destruct (n =? name) eqn:Q.
    + assert (n = name) by lia. subst n. rewrite Z.add_0_l, !znth_nat, E. 
      assert (V : nth_error (eVals e) j <> None) by (apply nth_error_Some; rewrite L; apply nth_error_Some; congruence).
      destruct (nth_error (eVals e) j) as [v|] eqn:Ev; [|congruence]. exists j, im. split; [exact E|]. split; [exact Ev|].
      intros j' f' im' Hj E'. assert (X : pairLe (name, Z.of_nat j) (name, Z.of_nat j') = true).
      { rewrite <- (Z.add_0_l (Z.of_nat j)). apply I3; [|cbn; lia]. apply P, nameIdx_in. exists j', f', im'. split; [lia|exact E']. }
      unfold pairLe in X. cbn [fst snd] in X. lia.
    + apply NN. intros z Hz Ez. assert (X : pairLe (n, 0 + Z.of_nat j) z = true) by (apply I3; [now apply P|lia]).
      unfold pairLe in X. cbn [fst snd] in X. lia.
  - apply NN. intros z Hz. apply P, S in Hz. lia.
Qed.
Lemma own_has e name form v : wfEntry e -> has e name form v -> ownAttr e name = Some (form, v).
Proof.
  intros [L ND] (i & im & E & V). pose proof (ownAttr_first e name L) as S. destruct (ownAttr e name) as [[f v']|].
  - destruct S as (j & im' & E' & V' & _). assert (i = j).
    { eapply (NoDup_nth_error (map (fun a => fst (fst a)) (eAttrs e))); [exact ND| |].
      - rewrite map_length. apply nth_error_Some. congruence.
      - rewrite !nth_error_map, E, E'. reflexivity. }
    subst j. congruence.
  - exfalso. apply S. apply in_map_iff. exists (name, form, im). split; [reflexivity|]. eapply nth_error_In; exact E.
Qed.
Lemma own_hasNo e name : wfEntry e -> hasNo e name -> ownAttr e name = None.
Proof.
  intros [L ND] H. pose proof (ownAttr_first e name L) as S. destruct (ownAttr e name) as [[f v']|]; [|reflexivity].
  destruct S as (j & im & E & _). exfalso. apply H. apply in_map_iff. exists (name, f, im). split; [reflexivity|]. eapply nth_error_In; exact E.
Qed.

Section Lk.
Context (ents : Z -> option entry) (Hw : forall o e, ents o = Some e -> wfEntry e /\ 0 <= eUnit e).
Lemma asDie_refers o e name p : ents o = Some e -> refersTo ents o name p -> asDie ents e (ownAttr e name) = Ok (Some p) /\ p <> o.
Proof.
  intros E (e' & form & w & E' & H & F & R & N & X). rewrite E in E'. apply Some_inj in E'. subst e'. split; [|exact N].
  rewrite (own_has e name form _ (proj1 (Hw _ _ E)) H). unfold asDie. destruct (ents p) as [ep|] eqn:Ep; [|congruence].
  destruct F as [[-> ->]|[F ->]]; [cbn [Z.eqb Pos.eqb]; now rewrite Ep|]. cbn [In] in F.
  assert (U : u64 (w + eUnit e) = eUnit e + w) by (rewrite Z.add_comm; now apply u64_id).
  repeat (destruct F as [<-|F]; [cbn [Z.eqb Pos.eqb orb]; rewrite U; now rewrite Ep|]). destruct F.
Qed.
Lemma asDie_no e name : wfEntry e -> hasNo e name -> asDie ents e (ownAttr e name) = Ok None.
Proof. intros W H. now rewrite (own_hasNo e name W H). Qed.
Lemma only_test name : ownOnly name <-> (name =? 60) || (name =? 49) || (name =? 71) = true.
Proof. unfold ownOnly. lia. Qed.

(** Where no entry has both references. *)
Definition oneRef : Prop := forall o e, ents o = Some e -> hasNo e 0x31 \/ hasNo e 0x47.
Lemma refers_has o e name p : ents o = Some e -> refersTo ents o name p -> ~ hasNo e name.
Proof.
  intros E (e' & form & w & E' & (i & im & H & _) & _) N. rewrite E in E'. apply Some_inj in E'. subst e'. apply N. apply in_map_iff.
  exists (name, form, im). split; [reflexivity|]. eapply nth_error_In; exact H.
Qed.
Lemma lookup_ok name o r : oneRef -> Lookup ents name o r -> exists n, forall fuel, (n <= fuel)%nat -> attribute ents fuel o name false = Ok r.
Proof.
  intros One H. induction H as [o e form v E H|o e E H N|o e p x E H N R L IH|o e p E H N R H2 L IH|o e p q r E H N R R2 L IH L2 IH2|o e p r E H N H1 R L IH|o e E H N H1 H2].
  1: { exists 1%nat. intros [|f] Hf; [lia|]. cbn [attribute]. rewrite E, (own_has e name form v (proj1 (Hw _ _ E)) H). reflexivity. }
  all: assert (W : wfEntry e) by exact (proj1 (Hw _ _ E)).
  all: pose proof (own_hasNo e name W H) as O.
  1: { exists 1%nat. intros [|f] Hf; [lia|]. cbn [attribute]. rewrite E, O. apply only_test in N. cbn [orb]. now rewrite N. }
  all: assert (T : (name =? 60) || (name =? 49) || (name =? 71) = false) by (destruct ((name =? 60) || (name =? 49) || (name =? 71)) eqn:Q; [exfalso; apply N, only_test; exact Q|reflexivity]).
  - destruct IH as [n IH]. exists (S n). intros [|f] Hf; [lia|]. cbn [attribute]. rewrite E, O. cbn [orb]. rewrite T.
    destruct (asDie_refers o e _ p E R) as [-> Np]. cbn [bind]. replace (p =? o) with false by lia. apply IH. lia.
  - destruct IH as [n IH]. exists (S n). intros [|f] Hf; [lia|]. cbn [attribute]. rewrite E, O. cbn [orb]. rewrite T.
    destruct (asDie_refers o e _ p E R) as [-> Np]. cbn [bind]. replace (p =? o) with false by lia. apply IH. lia.
  - exfalso. destruct (One o e E) as [X|X]; [apply (refers_has o e _ p E R X)|apply (refers_has o e _ q E R2 X)].
  - destruct IH as [n IH]. exists (S n). intros [|f] Hf; [lia|]. cbn [attribute]. rewrite E, O. cbn [orb]. rewrite T.
    rewrite (asDie_no e _ W H1). cbn [bind]. destruct (asDie_refers o e _ p E R) as [-> Np]. cbn [bind]. replace (p =? o) with false by lia. apply IH. lia.
  - exists 1%nat. intros [|f] Hf; [lia|]. cbn [attribute]. rewrite E, O. cbn [orb]. rewrite T.
    rewrite (asDie_no e _ W H1). cbn [bind]. rewrite (asDie_no e _ W H2). reflexivity.
Qed.
End Lk.

(** The order of the attributes does not matter. *)
Lemma own_perm e e' name : wfEntry e -> length (eVals e') = length (eAttrs e') ->
  Permutation (combine (eAttrs e) (eVals e)) (combine (eAttrs e') (eVals e')) -> ownAttr e' name = ownAttr e name.
Proof.
  intros W L' P. pose proof (ownAttr_first e' name L') as S.
  assert (Nth : forall (l : list (Z * Z * Z)) (m : list dval) i a v, nth_error l i = Some a -> nth_error m i = Some v -> nth_error (combine l m) i = Some (a, v)).
  { induction l as [|x l IH]; intros [|y m] [|i] a v A B; cbn in *; try discriminate; [congruence|auto]. }
  assert (Nth' : forall (l : list (Z * Z * Z)) (m : list dval) i a v, nth_error (combine l m) i = Some (a, v) -> nth_error l i = Some a /\ nth_error m i = Some v).
  { induction l as [|x l IH]; intros [|y m] [|i] a v A; cbn in *; try discriminate; [injection A as -> ->; auto|auto]. }
  destruct (ownAttr e' name) as [[f v]|].
  - destruct S as (i & im & E & V & _). symmetry. apply own_has; [exact W|].
    assert (I : In ((name, f, im), v) (combine (eAttrs e) (eVals e))) by (eapply Permutation_in; [symmetry; exact P|]; eapply nth_error_In; apply Nth; eauto).
    apply In_nth_error in I as [j I]. apply Nth' in I as [A B]. exists j, im. auto.
  - symmetry. apply own_hasNo; [exact W|]. intros X. apply S. apply in_map_iff in X as ([[n f] im] & E & X). cbn in E. subst n.
    apply In_nth_error in X as [j X]. destruct W as [L _].
    assert (V : nth_error (eVals e) j <> None) by (apply nth_error_Some; rewrite L; apply nth_error_Some; congruence).
    destruct (nth_error (eVals e) j) as [v|] eqn:Ev; [|congruence].
    assert (I : In ((name, f, im), v) (combine (eAttrs e') (eVals e'))) by (eapply Permutation_in; [exact P|]; eapply nth_error_In; apply Nth; eauto).
    apply In_nth_error in I as [k I]. apply Nth' in I as [A _]. apply in_map_iff. exists (name, f, im). split; [reflexivity|]. eapply nth_error_In; exact A.
Qed.

(** ** Tables *)
Lemma flat8 (l : list Z) i a : nth_error l i = Some a -> exists p q, flat_map (leBytes 8) l = p ++ leBytes 8 a ++ q /\ zlen p = 8 * Z.of_nat i.
Proof.
  revert i. induction l as [|x l IH]; intros [|i] E; cbn [nth_error flat_map] in *; try discriminate.
  - apply Some_inj in E. subst. exists [], (flat_map (leBytes 8) l). split; [reflexivity|]. reflexivity.
  - destruct (IH _ E) as (p & q & -> & L). exists (leBytes 8 x ++ p), q. split; [now rewrite <- app_assoc|]. rewrite zlen_app, leBytes_len. lia.
Qed.
Lemma addrx_ok d base addrs i : Forall isByte d -> zlen d + 32 < W64 -> addrTable d base addrs -> isIdx addrs i -> addrx (Some d) base i = Ok (tab addrs i).
Proof.
  intros Hd Hw (pre & post & Ed & -> & Hp & Ha) [I0 I1]. unfold addrx, tab. replace (2 <? zlen pre + 2) with true by lia.
  assert (A0 : at_ d (zlen pre + 2 - 2) ([8; 0] ++ flat_map (leBytes 8) addrs ++ post)).
  { replace (zlen pre + 2 - 2) with (zlen pre) by lia. split; [apply zlen_nonneg|]. exists []. rewrite Ed, zdrop_app_zlen. now rewrite app_nil_r. }
  pose proof A0 as A1. cbn [app] in A1. apply (rd_u8 d) in A1 as [E _]; [|exact Hw]. rewrite E. cbn [bind].
  apply at_app in A0 as [_ A0]. replace (zlen pre + 2 - 2 + zlen [8; 0]) with (zlen pre + 2) in A0 by (change (zlen [8; 0]) with 2; lia).
  destruct (nth_error addrs (Z.to_nat i)) as [a|] eqn:Na; [|apply nth_error_None in Na; unfold zlen in I1; lia].
  rewrite (nth_error_nth _ _ _ Na). destruct (flat8 addrs _ a Na) as (p & q & F & Lp). rewrite F, <- !app_assoc in A0. apply at_app in A0 as [_ A0].
  rewrite Lp, Z2Nat.id in A0 by lia.
  assert (a_ok : 0 <= a < W64) by (rewrite Forall_forall in Ha; apply Ha; eapply nth_error_In; exact Na).
  replace (zlen pre + 2 + 8 * i) with (zlen pre + 2 + i * 8) in A0 by lia.
  assert (B : zlen pre + 2 + i * 8 + 8 <= zlen d).
  { pose proof A0 as A2. apply at_app in A2 as [A2 _]. apply at_len in A2; [rewrite leBytes_len in A2; lia|discriminate]. }
  rewrite u64_id by (unfold isU64; lia). apply (rd_u64 d Hd Hw) in A0 as [E2 _]; [|exact a_ok]. rewrite E2. reflexivity.
Qed.

(** ** Range lists *)
Section Rl.
Context (data : list Z) (Hd : Forall isByte data) (Hw : zlen data + 32 < W64).
Lemma ranges4_ok l : forall fuel off base rest, (length l < fuel)%nat -> Forall wfR4 l -> 0 <= base -> noWrapR (means4 base l) -> at_ data off (encodeRanges4 l ++ rest) ->
  ranges4 fuel data off base = Ok (means4 base l).
Proof.
  unfold encodeRanges4. induction l as [|x l IH]; intros fuel off base rest Hf W Hb NW H; (destruct fuel as [|fuel]; [cbn in Hf; lia|]); cbn [ranges4 flat_map app] in *.
  - rewrite <- app_assoc in H. apply (rd_u64 data Hd Hw) in H as [E H]; [|unfold W64; lia]. apply (rd_u64 data Hd Hw) in H as [E2 H]; [|unfold W64; lia].
    rewrite E. cbn [bind]. rewrite E2. reflexivity.
  - inversion W as [|? ? W1 W2]; subst. cbn [length] in Hf. destruct x as [b|s e]; cbn [encodeR4 wfR4] in *; rewrite <- !app_assoc in H.
    + apply (rd_u64 data Hd Hw) in H as [E H]; [|unfold W64; lia]. apply (rd_u64 data Hd Hw) in H as [E2 H]; [|exact W1].
      rewrite E. cbn [bind]. rewrite E2. cbn [bind]. replace (W64 - 1 =? 0) with false by reflexivity. cbn [andb]. rewrite Z.eqb_refl.
      cbn [means4]. eapply IH; [lia|exact W2|lia|exact NW|]. rewrite <- !app_assoc. exact H.
    + destruct W1 as (Ws & We & Wn). apply (rd_u64 data Hd Hw) in H as [E H]; [|lia]. apply (rd_u64 data Hd Hw) in H as [E2 H]; [|exact We].
      rewrite E. cbn [bind]. rewrite E2. cbn [bind]. replace ((s =? 0) && (e =? 0)) with false by lia. replace (s =? W64 - 1) with false by lia.
      cbn [means4] in *. inversion NW as [|? ? N1 N2]; subst. cbn [fst snd] in N1.
      rewrite (IH fuel _ base rest); [|lia|exact W2|exact Hb|exact N2|rewrite <- !app_assoc; exact H]. cbn [bind].
      rewrite !u64_id by (unfold isU64; lia). do 3 f_equal; lia.
Qed.
Definition noStartxEndx (x : rl5) : Prop := match x with R5StartxEndx _ _ => False | _ => True end.
Lemma ranges5_ok alen addr addrs l : (0 < alen <= 8)%nat -> (forall i, isIdx addrs i -> addr i = Ok (tab addrs i)) -> (forall i, isIdx addrs i -> 0 <= tab addrs i) -> zlen addrs < W64 ->
  forall fuel off base rest, (length l < fuel)%nat -> Forall (wfR5 alen addrs) l -> Forall noStartxEndx l -> 0 <= base -> noWrapR (means5 addrs base l) ->
  at_ data off (encodeRanges5 alen l ++ rest) ->
  ranges5 fuel data addr (Z.of_nat alen) off base = Ok (means5 addrs base l).
Proof.
  intros Ha Hx Hx0 Hl. unfold encodeRanges5. induction l as [|x l IH]; intros fuel off base rest Hf W NS Hb NW H; (destruct fuel as [|fuel]; [cbn in Hf; lia|]); cbn [ranges5 flat_map app] in *.
  - apply (rd_u8 data Hw) in H as [E H]. rewrite E. reflexivity.
  - inversion W as [|? ? W1 W2]; subst. inversion NS as [|? ? S1 S2]; subst. cbn [length] in Hf.
    assert (G : forall off base, 0 <= base -> noWrapR (means5 addrs base l) -> at_ data off ((flat_map (encodeR5 alen) l ++ [0]) ++ rest) -> ranges5 fuel data addr (Z.of_nat alen) off base = Ok (means5 addrs base l)).
    { intros. eapply IH; eauto. lia. }
    destruct x as [i|i j|i n|s e|b|s e|s n]; cbn [encodeR5 wfR5 noStartxEndx means5 app] in *; unfold isIdx in *; try contradiction;
    apply (rd_u8 data Hw) in H as [E H]; rewrite E; cbn [bind Z.eqb Pos.eqb]; rewrite <- ?app_assoc in H; try rewrite app_assoc in H.
    + rewrite <- app_assoc in H. apply (rd_uleb data) in H as [E1 H]; [|lia]. rewrite E1. cbn [bind]. rewrite Hx by exact W1. cbn [bind].
      apply G; [now apply Hx0|exact NW|rewrite <- app_assoc; exact H].
    + rewrite <- !app_assoc in H. apply (rd_uleb data) in H as [E1 H]; [|lia]. rewrite E1. cbn [bind]. rewrite Hx by (unfold isIdx; lia). cbn [bind]. apply (rd_uleb data) in H as [E2 H]; [|lia]. rewrite E2. cbn [bind].
      inversion NW as [|? ? N1 N2]; subst. cbn [fst snd] in N1. rewrite (G _ base); [|exact Hb|exact N2|rewrite <- app_assoc; exact H]. cbn [bind].
      assert (0 <= tab addrs i) by (apply Hx0; unfold isIdx; lia). rewrite u64_id by (unfold isU64; lia). reflexivity.
    + rewrite <- !app_assoc in H. apply (rd_uleb data) in H as [E1 H]; [|lia]. rewrite E1. cbn [bind]. apply (rd_uleb data) in H as [E2 H]; [|lia]. rewrite E2. cbn [bind].
      inversion NW as [|? ? N1 N2]; subst. cbn [fst snd] in N1. rewrite (G _ base); [|exact Hb|exact N2|rewrite <- app_assoc; exact H]. cbn [bind].
      rewrite !u64_id by (unfold isU64; lia). do 3 f_equal; lia.
    + rewrite <- app_assoc in H. apply (rd_uint data Hd Hw) in H as [E1 H]; [|lia|lia]. rewrite E1. cbn [bind]. apply G; [lia|exact NW|rewrite <- app_assoc; exact H].
    + rewrite <- !app_assoc in H. apply (rd_uint data Hd Hw) in H as [E1 H]; [|lia|lia]. rewrite E1. cbn [bind]. apply (rd_uint data Hd Hw) in H as [E2 H]; [|lia|lia]. rewrite E2. cbn [bind].
      inversion NW as [|? ? N1 N2]; subst. rewrite (G _ base); [|exact Hb|exact N2|rewrite <- app_assoc; exact H]. reflexivity.
    + rewrite <- !app_assoc in H. apply (rd_uint data Hd Hw) in H as [E1 H]; [|lia|lia]. rewrite E1. cbn [bind]. apply (rd_uleb data) in H as [E2 H]; [|lia]. rewrite E2. cbn [bind].
      inversion NW as [|? ? N1 N2]; subst. cbn [fst snd] in N1. rewrite (G _ base); [|exact Hb|exact N2|rewrite <- app_assoc; exact H]. cbn [bind].
      rewrite u64_id by (unfold isU64; lia). reflexivity.
Qed.
End Rl.

(** ** The search *)
Fixpoint ftree_ind' (P : ftree -> Prop) (H : forall o ks, Forall P ks -> P (FT o ks)) (t : ftree) : P t :=
  match t with
  | FT o ks => H o ks ((fix go l : Forall P l := match l with [] => Forall_nil _ | k :: r => Forall_cons _ (ftree_ind' P H k) (go r) end) ks)
  end.
(** the search as a function of the answers *)
Fixpoint search (cov : Z -> contains) (tag : Z -> Z) (want : Z) (t : ftree) (skipStart : bool) : option Z :=
  match t with
  | FT o ks =>
      let inKids := (fix go l := match l with
                                 | [] => None
                                 | k :: r => match search cov tag want k false with Some x => Some x | None => go r end
                                 end) ks in
      match cov o with
      | NO => None
      | YES => if negb skipStart && (tag o =? want) then Some o else inKids
      | UNKNOWN => inKids
      end
  end.
Lemma find_app {A} (g : A -> bool) l m : find g (l ++ m) = match find g l with Some x => Some x | None => find g m end.
Proof. induction l as [|a l IH]; [reflexivity|]. cbn [app find]. now destruct (g a). Qed.
Lemma pre_dead cov tag want t : forall anc, forallb (fun a => negb (isNO (cov a))) anc = false -> find (hit cov tag want) (preorder anc t) = None.
Proof.
  induction t as [o ks IH] using ftree_ind'. intros anc H. cbn [preorder find]. unfold hit at 1. cbn [fst]. rewrite H. cbn [andb].
  assert (H' : forallb (fun a => negb (isNO (cov a))) (anc ++ [o]) = false) by (rewrite forallb_app, H; reflexivity).
  clear H. induction IH as [|k r Hk _ IHr]; [reflexivity|]. cbn [flat_map]. rewrite find_app, (Hk _ H'). exact IHr.
Qed.
Lemma search_kids cov tag want anc o ks : forallb (fun a => negb (isNO (cov a))) anc = true -> isNO (cov o) = false ->
  Forall (fun k => forall anc, forallb (fun a => negb (isNO (cov a))) anc = true -> search cov tag want k false = option_map snd (find (hit cov tag want) (preorder anc k))) ks ->
  (fix go l := match l with [] => None | k :: r => match search cov tag want k false with Some x => Some x | None => go r end end) ks =
    option_map snd (find (hit cov tag want) (flat_map (preorder (anc ++ [o])) ks)).
Proof.
  intros Ha Ho F. assert (H' : forallb (fun a => negb (isNO (cov a))) (anc ++ [o]) = true) by (rewrite forallb_app, Ha; cbn [forallb]; now rewrite Ho).
  induction F as [|k r Hk _ IHr]; [reflexivity|]. cbn [flat_map]. rewrite find_app, (Hk _ H'). destruct (find _ (preorder (anc ++ [o]) k)) as [x|]; cbn [option_map]; [reflexivity|exact IHr].
Qed.
Lemma search_ok cov tag want t : forall anc, forallb (fun a => negb (isNO (cov a))) anc = true -> search cov tag want t false = option_map snd (find (hit cov tag want) (preorder anc t)).
Proof.
  induction t as [o ks IH] using ftree_ind'. intros anc H. cbn [search preorder find]. unfold hit at 1. cbn [fst snd]. rewrite H. cbn [andb negb].
  destruct (cov o) eqn:C; cbn [isYES andb].
  - assert (H' : forallb (fun a => negb (isNO (cov a))) (anc ++ [o]) = false) by (rewrite forallb_app, H; cbn [forallb]; rewrite C; reflexivity).
    clear -H'. induction ks as [|k r IHr]; [reflexivity|]. cbn [flat_map]. rewrite find_app, (pre_dead _ _ _ _ _ H'). exact IHr.
  - destruct (tag o =? want); [reflexivity|]. apply search_kids; [exact H|now rewrite C|exact IH].
  - apply search_kids; [exact H|now rewrite C|exact IH].
Qed.
Lemma search_skip cov tag want t : search cov tag want t true = option_map snd (find (hit cov tag want) (tl (preorder [] t))).
Proof.
  destruct t as [o ks]. cbn [search preorder tl negb andb]. destruct (cov o) eqn:C.
  - assert (H' : forallb (fun a => negb (isNO (cov a))) ([] ++ [o]) = false) by (cbn [app forallb]; rewrite C; reflexivity).
    induction ks as [|k r IHr]; [reflexivity|]. cbn [flat_map]. rewrite find_app, (pre_dead _ _ _ _ _ H'). exact IHr.
  - apply search_kids; [reflexivity|now rewrite C|]. apply Forall_forall. intros k _ anc Ha. now apply search_ok.
  - apply search_kids; [reflexivity|now rewrite C|]. apply Forall_forall. intros k _ anc Ha. now apply search_ok.
Qed.

(** ** Address tests *)
Section Ct.
Context (ents : Z -> option entry) (units : Z -> uenv) (s : secs) (fuel : nat).
Let CA := containsAddress ents units s fuel.
Lemma addr_form addrs u form v a : unitTable s u addrs -> addrIs addrs form v a -> addrForm form = true /\ toU s u form v = Ok a.
Proof.
  intros T [[-> ->]|[F (i & -> & I & ->)]]; [split; reflexivity|].
  unfold unitTable in T. destruct (sAddr s) as [d|] eqn:E; [|subst addrs; destruct I as [I0 I1]; change (zlen (@nil Z)) with 0 in I1; lia].
  destruct T as (T1 & T2 & T3). pose proof (addrx_ok d _ addrs i T1 T2 T3 I) as X. cbn [In] in F.
  repeat (destruct F as [<-|F]; [split; [reflexivity|unfold toU; cbn [Z.eqb Pos.eqb orb]; rewrite E; exact X]|]). destruct F.
Qed.
Lemma contains_low_high c o e addrs lf lv hf hv start fin a : ents o = Some e -> wfEntry e -> unitTable s (units (eUnit e)) addrs ->
  has e 0x11 lf lv -> has e 0x12 hf hv -> addrIs addrs lf lv start -> endIs addrs start hf hv fin -> 0 <= start -> fin < W64 ->
  CA c o a = (c, Ok (if (start <=? a) && (a <? fin) then YES else NO)).
Proof.
  intros E W T L H La He H0 Hf. unfold CA, containsAddress. rewrite E, (own_has _ _ _ _ W L), (own_has _ _ _ _ W H).
  destruct (addr_form addrs _ _ _ _ T La) as [-> ->]. cbn [bind]. destruct He as [He|[F (n & -> & N0 & ->)]].
  - destruct (addr_form addrs _ _ _ _ T He) as [-> ->]. reflexivity.
  - cbn [In] in F. repeat (destruct F as [<-|F]; [cbn [addrForm Z.eqb Pos.eqb orb toU bind]; rewrite u64_id by (unfold isU64; lia); reflexivity|]). destruct F.
Qed.
(** the base address containsAddress hands to Unit::getRanges *)
Definition callBase (e : entry) : res Z := match ownAttr e 0x11 with Some (lf, lv) => toU s (units (eUnit e)) lf lv | None => Ok 0 end.
Definition realBase (e : entry) (b : Z) : Z := if b =? 0 then match uLow (units (eUnit e)) with Some l => l | None => b end else b.
Definition cacheOk (c : rcache) : Prop := forall o r, c o = Some r -> exists e b, ents o = Some e /\ callBase e = Ok b /\ rangesOf ents units s fuel o (realBase e b) = Ok r.
Lemma unitRanges_ok c o e b : cacheOk c -> ents o = Some e -> callBase e = Ok b ->
  snd (unitRanges ents units s fuel c o b) = rangesOf ents units s fuel o (realBase e b) /\ cacheOk (fst (unitRanges ents units s fuel c o b)).
Proof.
  intros C E B. unfold unitRanges. rewrite E. fold (realBase e b). destruct (c o) as [r|] eqn:Q.
  - cbn [fst snd]. split; [|exact C]. destruct (C _ _ Q) as (e' & b' & E' & B' & R). rewrite E in E'. apply Some_inj in E'. subst e'. rewrite B in B'. injection B' as <-. now rewrite R.
  - destruct (rangesOf ents units s fuel o (realBase e b)) as [r| | |] eqn:R; cbn [fst snd]; (split; [reflexivity|]); auto.
    intros k r' H. destruct (k =? o) eqn:K; [|now apply C]. apply Some_inj in H. subst r'. assert (k = o) by lia. subst k. eauto 6.
Qed.
Lemma contains_pure c o a : cacheOk c -> snd (CA c o a) = snd (CA (fun _ => None) o a) /\ cacheOk (fst (CA c o a)).
Proof.
  intros C. assert (C0 : cacheOk (fun _ => None)) by (intros ? ? X; discriminate X).
  unfold CA, containsAddress. destruct (ents o) as [e|] eqn:E; [|split; [reflexivity|exact C]].
  assert (G : forall low, low = ownAttr e 0x11 -> forall c, cacheOk c -> 
     snd (match attribute ents fuel o 85 false with
          | Ok None => (c, Ok UNKNOWN)
          | Ok (Some _) =>
              match (match low with Some (lf, lv) => toU s (units (eUnit e)) lf lv | None => Ok 0 end) with
              | Ok base =>
                  match unitRanges ents units s fuel c o base with
                  | (c', Ok rs) => (c', Ok (if existsb (fun r => (fst r <=? a) && (a <=? snd r)) rs then YES else NO))
                  | (c', Throw) => (c', Throw) | (c', UB) => (c', UB) | (c', OutOfFuel) => (c', OutOfFuel)
                  end
              | Throw => (c, Throw) | UB => (c, UB) | OutOfFuel => (c, OutOfFuel)
              end
          | Throw => (c, Throw) | UB => (c, UB) | OutOfFuel => (c, OutOfFuel)
          end) =
     match attribute ents fuel o 85 false with
          | Ok None => Ok UNKNOWN
          | Ok (Some _) => let* b := callBase e in let* rs := rangesOf ents units s fuel o (realBase e b) in Ok (if existsb (fun r => (fst r <=? a) && (a <=? snd r)) rs then YES else NO)
          | Throw => Throw | UB => UB | OutOfFuel => OutOfFuel
          end /\
     cacheOk (fst (match attribute ents fuel o 85 false with
          | Ok None => (c, Ok UNKNOWN)
          | Ok (Some _) =>
              match (match low with Some (lf, lv) => toU s (units (eUnit e)) lf lv | None => Ok 0 end) with
              | Ok base =>
                  match unitRanges ents units s fuel c o base with
                  | (c', Ok rs) => (c', Ok (if existsb (fun r => (fst r <=? a) && (a <=? snd r)) rs then YES else NO))
                  | (c', Throw) => (c', Throw) | (c', UB) => (c', UB) | (c', OutOfFuel) => (c', OutOfFuel)
                  end
              | Throw => (c, Throw) | UB => (c, UB) | OutOfFuel => (c, OutOfFuel)
              end
          | Throw => (c, Throw) | UB => (c, UB) | OutOfFuel => (c, OutOfFuel)
          end))).
  { intros low -> c' C'. destruct (attribute ents fuel o 85 false) as [[x|]| | |]; try (split; [reflexivity|exact C']).
    fold (callBase e). destruct (callBase e) as [b| | |] eqn:B; try (split; [reflexivity|exact C']).
    destruct (unitRanges_ok c' o e b C' E B) as [U1 U2]. destruct (unitRanges ents units s fuel c' o b) as [c2 x2]. cbn [fst snd bind] in *. rewrite <- U1.
    destruct x2; split; try reflexivity; exact U2. }
  destruct (ownAttr e 17) as [[lf lv]|] eqn:L; [destruct (ownAttr e 18) as [[hf hv]|] eqn:H; [split; [reflexivity|exact C]|]|];
  pose proof (G _ eq_refl c C) as [G1 G2]; pose proof (G _ eq_refl _ C0) as [G3 _]; (split; [rewrite G1, G3; reflexivity|exact G2]).
Qed.
Lemma contains_ranges c o e a : cacheOk c -> ents o = Some e -> wfEntry e -> (hasNo e 0x11 \/ hasNo e 0x12) ->
  snd (CA c o a) = match attribute ents fuel o 85 false with
          | Ok None => Ok UNKNOWN
          | Ok (Some _) => let* b := callBase e in let* rs := rangesOf ents units s fuel o (realBase e b) in Ok (if existsb (fun r => (fst r <=? a) && (a <=? snd r)) rs then YES else NO)
          | Throw => Throw | UB => UB | OutOfFuel => OutOfFuel
          end.
Proof.
  intros C E W N. unfold CA, containsAddress. rewrite E.
  assert (G : forall low, low = ownAttr e 0x11 -> 
     snd (match attribute ents fuel o 85 false with
          | Ok None => (c, Ok UNKNOWN)
          | Ok (Some _) =>
              match (match low with Some (lf, lv) => toU s (units (eUnit e)) lf lv | None => Ok 0 end) with
              | Ok base =>
                  match unitRanges ents units s fuel c o base with
                  | (c', Ok rs) => (c', Ok (if existsb (fun r => (fst r <=? a) && (a <=? snd r)) rs then YES else NO))
                  | (c', Throw) => (c', Throw) | (c', UB) => (c', UB) | (c', OutOfFuel) => (c', OutOfFuel)
                  end
              | Throw => (c, Throw) | UB => (c, UB) | OutOfFuel => (c, OutOfFuel)
              end
          | Throw => (c, Throw) | UB => (c, UB) | OutOfFuel => (c, OutOfFuel)
          end) =
     match attribute ents fuel o 85 false with
          | Ok None => Ok UNKNOWN
          | Ok (Some _) => let* b := callBase e in let* rs := rangesOf ents units s fuel o (realBase e b) in Ok (if existsb (fun r => (fst r <=? a) && (a <=? snd r)) rs then YES else NO)
          | Throw => Throw | UB => UB | OutOfFuel => OutOfFuel
          end).
  { intros low ->. destruct (attribute ents fuel o 85 false) as [[x|]| | |]; try reflexivity.
    fold (callBase e). destruct (callBase e) as [b| | |] eqn:B; try reflexivity.
    destruct (unitRanges_ok c o e b C E B) as [U1 U2]. destruct (unitRanges ents units s fuel c o b) as [c2 x2]. cbn [fst snd bind] in *. rewrite <- U1.
    destruct x2; reflexivity. }
  destruct N as [N|N].
  - rewrite (own_hasNo _ _ W N) in *. exact (G _ eq_refl).
  - rewrite (own_hasNo _ _ W N) in *. destruct (ownAttr e 17) as [[lf lv]|] eqn:L; exact (G _ eq_refl).
Qed.

(** ** The search of the tree *)
Inductive inF : Z -> ftree -> Prop := InF o ks : inF o (FT o ks) | InFK x o k ks : In k ks -> inF x k -> inF x (FT o ks).
Lemma findEntry_search a want cov t : (forall o, inF o t -> snd (CA (fun _ => None) o a) = Ok (cov o)) -> forall c skip, cacheOk c ->
  snd (findEntry ents units s fuel a want c t skip) = Ok (search cov (tagOf ents) want t skip) /\ cacheOk (fst (findEntry ents units s fuel a want c t skip)).
Proof.
  induction t as [o ks IH] using ftree_ind'. intros Hc c skip C. cbn [findEntry search]. fold CA.
  destruct (contains_pure c o a C) as [P1 P2]. rewrite (Hc o (InF o ks)) in P1. destruct (CA c o a) as [c1 x]. cbn [fst snd] in *. subst x.
  assert (K : forall l, (forall k, In k l -> In k ks) -> forall c, cacheOk c ->
     let go := (fix go (c : rcache) (l : list ftree) :=
                       match l with
                       | [] => (c, Ok None)
                       | k :: r => match findEntry ents units s fuel a want c k false with
                                   | (c', Ok None) => go c' r
                                   | x => x
                                   end
                       end) in
     snd (go c l) = Ok ((fix go l := match l with
                                 | [] => None
                                 | k :: r => match search cov (tagOf ents) want k false with Some x => Some x | None => go r end
                                 end) l) /\ cacheOk (fst (go c l))).
  { rewrite Forall_forall in IH. induction l as [|k r IHr]; intros Hin c0 C0; cbv zeta in *; [split; [reflexivity|exact C0]|].
    destruct (IH k (Hin k (or_introl eq_refl)) (fun y Hy => Hc y (InFK y o k ks (Hin k (or_introl eq_refl)) Hy)) c0 false C0) as [S1 S2].
    destruct (findEntry ents units s fuel a want c0 k false) as [c2 x2]. cbn [fst snd] in *. subst x2.
    destruct (search cov (tagOf ents) want k false) as [z|]; [split; [reflexivity|exact S2]|]. apply IHr; [|exact S2]. intros k' Hk'. apply Hin. now right. }
  specialize (K ks (fun k h => h) c1 P2). cbv zeta in K. destruct (cov o); [split; [reflexivity|exact P2]| |exact K].
  destruct (negb skip && (tagOf ents o =? want)); [split; [reflexivity|exact P2]|exact K].
Qed.
End Ct.

Lemma encR4_len l : (length l <= length (encodeRanges4 l))%nat.
Proof. unfold encodeRanges4. rewrite app_length. generalize (length (leBytes 8 0 ++ leBytes 8 0)). intros k. induction l as [|x l IH]; [cbn; lia|]. cbn [flat_map length]. rewrite app_length. destruct x; cbn [encodeR4]; rewrite app_length; cbn [leBytes length]; lia. Qed.
Lemma encR5_len alen l : (length l < length (encodeRanges5 alen l))%nat.
Proof. unfold encodeRanges5. rewrite app_length. induction l as [|x l IH]; [cbn; lia|]. cbn [flat_map length]. rewrite app_length. destruct x; cbn [encodeR5 length] in *; lia. Qed.
Lemma ranges_ok fuel s u addrs off base rs : unitTable s u addrs -> rangesAre s u addrs off base rs ->
  (length (sRanges s) < fuel)%nat -> (length (sRnglists s) < fuel)%nat -> ranges fuel s u off base = Ok rs.
Proof.
  intros T (B0 & NW & R) F4 F5. unfold ranges. destruct (uVer u <? 5).
  - destruct R as (Hd & Hw & pre & l & post & E & <- & W & ->).
    apply (ranges4_ok _ Hd Hw l fuel _ base post); auto.
    + rewrite E, !app_length in F4. pose proof (encR4_len l). lia.
    + split; [apply zlen_nonneg|]. exists []. rewrite E, zdrop_app_zlen. now rewrite app_nil_r.
  - destruct R as (Hd & Hw & alen & pre & l & post & <- & Ha & E & <- & W & NS & ->).
    eapply (ranges5_ok _ Hd Hw alen _ addrs l); try eassumption.
    + intros i Hi. unfold unitTable in T. destruct (sAddr s) as [d|]; [|subst addrs; destruct Hi as [I0 I1]; change (zlen (@nil Z)) with 0 in I1; lia].
      destruct T as (T1 & T2 & T3). now apply addrx_ok.
    + intros i [I0 I1]. unfold unitTable in T. destruct (sAddr s) as [d|]; [|subst addrs; change (zlen (@nil Z)) with 0 in I1; lia].
      destruct T as (_ & _ & pre' & post' & _ & _ & _ & Fa). unfold tab. destruct (nth_error addrs (Z.to_nat i)) as [a|] eqn:Na; [|apply nth_error_None in Na; unfold zlen in I1; lia].
      rewrite (nth_error_nth _ _ _ Na). rewrite Forall_forall in Fa. apply nth_error_In in Na. apply Fa in Na. lia.
    + unfold unitTable in T. destruct (sAddr s) as [d|]; [|subst addrs; reflexivity].
      destruct T as (T1 & T2 & pre' & post' & Ed & _). apply (f_equal zlen) in Ed. rewrite !zlen_app in Ed.
      assert (X : zlen addrs <= zlen (flat_map (leBytes 8) addrs)).
      { clear. unfold zlen. induction addrs as [|a r IH]; [cbn; lia|]. cbn [flat_map length]. rewrite app_length. change (length (leBytes 8 a)) with 8%nat. lia. }
      pose proof (zlen_nonneg pre'). pose proof (zlen_nonneg post'). pose proof (zlen_nonneg [8; 0]). lia.
    + rewrite E, !app_length in F5. pose proof (encR5_len alen l). lia.
    + split; [apply zlen_nonneg|]. exists []. rewrite E, zdrop_app_zlen. now rewrite app_nil_r.
Qed.
(** A history of tests. *)
Fixpoint caHistory (ents : Z -> option entry) (units : Z -> uenv) (s : secs) (fuel : nat) (c : rcache) (h : list (Z * Z)) : rcache :=
  match h with [] => c | (o, a) :: r => caHistory ents units s fuel (fst (containsAddress ents units s fuel c o a)) r end.
Lemma caHistory_ok ents units s fuel h : forall c, cacheOk ents units s fuel c -> cacheOk ents units s fuel (caHistory ents units s fuel c h).
Proof. induction h as [|[o a] r IH]; intros c C; [exact C|]. cbn [caHistory]. apply IH. now apply contains_pure. Qed.

(** The default base address: the low_pc of the unit, or 0. *)
Definition unitBase (u : uenv) : Z := match uLow u with Some l => l | None => 0 end.
Lemma contains_ranges_ok ents units s fuel h o e a addrs o' e' off rs :
  (forall x y, ents x = Some y -> wfEntry y /\ 0 <= eUnit y) -> ents o = Some e -> (hasNo e 0x12 /\ hasNo e 0x11) ->
  attribute ents fuel o 0x55 false = Ok (Some (o', 0x17, VWord off)) -> ents o' = Some e' ->
  unitTable s (units (eUnit e)) addrs -> rangesAre s (units (eUnit e)) addrs off (unitBase (units (eUnit e))) rs ->
  (length (sRanges s) < fuel)%nat -> (length (sRnglists s) < fuel)%nat ->
  snd (containsAddress ents units s fuel (caHistory ents units s fuel (fun _ => None) h) o a) =
    Ok (if existsb (fun r => (fst r <=? a) && (a <=? snd r)) rs then YES else NO).
Proof.
  intros Hw E [N12 N11] A E' T R F4 F5. assert (W : wfEntry e) by (eapply Hw; eauto).
  rewrite (contains_ranges ents units s fuel _ o e a); [|apply caHistory_ok; intros ? ? X; discriminate X|exact E|exact W|now left].
  rewrite A. unfold callBase. rewrite (own_hasNo _ _ W N11). cbn [bind].
  assert (X : rangesOf ents units s fuel o (realBase units e 0) = Ok rs).
  { unfold rangesOf. rewrite E, A. cbn [bind]. rewrite E'. change (toU s (units (eUnit e')) 23 (VWord off)) with (@Ok Z off). cbn [bind].
    apply ranges_ok with (addrs := addrs); auto. }
  rewrite X. reflexivity.
Qed.
