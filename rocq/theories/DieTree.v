(** Decoding abbreviations and entries; the tree of entries as the navigation sees it. *)
From Verif Require Import Base Leb LebSpec DwarfReader DwarfReaderProofs ReaderSpec CfiSpec CfiProofs CfiProofs2 ExprProofs Cursor LinesSpec LinesProofs Die DieSpec DieProofs DieNav.

(** The table the code builds from a list of declarations. *)
Definition abbrevOf (d : sdecl) : abbrev := mkAbbrev (sdTag d) (sdKids d) (sdAttrs d).
Definition tableOf (ds : list sdecl) : list (Z * abbrev) := map (fun d => (sdCode d, abbrevOf d)) ds.

Section Abbrevs.
Context (data : list Z) (Hd : Forall isByte data) (Hw : zlen data + 32 < W64).
Lemma uleb0 : uleb 0 = [0]. Proof. reflexivity. Qed.
Lemma readAttrs_at attrs : forall fuel off rest, (length attrs < fuel)%nat ->
  Forall (fun a => let '(name, form, v) := a in 0 < name < W64 /\ 0 < form < W64 /\ (if form =? 0x21 then - 2 ^ 63 <= v < 2 ^ 63 else v = 0)) attrs ->
  at_ data off ((flat_map encodeSpec attrs ++ [0; 0]) ++ rest) ->
  readAttrs fuel data off = Ok (attrs, off + zlen (flat_map encodeSpec attrs ++ [0; 0])) /\ at_ data (off + zlen (flat_map encodeSpec attrs ++ [0; 0])) rest.
Proof.
  induction attrs as [|[[name form] v] r IH]; intros fuel off rest Hf W H; (destruct fuel as [|fuel]; [cbn in Hf; lia|]); cbn [readAttrs flat_map app] in *.
  - change (0 :: 0 :: rest) with (uleb 0 ++ uleb 0 ++ rest) in H. apply (rd_uleb data) in H as [E H]; [|unfold W64; lia].
    apply (rd_uleb data) in H as [E' H]; [|unfold W64; lia]. rewrite E. cbn [bind]. rewrite E'. cbn [bind]. cbn [Z.eqb andb].
    rewrite uleb0 in *. change (zlen [0; 0]) with 2. change (zlen [0]) with 1 in *. rewrite <- Z.add_assoc in *. auto.
  - inversion W as [|? ? W1 W2]; subst. destruct W1 as (Wn & Wf & Wv).
    unfold encodeSpec in H at 1. unfold encodeSpec at 1 3. rewrite <- !app_assoc in H.
    apply (rd_uleb data) in H as [E H]; [|lia]. apply (rd_uleb data) in H as [E' H]; [|lia]. rewrite E. cbn [bind]. rewrite E'. cbn [bind].
    replace (name =? 0) with false by lia. cbn [andb]. cbn [length] in Hf.
    destruct (form =? 33) eqn:F.
    + apply (rd_sleb data) in H as [E2 H]; [|exact Wv]. rewrite E2. cbn [bind].
      rewrite app_assoc in H. destruct (IH fuel _ rest ltac:(lia) W2 H) as [E3 H3]. rewrite E3. cbn [bind].
      rewrite !zlen_app in *. rewrite !Z.add_assoc in *. auto.
    + subst v. cbn [bind app] in *. change (0 :: 0 :: rest) with ([0; 0] ++ rest) in H. rewrite app_assoc in H. destruct (IH fuel _ rest ltac:(lia) W2 H) as [E3 H3]. rewrite E3. cbn [bind].
      rewrite !zlen_app in *. change (zlen (@nil Z)) with 0. rewrite !Z.add_assoc, ?Z.add_0_r in *. auto.
Qed.
Lemma readAbbrev_at d fuel off rest : (length (sdAttrs d) < fuel)%nat -> wfDecl d ->
  let body := uleb (sdTag d) ++ [if sdKids d then 1 else 0] ++ flat_map encodeSpec (sdAttrs d) ++ [0; 0] in
  at_ data off (body ++ rest) ->
  readAbbrev fuel data off = Ok (abbrevOf d, off + zlen body) /\ at_ data (off + zlen body) rest.
Proof.
  intros Hf (Wc & Wt & Wa) body H. unfold body in *. clear body. rewrite <- !app_assoc in H. cbn [app] in H.
  apply (rd_uleb data) in H as [E H]; [|exact Wt]. apply (rd_u8 data Hw) in H as [E1 H].
  change (0 :: 0 :: rest) with ([0; 0] ++ rest) in H. rewrite app_assoc in H.
  destruct (readAttrs_at (sdAttrs d) fuel _ rest Hf Wa H) as [E2 H2]. unfold readAbbrev. rewrite E. cbn [bind]. rewrite E1. cbn [bind]. rewrite E2. cbn [bind].
  rewrite !zlen_app in *. change (zlen [if sdKids d then 1 else 0]) with 1. rewrite !Z.add_assoc in *.
  split; [|exact H2]. unfold abbrevOf. destruct (sdKids d); reflexivity.
Qed.
Lemma loadAbbrevs_at ds : forall fuel off rest acc, (length (encodeDecls ds) < fuel)%nat -> Forall wfDecl ds -> at_ data off (encodeDecls ds ++ rest) ->
  loadAbbrevs fuel data off acc = Ok (acc ++ tableOf ds).
Proof.
  unfold encodeDecls. induction ds as [|d ds IH]; intros fuel off rest acc Hf W H; (destruct fuel as [|fuel]; [lia|]); cbn [loadAbbrevs flat_map app tableOf map] in *.
  - change (0 :: rest) with (uleb 0 ++ rest) in H. apply (rd_uleb data) in H as [E H]; [|unfold W64; lia]. rewrite E. cbn [bind Z.eqb]. now rewrite app_nil_r.
  - inversion W as [|? ? W1 W2]; subst. unfold encodeDecl in H at 1. unfold encodeDecl in Hf at 1. rewrite <- !app_assoc in H.
    apply (rd_uleb data) in H as [E H]; [|destruct W1; lia]. rewrite E. cbn [bind]. replace (sdCode d =? 0) with false by (destruct W1; lia).
    assert (L : (length (sdAttrs d) <= length (flat_map encodeSpec (sdAttrs d)))%nat).
    { clear. induction (sdAttrs d) as [|[[n f] v] r IH]; [cbn; lia|]. cbn [flat_map length]. rewrite app_length. unfold encodeSpec at 1. rewrite app_length.
      pose proof (uleb_ne n). destruct (uleb n); [congruence|]. cbn [length]. lia. }
    rewrite !app_length in Hf. cbn [length] in Hf.
    assert (L2 : (1 <= length (uleb (sdCode d)))%nat) by (pose proof (uleb_ne (sdCode d)); destruct (uleb (sdCode d)); [congruence|cbn [length]; lia]).
    edestruct (readAbbrev_at d fuel) as [E2 H2]; [|exact W1| |]; [lia| |].
    { rewrite <- !app_assoc. exact H. }
    rewrite E2. cbn [bind]. rewrite (IH fuel _ rest); [|rewrite app_length; cbn [length]; lia|exact W2|rewrite <- app_assoc; exact H2].
    rewrite <- app_assoc. reflexivity.
Qed.
Lemma findAbbrev_table ds code : findAbbrev (tableOf ds) code = option_map abbrevOf (declOf ds code).
Proof.
  unfold declOf. induction ds as [|d ds IH]; [reflexivity|]. cbn [tableOf map findAbbrev find]. destruct (sdCode d =? code); [reflexivity|exact IH].
Qed.
End Abbrevs.

(** ** Entries *)
Fixpoint dtree_ind' (P : dtree -> Prop) (H : forall c vs ks, Forall P ks -> P (DT c vs ks)) (t : dtree) : P t :=
  match t with
  | DT c vs ks => H c vs ks ((fix go l : Forall P l := match l with [] => Forall_nil _ | k :: r => Forall_cons _ (dtree_ind' P H k) (go r) end) ks)
  end.
(** all the values of a tree satisfy [P] *)
Inductive allVals (P : aval -> Prop) : dtree -> Prop := AllVals c vs ks : Forall P vs -> Forall (allVals P) ks -> allVals P (DT c vs ks).
(** The values of an entry as stored, by the offset they are at. *)
Fixpoint valsAt (f : fmt) (off : Z) (vs : list aval) : list dval :=
  match vs with [] => [] | v :: r => valueOf off v :: valsAt f (off + zlen (encodeA f v)) r end.

Section Entries.
Context (data : list Z) (Hd : Forall isByte data) (Hw : zlen data + 32 < W64).
Context (f : fmt) (base fin root : Z) (Hf : wfFmt f) (ds : list sdecl) (Hds : Forall wfDecl ds).
Let u := unitOf f base fin root.
Let dec := decode data u (tableOf ds).

Lemma readVals_at (P : Z * Z * Z -> aval -> Prop) attrs vs : 
  Forall2 (fun a v => snd (fst a) = formOfA v /\ (forall x, v = AImplicit x -> x = snd a) /\ wfA f v /\ P a v) attrs vs ->
  Forall (offsetSmall f) vs -> forall off rest,
  at_ data off (flat_map (encodeA f) vs ++ rest) ->
  readVals data u attrs off = Ok (valsAt f off vs, off + zlen (flat_map (encodeA f) vs)) /\ at_ data (off + zlen (flat_map (encodeA f) vs)) rest.
Proof.
  induction 1 as [|[[n fm] im] v attrs vs (A & B & C & _) _ IH]; intros S off rest H; cbn [readVals flat_map app valsAt] in *.
  - change (zlen (@nil Z)) with 0. rewrite Z.add_0_r. auto.
  - inversion S as [|? ? S1 S2]; subst. cbn [fst snd] in *. subst fm. rewrite <- app_assoc in H.
    destruct (readForm_at data Hd Hw f base fin root Hf v off _ im C S1 (fun x e => eq_sym (B x e)) H) as [E H']. fold u in E. rewrite E. cbn [bind].
    destruct (IH S2 _ _ H') as [E2 H2]. rewrite E2. cbn [bind]. rewrite zlen_app, Z.add_assoc. auto.
Qed.
Lemma decl_wf c d : declOf ds c = Some d -> wfDecl d /\ sdCode d = c.
Proof. unfold declOf. intros E. apply find_some in E as [I E]. rewrite Forall_forall in Hds. split; [auto|lia]. Qed.

(** The index of the sibling attribute designates a sibling attribute. *)
Lemma sibIdx_spec l i k : sibIdx i l = Some k -> exists j n fm im, k = (i + j)%nat /\ nth_error l j = Some (n, fm, im) /\ n = 1.
Proof.
  revert i. induction l as [|[[n fm] im] r IH]; intros i; cbn [sibIdx]; [discriminate|].
  destruct (sibIdx (S i) r) as [k'|] eqn:E.
  - intros Q. apply Some_inj in Q. subst k'. destruct (IH _ E) as (j & n' & f' & i' & -> & X & Y). exists (S j), n', f', i'. split; [lia|auto].
  - destruct (n =? 1) eqn:Q; [|discriminate]. intros X. apply Some_inj in X. subst k. exists 0%nat, n, fm, im. split; [lia|]. split; [reflexivity|lia].
Qed.
Lemma valsAt_nth vs : forall off j v, nth_error vs j = Some v -> exists o, nth_error (valsAt f off vs) j = Some (valueOf o v).
Proof.
  induction vs as [|x r IH]; intros off [|j] v H; cbn [nth_error valsAt] in *; try discriminate.
  - apply Some_inj in H. subst. eauto.
  - eauto.
Qed.
Lemma Forall2_nth {A B} (P : A -> B -> Prop) l m j a : Forall2 P l m -> nth_error l j = Some a -> exists b, nth_error m j = Some b /\ P a b.
Proof.
  intros H. revert j. induction H as [|x y l m Hxy _ IH]; intros [|j] E; cbn [nth_error] in *; try discriminate; [|auto].
  apply Some_inj in E. subst. eauto.
Qed.
Lemma sib_word endoff a v : wfA f v -> fst (fst a) = 1 -> sibOk base endoff a v -> exists x, (forall o, valueOf o v = VWord x) /\ base + x = endoff.
Proof.
  intros W N S. destruct (S N) as (F & A & B).
  destruct v as [form n x|form x|x|x|form x|form x|s|form b|b| |x]; cbn [formOfA valueOf wfA] in *; try (cbn [In] in F; lia).
  - exists x. split; [reflexivity|]. eauto.
  - exists x. split; [reflexivity|]. eauto.
  - destruct W as [W _]. unfold offsetForms in W. cbn [In] in W, F. lia.
  - destruct W as [W|(k & W & _)]; [unfold lebBlockForms in W; cbn [In] in W, F; lia|]. unfold blockForms in W. cbn [In] in W, F.
    destruct W as [W|[W|[W|[]]]]; apply pair_equal_spec in W as [<- <-]; lia.
Qed.

(** Decoding at the start of a tree. *)
Lemma decode_at off t rest : 0 <= base -> wfT f ds base off t -> Forall (offsetSmall f) (tVals t) -> at_ data off (encodeT f ds t ++ rest) ->
  exists d nx, declOf ds (tCode t) = Some d /\
    dec off = Ok (DRaw (mkRaw (abbrevOf d) (valsAt f (off + zlen (uleb (tCode t))) (tVals t)) 0 (if hasKids ds (tCode t) then off + headLen f t else 0) nx)) /\
    (if hasKids ds (tCode t) then nx = 0 \/ nx = off + zlen (encodeT f ds t) else nx = off + zlen (encodeT f ds t)).
Proof.
  intros Hb W S H. destruct W as [off c vs ks d D V K L]. cbn [tVals tCode] in *. exists d.
  destruct (decl_wf c d D) as [Wd Ec]. assert (Hc : 0 < c < W64) by (destruct Wd; lia).
  assert (HL : 0 <= off + zlen (encodeT f ds (DT c vs ks)) < W64).
  { pose proof H as [H0 _]. pose proof H as Hx. apply at_app in Hx as [Hx _]. apply at_len in Hx; [pose proof (zlen_nonneg (encodeT f ds (DT c vs ks))); lia|].
    cbn [encodeT]. pose proof (uleb_ne c). destruct (uleb c); [congruence|discriminate]. }
  pose proof H as H'. cbn [encodeT] in H'. rewrite <- !app_assoc in H'. apply (rd_uleb data) in H' as [E H']; [|lia].
  destruct (readVals_at _ _ _ V S _ _ H') as [E2 H2].
  assert (HK : hasKids ds c = sdKids d) by (unfold hasKids; now rewrite D).
  assert (HH : headLen f (DT c vs ks) = zlen (uleb c) + zlen (flat_map (encodeA f) vs)) by (unfold headLen; cbn [tCode tVals]; apply zlen_app).
  assert (Sib : exists sib, (match sibIdx 0 (abAttrs (abbrevOf d)) with
                       | None => Ok 0
                       | Some i => match nth i (valsAt f (off + zlen (uleb c)) vs) (VFlag false) with VWord w => Ok (u64 (w + dOffset u)) | _ => UB end
                       end) = Ok sib /\ (sib = 0 \/ sib = off + zlen (encodeT f ds (DT c vs ks)))).
  { cbn [abbrevOf abAttrs]. destruct (sibIdx 0 (sdAttrs d)) as [i|] eqn:SI; [|exists 0; auto].
    destruct (sibIdx_spec _ _ _ SI) as (j & n & fm & im & -> & X & Y). destruct (Forall2_nth _ _ _ _ _ V X) as (v & Nv & A & B & C & Q). cbn [Nat.add].
    destruct (valsAt_nth vs (off + zlen (uleb c)) j v Nv) as [o No]. rewrite (nth_error_nth _ _ _ No).
    destruct (sib_word _ (n, fm, im) v C Y Q) as (x & Vx & Ex). rewrite Vx. exists (off + zlen (encodeT f ds (DT c vs ks))). split; [|auto].
    f_equal. rewrite <- Ex. unfold u, unitOf; cbn [dOffset]. rewrite Z.add_comm. apply u64_id. unfold isU64. lia. }
  destruct Sib as (sib & Es & Ps).
  exists (if hasKids ds c then sib else off + headLen f (DT c vs ks)). split; [exact D|]. split.
  - unfold dec, decode. rewrite E. cbn [bind]. replace (c =? 0) with false by lia. rewrite findAbbrev_table, D. cbn [option_map].
    cbn [abbrevOf abAttrs abKids] in *. rewrite E2. cbn [bind]. rewrite Es. cbn [bind]. rewrite HK, HH, Z.add_assoc. destruct (sdKids d); reflexivity.
  - destruct (hasKids ds c) eqn:Q; [exact Ps|]. cbn [encodeT]. rewrite Q, app_nil_r, zlen_app, HH. reflexivity.
Qed.
Lemma decode_null off rest : at_ data off (0 :: rest) -> dec off = Ok (DNull (off + 1)).
Proof.
  intros H. change (0 :: rest) with (uleb 0 ++ rest) in H. apply (rd_uleb data) in H as [E H]; [|unfold W64; lia].
  unfold dec, decode. rewrite E. reflexivity.
Qed.

(** The tree as the navigation sees it. *)
Fixpoint toNode (off : Z) (t : dtree) : node :=
  match t with
  | DT c vs ks =>
      N off (off + zlen (encodeT f ds (DT c vs ks))) (hasKids ds c)
        ((fix go (o : Z) (l : list dtree) := match l with [] => [] | k :: r => toNode o k :: go (o + zlen (encodeT f ds k)) r end) (off + headLen f (DT c vs ks)) ks)
  end.
Fixpoint toNodes (o : Z) (l : list dtree) : list node :=
  match l with [] => [] | k :: r => toNode o k :: toNodes (o + zlen (encodeT f ds k)) r end.
Lemma nkids_toNode off t : nkids (toNode off t) = toNodes (off + headLen f t) (tKids t).
Proof.
  destruct t as [c vs ks]. cbn [toNode nkids tKids]. generalize (off + headLen f (DT c vs ks)). induction ks as [|k r IH]; intros o; [reflexivity|].
  cbn [toNodes]. auto.
Qed.
Lemma noff_toNode off t : noff (toNode off t) = off. Proof. destruct t; reflexivity. Qed.
Lemma nfin_toNode off t : nfin (toNode off t) = off + zlen (encodeT f ds t). Proof. destruct t; reflexivity. Qed.
Lemma nhk_toNode off t : nhk (toNode off t) = hasKids ds (tCode t). Proof. destruct t; reflexivity. Qed.
Lemma toNodes_offs l : forall o, map noff (toNodes o l) = offsL f ds o l.
Proof. induction l as [|k r IH]; intros o; [reflexivity|]. cbn [toNodes map offsL]. rewrite noff_toNode. f_equal. apply IH. Qed.
Lemma toNodes_chain l : forall o, chain o (toNodes o l) (o + zlen (flat_map (encodeT f ds) l)).
Proof.
  induction l as [|k r IH]; intros o; cbn [toNodes chain flat_map].
  - change (zlen (@nil Z)) with 0. lia.
  - rewrite noff_toNode, nfin_toNode. split; [reflexivity|]. rewrite zlen_app, Z.add_assoc. apply IH.
Qed.
Lemma toNodes_in l : forall o x, In x (toNodes o l) <-> exists l1 k l2, l = l1 ++ k :: l2 /\ x = toNode (o + zlen (flat_map (encodeT f ds) l1)) k.
Proof.
  induction l as [|k r IH]; intros o x; cbn [toNodes In].
  - split; [intros []|]. intros ([|? ?] & ? & ? & E & _); discriminate.
  - rewrite IH. split.
    + intros [<-|(l1 & k' & l2 & -> & ->)].
      * exists [], k, r. split; [reflexivity|]. cbn [flat_map]. change (zlen (@nil Z)) with 0. now rewrite Z.add_0_r.
      * exists (k :: l1), k', l2. split; [reflexivity|]. cbn [flat_map]. now rewrite zlen_app, Z.add_assoc.
    + intros ([|y l1] & k' & l2 & E & ->).
      * cbn [app] in E. injection E as -> ->. left. cbn [flat_map]. change (zlen (@nil Z)) with 0. now rewrite Z.add_0_r.
      * cbn [app] in E. injection E as -> ->. right. exists l1, k', l2. split; [reflexivity|]. cbn [flat_map]. now rewrite zlen_app, Z.add_assoc.
Qed.
Lemma zlenT_pos t : 0 < zlen (encodeT f ds t).
Proof using f ds. clear dec u.
  destruct t as [c vs ks]. cbn [encodeT]. rewrite zlen_app. pose proof (uleb_ne c). destruct (uleb c); [congruence|]. rewrite zlen_cons.
  pose proof (zlen_nonneg l). pose proof (zlen_nonneg (flat_map (encodeA f) vs ++ (if hasKids ds c then flat_map (encodeT f ds) ks ++ [0] else []))). lia.
Qed.
Lemma headLen_pos t : 0 < headLen f t.
Proof using f. clear dec u.
  unfold headLen. rewrite zlen_app. pose proof (uleb_ne (tCode t)). destruct (uleb (tCode t)); [congruence|]. rewrite zlen_cons.
  pose proof (zlen_nonneg l). pose proof (zlen_nonneg (flat_map (encodeA f) (tVals t))). lia.
Qed.
Lemma encodeT_split t : encodeT f ds t = (uleb (tCode t) ++ flat_map (encodeA f) (tVals t)) ++ (if hasKids ds (tCode t) then flat_map (encodeT f ds) (tKids t) ++ [0] else []).
Proof. destruct t. cbn [encodeT tCode tVals tKids]. now rewrite app_assoc. Qed.

Lemma node_wf t : forall off rest, 0 <= base -> base < off -> off + zlen (encodeT f ds t) <= fin -> wfT f ds base off t -> allVals (offsetSmall f) t ->
  at_ data off (encodeT f ds t ++ rest) -> wfN u dec (toNode off t).
Proof.
  induction t as [c vs ks IH] using dtree_ind'. intros off rest Hb Ho He W S H.
  assert (S1 : Forall (offsetSmall f) (tVals (DT c vs ks))) by (inversion S; assumption).
  pose proof (zlenT_pos (DT c vs ks)) as HL. pose proof (headLen_pos (DT c vs ks)) as HH.
  destruct (decode_at off (DT c vs ks) rest Hb W S1 H) as (d & nx & D & E & Nx).
  assert (Len : hasKids ds c = true -> zlen (encodeT f ds (DT c vs ks)) = headLen f (DT c vs ks) + zlen (flat_map (encodeT f ds) ks) + 1).
  { intros Q. rewrite encodeT_split. cbn [tCode tKids]. rewrite Q. rewrite !zlen_app. unfold headLen. rewrite zlen_app. cbn [tCode tVals]. change (zlen [0]) with 1. lia. }
  assert (NoK : hasKids ds c = false -> ks = []).
  { intros Q. inversion W as [? ? ? ? d' D' _ K _]; subst. apply K. unfold hasKids in Q. now rewrite D' in Q. }
  constructor.
  - eexists (abbrevOf d), _, _, (off + headLen f (DT c vs ks) + zlen (flat_map (encodeT f ds) ks)), nx.
    rewrite noff_toNode, nfin_toNode, nhk_toNode, nkids_toNode. split; [exact E|].
    split; [unfold inR, u, unitOf; cbn [dOffset dEnd]; lia|]. split; [lia|]. split; [lia|]. cbn [tCode tKids] in *.
    destruct (hasKids ds c) eqn:Q; (split; [intros X; try discriminate X|intros X; try discriminate X]).
    + specialize (Len eq_refl). split; [exact Nx|]. split; [apply toNodes_chain|]. split; [lia|].
      pose proof (zlen_nonneg (flat_map (encodeT f ds) ks)).
      split; [unfold inR, u, unitOf; cbn [dOffset dEnd]; lia|]. split; [lia|].
      rewrite Len. rewrite (decode_null _ rest); [do 2 f_equal; lia|].
      rewrite encodeT_split in H. cbn [tCode tVals tKids] in H. rewrite Q in H. rewrite <- app_assoc in H.
      apply at_app in H as [_ H]. rewrite <- app_assoc in H. apply at_app in H as [_ H]. exact H.
    + split; [now rewrite (NoK eq_refl)|exact Nx].
  - rewrite nkids_toNode. rewrite Forall_forall. intros x Hx. cbn [tKids] in Hx. apply toNodes_in in Hx as (l1 & k & l2 & -> & ->).
    assert (Q : hasKids ds c = true) by (destruct (hasKids ds c); [reflexivity|]; specialize (NoK eq_refl); destruct l1; discriminate).
    specialize (Len Q). rewrite flat_map_app, zlen_app in Len. cbn [flat_map] in Len. rewrite zlen_app in Len.
    pose proof (zlen_nonneg (flat_map (encodeT f ds) l1)). pose proof (zlen_nonneg (flat_map (encodeT f ds) l2)).
    rewrite Forall_forall in IH. assert (Ik : In k (l1 ++ k :: l2)) by (apply in_or_app; right; now left).
    eapply (IH k Ik).
    + exact Hb.
    + lia.
    + lia.
    + inversion W as [? ? ? ? d' _ _ _ WL]; subst. clear -WL. revert WL. generalize (off + headLen f (DT c vs (l1 ++ k :: l2))). induction l1 as [|y l1 IH]; intros o WL; cbn [app flat_map] in *.
      * change (zlen (@nil Z)) with 0. rewrite Z.add_0_r. now inversion WL.
      * rewrite zlen_app, Z.add_assoc. apply IH. now inversion WL.
    + inversion S as [? ? ? _ F]; subst. rewrite Forall_forall in F. auto.
    + rewrite encodeT_split in H. cbn [tCode tVals tKids] in H. rewrite Q in H. rewrite <- app_assoc in H. apply at_app in H as [_ H].
      rewrite flat_map_app in H. cbn [flat_map] in H. rewrite <- !app_assoc in H. apply at_app in H as [_ H]. exact H.
Qed.
(** Every node occupies at least a byte. *)
Lemma node_size t : forall off, Z.of_nat (nsize (toNode off t)) <= zlen (encodeT f ds t) \/ (hasKids ds (tCode t) = false /\ tKids t <> []) \/ exists x o, inTree f ds off t o x /\ hasKids ds (tCode x) = false /\ tKids x <> [].
Proof using f ds. clear dec u.
  induction t as [c vs ks IH] using dtree_ind'. intros off. rewrite nsize_eq, nkids_toNode. cbn [tKids tCode].
  destruct (hasKids ds c) eqn:Q.
  - assert (G : forall l o, (forall k, In k l -> In k ks) -> Z.of_nat (lsize (toNodes o l)) <= zlen (flat_map (encodeT f ds) l) \/ exists k1 ko, (exists l1 l2, l = l1 ++ k1 :: l2 /\ ko = o + zlen (flat_map (encodeT f ds) l1)) /\ exists x o', inTree f ds ko k1 o' x /\ hasKids ds (tCode x) = false /\ tKids x <> []).
    { induction l as [|k r IHr]; intros o Hin; [left; reflexivity|]. rewrite Forall_forall in IH.
      destruct (IH k (Hin k (or_introl eq_refl)) o) as [A|[A|A]].
      - destruct (IHr (o + zlen (encodeT f ds k)) (fun y Hy => Hin y (or_intror Hy))) as [B|(k1 & ko & (l1 & l2 & -> & ->) & B)].
        + left. cbn [toNodes lsize fold_right flat_map]. rewrite zlen_app. unfold lsize in B. lia.
        + right. eexists k1, _. split; [exists (k :: l1), l2; split; [reflexivity|cbn [flat_map]; rewrite zlen_app, Z.add_assoc; reflexivity]|exact B].
      - right. exists k, o. split; [exists [], r; cbn [flat_map]; change (zlen (@nil Z)) with 0; split; [reflexivity|lia]|]. exists k, o. split; [constructor|exact A].
      - right. exists k, o. split; [exists [], r; cbn [flat_map]; change (zlen (@nil Z)) with 0; split; [reflexivity|lia]|]. exact A. }
    destruct (G ks (off + headLen f (DT c vs ks)) (fun k h => h)) as [A|(k1 & ko & (l1 & l2 & E & ->) & x & o' & I & B)].
    + left. cbn [encodeT]. rewrite Q. rewrite !zlen_app. change (zlen [0]) with 1. pose proof (zlen_nonneg (uleb c)). pose proof (zlen_nonneg (flat_map (encodeA f) vs)). lia.
    + right. right. exists x, o'. split; [|exact B]. econstructor; [|exact I]. eapply KidAt; exact E.
  - destruct ks as [|k r]; [|right; left; split; [reflexivity|discriminate]]. left. cbn [toNodes lsize fold_right]. pose proof (zlenT_pos (DT c vs [])). lia.
Qed.
(** Occurrences. *)
Lemma sub_toNode off t x : sub x (toNode off t) <-> exists o k, inTree f ds off t o k /\ x = toNode o k.
Proof.
  split.
  - remember (toNode off t) as n. intros H. revert off t Heqn. induction H as [n|m k n Hk _ IH]; intros off t ->.
    + exists off, t. split; [constructor|reflexivity].
    + rewrite nkids_toNode in Hk. apply toNodes_in in Hk as (l1 & k' & l2 & E & ->).
      destruct (IH _ _ eq_refl) as (o & k2 & I & ->). exists o, k2. split; [|reflexivity]. econstructor; [|exact I]. eapply KidAt; exact E.
  - intros (o & k & I & ->). induction I as [off t|off t ko k o x K _ IH]; [constructor|]. eapply SubKid; [|exact IH].
    inversion K; subst. rewrite nkids_toNode. apply toNodes_in. eauto.
Qed.
End Entries.
