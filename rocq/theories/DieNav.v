(** Navigation of a decoded tree: the iterator yields the children, whatever was looked at before. *)
From Verif Require Import Base Die.

(** A laid-out tree: offset, offset after the subtree, whether it is declared to have children. *)
Inductive node : Type := N (off fin : Z) (hk : bool) (kids : list node).
Definition noff (n : node) := let 'N o _ _ _ := n in o.
Definition nfin (n : node) := let 'N _ f _ _ := n in f.
Definition nhk (n : node) := let 'N _ _ h _ := n in h.
Definition nkids (n : node) := let 'N _ _ _ k := n in k.
Fixpoint nsize (n : node) : nat := let 'N _ _ _ ks := n in S (fold_right (fun k s => (nsize k + s)%nat) 0%nat ks).
Definition lsize (l : list node) : nat := fold_right (fun k s => (nsize k + s)%nat) 0%nat l.
Lemma nsize_eq n : nsize n = S (lsize (nkids n)). Proof. destruct n; reflexivity. Qed.
Fixpoint node_ind' (P : node -> Prop) (H : forall o f h ks, Forall P ks -> P (N o f h ks)) (n : node) : P n :=
  match n with
  | N o f h ks => H o f h ks ((fix go l : Forall P l := match l with [] => Forall_nil _ | k :: r => Forall_cons _ (node_ind' P H k) (go r) end) ks)
  end.
(** kids laid out one after the other from [f] to [z] *)
Fixpoint chain (f : Z) (l : list node) (z : Z) : Prop :=
  match l with [] => f = z | k :: r => noff k = f /\ chain (nfin k) r z end.
Inductive sub : node -> node -> Prop :=
| SubRefl n : sub n n
| SubKid m k n : In k (nkids n) -> sub m k -> sub m n.

Lemma exists_last_or_nil {A} (l : list A) : l = [] \/ exists l' x, l = l' ++ [x].
Proof. destruct l as [|a l]; [now left|right]. destruct (exists_last (l := a :: l) ltac:(discriminate)) as (l' & x & E). eauto. Qed.

Section Nav.
Context (u : dunit) (dec : Z -> res decoded).
Definition inR (o : Z) : Prop := o <> 0 /\ dOffset u <= o < dEnd u.
(** what the decoder finds for a node *)
Definition decOk (n : node) : Prop :=
  exists a vs first z nx,
    dec (noff n) = Ok (DRaw (mkRaw a vs 0 (if nhk n then first else 0) nx)) /\
    inR (noff n) /\ noff n < nfin n /\ nfin n <> 0 /\
    (nhk n = false -> nkids n = [] /\ nx = nfin n) /\
    (nhk n = true -> (nx = 0 \/ nx = nfin n) /\ chain first (nkids n) z /\ noff n < first /\ inR z /\ z < nfin n /\ dec z = Ok (DNull (nfin n))).
Inductive wfN : node -> Prop := WfN n : decOk n -> Forall wfN (nkids n) -> wfN n.

Lemma wfN_ind' (P : node -> Prop) : (forall n, decOk n -> Forall wfN (nkids n) -> Forall P (nkids n) -> P n) -> forall n, wfN n -> P n.
Proof.
  intros H. induction n as [o f h ks IH] using node_ind'. intros W. inversion W as [n D F]; subst. apply H; [exact D|exact F|].
  cbn [nkids] in *. clear W D. induction IH as [|k r Hk _ IHr]; [constructor|]. inversion F; subst. constructor; auto.
Qed.
(** ** Geometry *)
Lemma chain_app f l1 k l2 z : chain f (l1 ++ k :: l2) z -> chain f l1 (noff k) /\ chain (nfin k) l2 z.
Proof.
  revert f; induction l1 as [|x l1 IH]; intros f; cbn [app chain].
  - intros [<- H]. auto.
  - intros [H1 H2]. destruct (IH _ H2). auto.
Qed.
Lemma chain_le f l z : chain f l z -> Forall (fun k => noff k < nfin k) l -> f <= z /\ (forall k, In k l -> f <= noff k /\ nfin k <= z).
Proof using. clear dec u.
  revert f; induction l as [|x l IH]; intros f; cbn [chain].
  - intros -> _. split; [lia|]. intros k [].
  - intros [<- H2] F. inversion F; subst. destruct (IH _ H2 H3) as [I1 I2]. split; [lia|]. intros k [<-|Hk]; [lia|]. specialize (I2 k Hk). lia.
Qed.
Lemma wf_dec n : wfN n -> decOk n. Proof. now inversion 1. Qed.
Lemma wf_kid n k : wfN n -> In k (nkids n) -> wfN k.
Proof. inversion 1 as [? _ F]; subst. rewrite Forall_forall in F. auto. Qed.
Lemma wf_lt n : wfN n -> noff n < nfin n.
Proof. intros H. apply wf_dec in H as (a & vs & fi & z & nx & _ & _ & L & _). exact L. Qed.
Lemma wf_kids n : wfN n -> nkids n <> [] -> exists first z, chain first (nkids n) z /\ noff n < first /\ z < nfin n /\ Forall (fun k => noff k < nfin k) (nkids n).
Proof.
  intros W Hne. destruct (wf_dec n W) as (a & vs & fi & z & nx & _ & _ & _ & _ & H1 & H2).
  destruct (nhk n); [|destruct (H1 eq_refl); contradiction]. destruct (H2 eq_refl) as (_ & C & L1 & _ & L2 & _).
  exists fi, z. repeat split; auto. inversion W as [? _ F]; subst. eapply Forall_impl; [|exact F]. exact wf_lt.
Qed.
Lemma kid_in n k : wfN n -> In k (nkids n) -> noff n < noff k /\ nfin k < nfin n.
Proof.
  intros W Hk. destruct (wf_kids n W) as (fi & z & C & L1 & L2 & F); [intros E; rewrite E in Hk; destruct Hk|].
  destruct (chain_le _ _ _ C F) as [_ I]. specialize (I k Hk). lia.
Qed.
Lemma kids_order n l1 k l2 k' : wfN n -> nkids n = l1 ++ k :: l2 -> (In k' l1 -> nfin k' <= noff k) /\ (In k' l2 -> nfin k <= noff k').
Proof.
  intros W E. destruct (wf_kids n W) as (fi & z & C & L1 & L2 & F); [rewrite E; destruct l1; discriminate|]. rewrite E in *.
  destruct (chain_app _ _ _ _ _ C) as [C1 C2]. apply Forall_app in F as [F1 F2]. inversion F2; subst.
  split; intros Hk.
  - now apply (chain_le _ _ _ C1 F1).
  - now apply (chain_le _ _ _ C2 H2).
Qed.
Lemma sub_wf m n : sub m n -> wfN n -> wfN m.
Proof. induction 1; intros W; [exact W|]. apply IHsub. eapply wf_kid; eassumption. Qed.
Lemma sub_range m n : sub m n -> wfN n -> noff n <= noff m /\ nfin m <= nfin n.
Proof. induction 1 as [|m k n Hk _ IH]; intros W; [lia|]. pose proof (kid_in _ _ W Hk). specialize (IH (wf_kid _ _ W Hk)). lia. Qed.
Lemma sub_trans a b c : sub a b -> sub b c -> sub a c.
Proof. intros H1 H2. induction H2 as [|m k n Hk _ IH]; [exact H1|]. eapply SubKid; [exact Hk|auto]. Qed.
Lemma kid_sub k n : In k (nkids n) -> sub k n.
Proof. intros H. eapply SubKid; [exact H|constructor]. Qed.
Lemma kids_disj n k1 k2 o : wfN n -> In k1 (nkids n) -> In k2 (nkids n) -> noff k1 <= o < nfin k1 -> noff k2 <= o < nfin k2 -> k1 = k2.
Proof.
  intros W H1 H2 R1 R2. apply in_split in H1 as (l1 & l2 & E). rewrite E in H2. destruct (kids_order n l1 k1 l2 k2 W E) as [A B].
  apply in_app_or in H2 as [H2|[H2|H2]]; [specialize (A H2); lia|exact H2|specialize (B H2); lia].
Qed.
Lemma lam r : wfN r -> forall a b, sub a r -> sub b r -> noff b <= noff a < nfin b -> sub a b.
Proof.
  intros W. induction W as [n D F IH] using wfN_ind'. intros a b Ha Hb R. assert (W : wfN n) by now constructor.
  inversion Hb as [|? kb ? Hkb Sb]; subst; [exact Ha|].
  pose proof (sub_range _ _ Sb (wf_kid _ _ W Hkb)) as Rb. pose proof (kid_in _ _ W Hkb) as Kb.
  inversion Ha as [|? ka ? Hka Sa]; subst; [lia|].
  pose proof (sub_range _ _ Sa (wf_kid _ _ W Hka)) as Ra. pose proof (wf_lt _ (sub_wf _ _ Sa (wf_kid _ _ W Hka))).
  assert (ka = kb) by (apply (kids_disj n ka kb (noff a) W Hka Hkb); lia). subst kb.
  rewrite Forall_forall in IH. now apply (IH ka Hka).
Qed.
Lemma uniq r a b : wfN r -> sub a r -> sub b r -> noff a = noff b -> a = b.
Proof.
  intros W Ha Hb E. pose proof (wf_lt _ (sub_wf _ _ Ha W)). pose proof (wf_lt _ (sub_wf _ _ Hb W)).
  assert (S1 : sub a b) by (apply (lam r W); auto; lia).
  inversion S1 as [|? k ? Hk S]; [reflexivity|]; subst. pose proof (kid_in _ _ (sub_wf _ _ Hb W) Hk).
  pose proof (sub_range _ _ S (wf_kid _ _ (sub_wf _ _ Hb W) Hk)). lia.
Qed.
(** strictly inside, by range *)
Definition inside (m x : node) : Prop := noff x < noff m < nfin x.
Lemma parent_inside r k m x : wfN r -> sub m r -> sub x r -> In k (nkids m) -> inside k x -> m = x \/ inside m x.
Proof.
  intros W Hm Hx Hk [I1 I2]. unfold inside.
  pose proof (kid_in _ _ (sub_wf _ _ Hm W) Hk) as [K1 K2]. pose proof (wf_lt _ (wf_kid _ _ (sub_wf _ _ Hm W) Hk)).
  destruct (Z.eq_dec (noff m) (noff x)) as [E|E]; [left; now apply (uniq r)|].
  destruct (Z_lt_dec (noff x) (noff m)); [right; lia|]. exfalso.
  assert (S : sub x m) by (apply (lam r W); auto; lia). inversion S as [|? k' ? Hk' S']; subst; [lia|].
  pose proof (sub_range _ _ S' (wf_kid _ _ (sub_wf _ _ Hm W) Hk')).
  assert (k' = k) by (apply (kids_disj m k' k (noff k) (sub_wf _ _ Hm W) Hk' Hk); lia). subst k'. lia.
Qed.
Lemma parent_uniq r k p q : wfN r -> sub p r -> sub q r -> In k (nkids p) -> In k (nkids q) -> p = q.
Proof.
  intros W Hp Hq Kp Kq. pose proof (kid_in _ _ (sub_wf _ _ Hp W) Kp). pose proof (kid_in _ _ (sub_wf _ _ Hq W) Kq). pose proof (wf_lt _ (wf_kid _ _ (sub_wf _ _ Hp W) Kp)).
  destruct (parent_inside r k p q W Hp Hq Kp) as [E|[I _]]; [unfold inside; lia|exact E|].
  destruct (parent_inside r k q p W Hq Hp Kq) as [E|[I' _]]; [unfold inside; lia|auto|]. lia.
Qed.

(** ** The store *)
Context (root : node) (Wr : wfN root).
Definition fresh (m : node) : Z := match dec (noff m) with Ok (DRaw r) => rNext r | _ => 0 end.
(** the next-sibling field of a node, as it is or would be decoded *)
Definition eff (st : store) (m : node) : Z := match st (noff m) with Some r => rNext r | None => fresh m end.
(** iterating over the children of the node will discover where it ends *)
Inductive closable (st : store) : node -> Prop :=
| CNext m : eff st m = nfin m -> closable st m
| CEmpty m : nhk m = true -> nkids m = [] -> closable st m
| CLast m l k : nhk m = true -> nkids m = l ++ [k] -> closable st k -> closable st m.
Definition rawOk (o : Z) (r : raw) : Prop := exists m r0,
  sub m root /\ noff m = o /\ dec o = Ok (DRaw r0) /\ rAbbrev r = rAbbrev r0 /\ rVals r = rVals r0 /\ rFirst r = rFirst r0 /\
  (rNext r = nfin m \/ rNext r = 0) /\
  (rParent r = 0 \/ exists p, sub p root /\ In m (nkids p) /\ rParent r = noff p).
Definition Inv (st : store) : Prop :=
  (forall o r, st o = Some r -> rawOk o r) /\
  (forall p l1 k l2, sub p root -> nkids p = l1 ++ k :: l2 -> l2 <> [] -> closable st k).
Definition stored (st : store) (m : node) : Prop := st (noff m) <> None.
(** what an operation may do to the rest: nodes stay, known parents stay *)
Definition grows (st st' : store) : Prop :=
  (forall o, st o <> None -> st' o <> None) /\ (forall o, parentField st o <> 0 -> parentField st' o = parentField st o).
Lemma grows_refl st : grows st st. Proof. split; auto. Qed.
Lemma grows_trans a b c : grows a b -> grows b c -> grows a c.
Proof. intros [A1 A2] [B1 B2]. split; [auto|]. intros o H. specialize (A2 o H). rewrite <- A2. apply B2. congruence. Qed.

Lemma dec_node m : sub m root -> decOk m. Proof. intros H. apply wf_dec. eapply sub_wf; eauto. Qed.
Lemma inR_test o : inR o -> (o =? 0) || (o <? dOffset u) || (dEnd u <=? o) = false.
Proof. unfold inR. lia. Qed.
Lemma noff_nz m : sub m root -> noff m <> 0.
Proof. intros H. destruct (dec_node m H) as (? & ? & ? & ? & ? & _ & [R _] & _). exact R. Qed.
Lemma eff_cases st m : Inv st -> sub m root -> eff st m = nfin m \/ eff st m = 0.
Proof.
  intros [I _] H. unfold eff. destruct (st (noff m)) as [r|] eqn:E.
  - destruct (I _ _ E) as (m' & r0 & S' & O' & _ & _ & _ & _ & N & _). assert (m' = m) by (apply (uniq root); auto). subst m'. exact N.
  - unfold fresh. destruct (dec_node m H) as (a & vs & fi & z & nx & D & _ & _ & _ & H1 & H2). rewrite D. cbn [rNext].
    destruct (nhk m); [destruct (H2 eq_refl) as [[?|?] _]; auto|destruct (H1 eq_refl); auto].
Qed.
Lemma nfin_nz m : sub m root -> nfin m <> 0.
Proof. intros H. destruct (dec_node m H) as (? & ? & ? & ? & ? & _ & _ & _ & R & _). exact R. Qed.
(** a closable node with no children knows its end *)
Lemma closable_leaf st m : sub m root -> nhk m = false -> closable st m -> eff st m = nfin m.
Proof. intros S H C. inversion C; subst; congruence. Qed.

(** Setting a next field. *)
Lemma setNext_eff st o v m : eff (setNext st o v) m = if (noff m =? o) && (if st o then true else false) then v else eff st m.
Proof.
  unfold setNext, eff, upd. destruct (st o) as [r|] eqn:E.
  - destruct (noff m =? o) eqn:Q; cbn [andb]; [reflexivity|]. reflexivity.
  - rewrite andb_false_r. reflexivity.
Qed.
Lemma setNext_grows st o v : grows st (setNext st o v).
Proof.
  unfold setNext, grows, parentField, upd. destruct (st o) as [r|] eqn:E; [|auto]. split; intros k H.
  - destruct (k =? o); [discriminate|exact H].
  - destruct (k =? o) eqn:Q; [|reflexivity]. assert (k = o) by lia; subst. rewrite E. reflexivity.
Qed.
Lemma setNext_raw st o v m : (forall o r, st o = Some r -> rawOk o r) -> sub m root -> noff m = o -> v = nfin m \/ v = 0 ->
  forall o' r, setNext st o v o' = Some r -> rawOk o' r.
Proof.
  intros I S E V o' r H. unfold setNext in H. destruct (st o) as [r1|] eqn:X; [|auto]. unfold upd in H. destruct (o' =? o) eqn:Q; [|auto].
  inversion H; subst r. assert (o' = o) by lia; subst o'. destruct (I _ _ X) as (m' & r0 & A). exists m', r0.
  destruct A as (A1 & A2 & A3 & A4 & A5 & A6 & _ & A8). assert (m' = m) by (apply (uniq root); auto; lia). subst m'. cbn [rAbbrev rVals rFirst rNext rParent]. tauto.
Qed.
Lemma closable_mono st st' m : closable st m -> (forall x, sub x root -> eff st x = nfin x -> eff st' x = nfin x) -> sub m root -> closable st' m.
Proof.
  intros C M. induction C as [m E|m H K|m l k H K _ IH]; intros S.
  - apply CNext. auto.
  - now apply CEmpty.
  - eapply CLast; [exact H|exact K|]. apply IH. eapply sub_trans; [apply kid_sub; rewrite K; apply in_or_app; right; now left|exact S].
Qed.
(** Learning the end of a node keeps the invariant. *)
Lemma learn_next st m : Inv st -> sub m root -> Inv (setNext st (noff m) (nfin m)).
Proof.
  intros [I1 I2] S. split; [apply (setNext_raw st (noff m) (nfin m) m); auto|].
  intros p l1 k l2 Sp K L. eapply closable_mono; [eapply I2; eauto| |].
  - intros x Sx E. rewrite setNext_eff. destruct (noff x =? noff m) eqn:Q; cbn [andb]; [|exact E].
    assert (x = m) by (apply (uniq root); auto; lia). subst x. destruct (st (noff m)); [reflexivity|exact E].
  - eapply sub_trans; [apply kid_sub; rewrite K; apply in_or_app; right; now left|exact Sp].
Qed.
Lemma setParent_eff st o v m : eff (setParent st o v) m = eff st m.
Proof.
  unfold setParent, eff, upd. destruct (st o) as [r|] eqn:E; [|reflexivity]. destruct (noff m =? o) eqn:Q; [|reflexivity].
  assert (noff m = o) by lia. rewrite H, E. reflexivity.
Qed.
Lemma Inv_eff st st' : (forall m, eff st' m = eff st m) -> (forall o r, st' o = Some r -> rawOk o r) -> Inv st -> Inv st'.
Proof.
  intros E R [_ I2]. split; [exact R|]. intros p l1 k l2 Sp K L. eapply closable_mono; [eapply I2; eauto| |].
  - intros x _ Hx. now rewrite E.
  - eapply sub_trans; [apply kid_sub; rewrite K; apply in_or_app; right; now left|exact Sp].
Qed.
Lemma fixParent_ok st p k : Inv st -> sub p root -> In k (nkids p) -> stored st k ->
  let st' := fixParent st (Some (noff k)) (noff p) in
  Inv st' /\ grows st st' /\ (forall m, eff st' m = eff st m) /\ parentField st' (noff k) <> 0.
Proof.
  intros I Sp Hk Hs. cbv zeta. unfold fixParent. destruct (parentField st (noff k) =? 0) eqn:Q.
  - assert (Hpf : forall o, parentField (setParent st (noff k) (noff p)) o = if o =? noff k then noff p else parentField st o).
    { intros o. unfold parentField, setParent, upd. unfold stored in Hs. destruct (st (noff k)) as [r|] eqn:E; [|congruence]. destruct (o =? noff k); reflexivity. }
    split; [|split; [|split]].
    + apply (Inv_eff st); [apply setParent_eff| |exact I]. intros o r H. unfold setParent in H. destruct (st (noff k)) as [r1|] eqn:E; [|now apply I].
      unfold upd in H. destruct (o =? noff k) eqn:Qo; [|now apply I]. inversion H; subst r. assert (o = noff k) by lia; subst o.
      destruct (proj1 I _ _ E) as (m & r0 & A1 & A2 & A3 & A4 & A5 & A6 & A7 & A8). exists m, r0. cbn [rAbbrev rVals rFirst rNext rParent].
      assert (m = k). { apply (uniq root); auto. eapply sub_trans; [apply kid_sub; exact Hk|exact Sp]. } subst m.
      repeat split; auto. right. exists p. auto.
    + split.
      * intros o H. unfold setParent, upd. destruct (st (noff k)); [|exact H]. destruct (o =? noff k); [discriminate|exact H].
      * intros o H. rewrite Hpf. destruct (o =? noff k) eqn:Qo; [|reflexivity]. assert (o = noff k) by lia. subst. lia.
    + apply setParent_eff.
    + rewrite Hpf, Z.eqb_refl. now apply noff_nz.
  - split; [exact I|]. split; [apply grows_refl|]. split; [reflexivity|lia].
Qed.

(** Looking up an offset. *)
Lemma offToDie_node st par m : Inv st -> sub m root -> (par = None \/ exists p, sub p root /\ In m (nkids p) /\ par = Some (noff p)) ->
  exists st', offToDie u dec st par (noff m) = (st', Ok (Some (noff m))) /\ Inv st' /\ grows st st' /\ stored st' m /\ (forall x, eff st' x = eff st x).
Proof.
  intros I S P. unfold offToDie. destruct (dec_node m S) as (a & vs & fi & z & nx & D & R & Hlt & Hnz & H1 & H2).
  rewrite (inR_test _ R). destruct (st (noff m)) as [r|] eqn:E.
  - exists st. repeat split; auto; try apply I. unfold stored. congruence.
  - rewrite D. cbn [rAbbrev rVals rFirst rNext].
    assert (Ef : forall x, eff (upd st (noff m) (mkRaw a vs (ofOpt par) (if nhk m then fi else 0) nx)) x = eff st x).
    { intros x. unfold eff, upd. destruct (noff x =? noff m) eqn:Q; [|reflexivity]. assert (noff x = noff m) as Q' by lia. rewrite Q', E. cbn [rNext]. unfold fresh. now rewrite Q', D. }
    eexists. split; [reflexivity|]. split; [|split; [|split; [|exact Ef]]].
    + apply (Inv_eff st); [exact Ef| |exact I]. intros o r H. unfold upd in H. destruct (o =? noff m) eqn:Q; [|now apply I].
      inversion H; subst r. assert (o = noff m) by lia; subst o. exists m. eexists. split; [exact S|]. split; [reflexivity|]. split; [exact D|]. cbn [rAbbrev rVals rFirst rNext rParent].
      repeat split; auto.
      * destruct (nhk m); [destruct (H2 eq_refl) as [[?|?] _]; auto|destruct (H1 eq_refl); auto].
      * destruct P as [->|(p & Sp & Hp & ->)]; cbn [ofOpt]; [now left|]. right. eauto.
    + split; intros o H; unfold upd, parentField in *; destruct (o =? noff m) eqn:Q; auto.
      * discriminate.
      * assert (o = noff m) by lia; subst o. rewrite E in H. congruence.
    + unfold stored, upd. rewrite Z.eqb_refl. discriminate.
Qed.
Lemma offToDie_null st par o after : Inv st -> inR o -> dec o = Ok (DNull after) ->
  offToDie u dec st par o = (match par with Some p => setNext st p after | None => st end, Ok None).
Proof.
  intros I R D. unfold offToDie. rewrite (inR_test _ R). destruct (st o) as [r|] eqn:E; [|now rewrite D].
  destruct (proj1 I _ _ E) as (m & r0 & _ & _ & D' & _). congruence.
Qed.
Lemma offToDie_0 st par : offToDie u dec st par 0 = (st, Ok None).
Proof. reflexivity. Qed.

(** ** Iteration *)
Definition hdo (l : list node) : option Z := match l with [] => None | y :: _ => Some (noff y) end.
Lemma closable_sub st st' m : closable st m -> (forall x, sub x m -> eff st x = nfin x -> eff st' x = nfin x) -> closable st' m.
Proof.
  intros C. induction C as [m E|m H K|m l k H K _ IH]; intros M.
  - apply CNext, M; [constructor|exact E].
  - now apply CEmpty.
  - eapply CLast; [exact H|exact K|]. apply IH. intros x Sx. apply M. eapply SubKid; [rewrite K; apply in_or_app; right; now left|exact Sx].
Qed.
Lemma closable_claim st st' x : sub x root ->
  (forall m, sub m root -> eff st m = nfin m -> eff st' m = nfin m \/ inside m x) -> (closable st x -> eff st' x = nfin x) ->
  forall m, sub m root -> closable st m -> closable st' m \/ inside m x.
Proof.
  intros Sx M X m Sm C. induction C as [m E|m H K|m l k H K C IH].
  - destruct (M m Sm E); [left; now apply CNext|now right].
  - left. now apply CEmpty.
  - assert (Hk : In k (nkids m)) by (rewrite K; apply in_or_app; right; now left).
    destruct IH as [IH|IH]; [eapply sub_trans; [apply kid_sub; exact Hk|exact Sm]|left; eapply CLast; eauto|].
    destruct (parent_inside root k m x Wr Sm Sx Hk IH) as [->|?]; [|now right].
    left. apply CNext, X. eapply CLast; eauto.
Qed.
Lemma firstOf_node st m : Inv st -> sub m root -> stored st m -> exists first z,
  firstOf st (noff m) = (if nhk m then first else 0) /\
  (nhk m = false -> nkids m = []) /\ (nhk m = true -> chain first (nkids m) z /\ inR z /\ dec z = Ok (DNull (nfin m))).
Proof.
  intros I S Hs. destruct (dec_node m S) as (a & vs & fi & z & nx & D & _ & _ & _ & H1 & H2). exists fi, z.
  unfold firstOf. unfold stored in Hs. destruct (st (noff m)) as [r|] eqn:E; [|congruence].
  destruct (proj1 I _ _ E) as (m' & r0 & _ & _ & D' & _ & _ & F & _). rewrite D in D'. inversion D'; subst r0. cbn [rFirst] in F.
  split; [exact F|]. split; [intros Hh; now destruct (H1 Hh)|]. intros Hh. destruct (H2 Hh) as (_ & A & _ & B & _ & C). auto.
Qed.
Lemma nextOf_eff st m : stored st m -> nextOf st (noff m) = eff st m.
Proof. unfold stored, nextOf, eff. destruct (st (noff m)); [reflexivity|congruence]. Qed.

(** The step from the end of one child to the next one, or to the terminator. *)
Lemma next_off st p l1 x l2 : Inv st -> sub p root -> nkids p = l1 ++ x :: l2 -> stored st p ->
  exists st', offToDie u dec st (Some (noff p)) (nfin x) = (st', Ok (hdo l2)) /\ Inv st' /\ grows st st' /\
    (forall y r, l2 = y :: r -> stored st' y) /\
    (forall m, sub m root -> eff st m = nfin m -> eff st' m = nfin m) /\ (l2 = [] -> eff st' p = nfin p).
Proof.
  intros I Sp K Hs. destruct (firstOf_node st p I Sp Hs) as (fi & z & _ & H1 & H2).
  destruct (nhk p); [|rewrite H1 in K by reflexivity; destruct l1; discriminate]. destruct (H2 eq_refl) as (C & R & D).
  rewrite K in C. apply chain_app in C as [_ C]. destruct l2 as [|y r]; cbn [chain hdo] in *.
  - subst z. rewrite (offToDie_null st (Some (noff p)) _ _ I R D). eexists. split; [reflexivity|]. split; [now apply learn_next|].
    split; [apply setNext_grows|]. split; [discriminate|]. unfold stored in Hs. split.
    + intros m Sm E. rewrite setNext_eff. destruct (noff m =? noff p) eqn:Q; cbn [andb]; [|exact E].
      assert (m = p) by (apply (uniq root); auto; lia). subst m. destruct (st (noff p)); [reflexivity|exact E].
    + intros _. rewrite setNext_eff, Z.eqb_refl. destruct (st (noff p)); [reflexivity|congruence].
  - destruct C as [<- _]. assert (Hy : In y (nkids p)) by (rewrite K; apply in_or_app; right; right; now left).
    destruct (offToDie_node st (Some (noff p)) y I) as (st' & A & B & G & S' & E).
    + eapply sub_trans; [apply kid_sub; exact Hy|exact Sp].
    + right. eauto.
    + exists st'. rewrite A. split; [reflexivity|]. split; [exact B|]. split; [exact G|]. split; [intros ? ? X; inversion X; subst; exact S'|].
      split; [|discriminate]. intros m _ Em. now rewrite E.
Qed.

(** Starting an iteration. *)
Lemma first_ok st p : Inv st -> sub p root -> stored st p -> exists st1,
  offToDie u dec st (Some (noff p)) (firstOf st (noff p)) = (st1, Ok (hdo (nkids p))) /\
  let st2 := fixParent st1 (hdo (nkids p)) (noff p) in
  Inv st2 /\ grows st st2 /\ (forall y r, nkids p = y :: r -> stored st2 y /\ parentField st2 (noff y) <> 0) /\
  (forall m, sub m root -> eff st m = nfin m -> eff st2 m = nfin m) /\
  (nkids p = [] -> nhk p = true -> eff st2 p = nfin p) /\ (nkids p <> [] -> forall m, eff st2 m = eff st m) /\
  (nhk p = false -> forall m, eff st2 m = eff st m).
Proof.
  intros I Sp Hs. destruct (firstOf_node st p I Sp Hs) as (fi & z & F & H1 & H2). rewrite F. destruct (nhk p) eqn:Hh.
  - destruct (H2 eq_refl) as (C & R & D). destruct (nkids p) as [|y r] eqn:K; cbn [chain hdo] in *.
    + subst z. rewrite (offToDie_null st (Some (noff p)) _ _ I R D). eexists. split; [reflexivity|]. cbn [fixParent]. cbv zeta.
      split; [now apply learn_next|]. split; [apply setNext_grows|]. split; [discriminate|]. unfold stored in Hs. split; [|split; [|split; [congruence|discriminate]]].
      * intros m Sm E. rewrite setNext_eff. destruct (noff m =? noff p) eqn:Q; cbn [andb]; [|exact E].
        assert (m = p) by (apply (uniq root); auto; lia). subst m. destruct (st (noff p)); [reflexivity|exact E].
      * intros _ _. rewrite setNext_eff, Z.eqb_refl. destruct (st (noff p)); [reflexivity|congruence].
    + destruct C as [<- _]. assert (Hy : In y (nkids p)) by (rewrite K; now left).
      destruct (offToDie_node st (Some (noff p)) y I) as (st' & A & B & G & S' & E).
      * eapply sub_trans; [apply kid_sub; exact Hy|exact Sp].
      * right. eauto.
      * exists st'. rewrite A. split; [reflexivity|]. destruct (fixParent_ok st' p y B Sp Hy S') as (J1 & J2 & J3 & J4). cbv zeta in *.
        split; [exact J1|]. split; [eapply grows_trans; eauto|]. split.
        { intros ? ? X; inversion X; subst. split; [|exact J4]. apply J2. exact S'. }
        split; [intros m _ Em; now rewrite J3, E|]. split; [discriminate|]. split; [|discriminate]. intros _ m. now rewrite J3, E.
  - rewrite H1 in * by reflexivity. rewrite offToDie_0. exists st. cbn [hdo fixParent]. split; [reflexivity|]. cbv zeta. split; [exact I|]. split; [apply grows_refl|].
    split; [discriminate|]. split; [auto|]. split; [discriminate|]. split; auto.
Qed.
Lemma kid_not_inside p l1 x l2 k : wfN p -> nkids p = l1 ++ x :: l2 -> In k l2 -> ~ inside k x.
Proof.
  intros W K Hk [A B]. destruct (kids_order p l1 x l2 k W K) as [_ O]. specialize (O Hk). lia.
Qed.

Definition PN (fuel : nat) : Prop := forall st p l1 x l2, Inv st -> sub p root -> nkids p = l1 ++ x :: l2 -> stored st x -> stored st p ->
  (3 * nsize x <= fuel)%nat ->
  exists st', nextSib u dec fuel st (noff x) (Some (noff p)) = (st', Ok (hdo l2)) /\ Inv st' /\ grows st st' /\
    (forall y r, l2 = y :: r -> stored st' y) /\
    (forall m, sub m root -> eff st m = nfin m -> eff st' m = nfin m \/ inside m x) /\
    (closable st x -> eff st' x = nfin x) /\ (closable st x -> l2 = [] -> eff st' p = nfin p).
Definition PL (fuel : nat) : Prop := forall st p l1 l2, Inv st -> sub p root -> nkids p = l1 ++ l2 -> stored st p ->
  (forall y r, l2 = y :: r -> stored st y /\ parentField st (noff y) <> 0) -> (3 * lsize l2 + 1 <= fuel)%nat ->
  exists st', childLoop u dec fuel st (noff p) (hdo l2) = (st', Ok (map noff l2)) /\ Inv st' /\ grows st st' /\
    (forall m, sub m root -> eff st m = nfin m -> eff st' m = nfin m \/ exists k, In k l2 /\ inside m k) /\
    (forall l k, l2 = l ++ [k] -> closable st k -> eff st' p = nfin p) /\
    (forall k, In k l2 -> stored st' k /\ parentField st' (noff k) <> 0).

Lemma childLoop_S f st par cur : childLoop u dec (S f) st par cur =
  match cur with
  | None => (st, Ok [])
  | Some c =>
      match nextSib u dec f st c (Some par) with
      | (st1, Ok nxt) =>
          match childLoop u dec f (fixParent st1 nxt par) par nxt with
          | (st2, Ok l) => (st2, Ok (c :: l))
          | (st2, x) => (st2, x)
          end
      | (st1, Throw) => (st1, Throw) | (st1, UB) => (st1, UB) | (st1, OutOfFuel) => (st1, OutOfFuel)
      end
  end.
Proof. reflexivity. Qed.
Lemma nextSib_S f st d par : nextSib u dec (S f) st d par =
  if nextOf st d =? 0 then
    match offToDie u dec st (Some d) (firstOf st d) with
    | (st1, Ok first) =>
        match childLoop u dec f (fixParent st1 first d) d first with
        | (st2, Ok kids) =>
            let st3 := match rev kids with l :: _ => setNext st2 l 0 | [] => st2 end in
            offToDie u dec st3 par (nextOf st3 d)
        | (st2, Throw) => (st2, Throw) | (st2, UB) => (st2, UB) | (st2, OutOfFuel) => (st2, OutOfFuel)
        end
    | (st1, Throw) => (st1, Throw) | (st1, UB) => (st1, UB) | (st1, OutOfFuel) => (st1, OutOfFuel)
    end
  else offToDie u dec st par (nextOf st d).
Proof. reflexivity. Qed.
Lemma PL_step f : PN f -> PL f -> PL (S f).
Proof.
  intros HN HL st p l1 l2 I Sp K Hs Hy Hf. destruct l2 as [|x r]; cbn [hdo map]; rewrite childLoop_S.
  { exists st. split; [reflexivity|]. split; [exact I|]. split; [apply grows_refl|]. split; [auto|]. split; [intros [|? ?]; discriminate|]. intros k []. }
  destruct (Hy x r eq_refl) as [Hsx Hpx].
  assert (Sx : sub x root) by (eapply sub_trans; [apply kid_sub; rewrite K; apply in_or_app; right; now left|exact Sp]).
  cbn [lsize fold_right] in Hf. fold (lsize r) in Hf.
  assert (1 <= nsize x)%nat by (rewrite nsize_eq; lia).
  destruct (HN st p l1 x r I Sp K Hsx Hs ltac:(lia)) as (st1 & E1 & I1 & G1 & Y1 & M1 & C1 & F1). rewrite E1.
  pose proof (closable_claim st st1 x Sx M1 C1) as CC.
  assert (K' : nkids p = (l1 ++ [x]) ++ r) by (rewrite <- app_assoc; exact K).
  assert (X2 : let st2 := fixParent st1 (hdo r) (noff p) in Inv st2 /\ grows st1 st2 /\ (forall m, eff st2 m = eff st1 m) /\
               (forall y r', r = y :: r' -> stored st2 y /\ parentField st2 (noff y) <> 0)).
  { destruct r as [|y r']; cbn [hdo].
    - cbn. split; [exact I1|]. split; [apply grows_refl|]. split; [reflexivity|discriminate].
    - destruct (fixParent_ok st1 p y I1 Sp) as (J1 & J2 & J3 & J4).
      + rewrite K. apply in_or_app. right. right. now left.
      + now apply (Y1 y r').
      + cbv zeta in *. split; [exact J1|]. split; [exact J2|]. split; [exact J3|]. intros ? ? X. inversion X; subst. split; [|exact J4].
        apply J2. now apply (Y1 y0 r'0). }
  cbv zeta in X2. destruct X2 as (I2 & G2 & Ef2 & Y2).
  destruct (HL (fixParent st1 (hdo r) (noff p)) p (l1 ++ [x]) r I2 Sp K') as (st' & E' & I' & G' & M' & L' & P'); auto.
  { apply G2, G1, Hs. } { lia. }
  rewrite E'. exists st'. split; [reflexivity|]. split; [exact I'|]. split; [eapply grows_trans; [exact G1|]; eapply grows_trans; eauto|].
  assert (Mm : forall m, sub m root -> eff st m = nfin m -> eff st' m = nfin m \/ exists k, In k (x :: r) /\ inside m k).
  { intros m Sm Em. destruct (M1 m Sm Em) as [Em1|In1]; [|right; exists x; split; [now left|exact In1]].
    destruct (M' m Sm) as [?|(k & Hk & Ik)]; [now rewrite Ef2|now left|]. right. exists k. split; [now right|exact Ik]. }
  split; [exact Mm|]. split.
  - intros l k El Ck. destruct l as [|x' l]; cbn [app] in El; inversion El; subst.
    + assert (Ep : eff st1 p = nfin p) by (apply F1; auto). destruct (M' p Sp) as [?|(k' & [] & _)]; [now rewrite Ef2|assumption].
    + apply (L' l k eq_refl). eapply closable_sub with (st := st1); [|intros y _ Ey; now rewrite Ef2].
      assert (Sk : sub k root). { eapply sub_trans; [apply kid_sub; rewrite K; apply in_or_app; right; right; apply in_or_app; right; now left|exact Sp]. }
      destruct (CC k Sk Ck) as [?|Bad]; [assumption|]. exfalso. eapply (kid_not_inside p l1 x' (l ++ [k]) k); [eapply sub_wf; eauto|exact K|apply in_or_app; right; now left|exact Bad].
  - intros k [<-|Hk]; [|now apply P'].
    assert (Q1 : stored st1 x) by now apply G1. assert (parentField st1 (noff x) <> 0) by (rewrite (proj2 G1) by exact Hpx; exact Hpx).
    split; [apply G', G2, Q1|]. assert (Q2 : parentField (fixParent st1 (hdo r) (noff p)) (noff x) <> 0) by (rewrite (proj2 G2) by assumption; assumption).
    rewrite (proj2 G') by exact Q2. exact Q2.
Qed.

Lemma PN_step f : PL f -> PN (S f).
Proof.
  intros HL st p l1 x l2 I Sp K Hsx Hs Hf. rewrite nextSib_S.
  assert (Kx : In x (nkids p)) by (rewrite K; apply in_or_app; right; now left).
  assert (Sx : sub x root) by (eapply sub_trans; [apply kid_sub; exact Kx|exact Sp]).
  assert (Wp : wfN p) by (eapply sub_wf; eauto). assert (Wx : wfN x) by (eapply sub_wf; eauto).
  pose proof (kid_in p x Wp Kx) as Gpx.
  rewrite (nextOf_eff st x Hsx). destruct (eff st x =? 0) eqn:Q0.
  2: { destruct (eff_cases st x I Sx) as [Ex|Ex]; [|lia]. rewrite Ex.
       destruct (next_off st p l1 x l2 I Sp K Hs) as (st' & A & B & G & Y & M & L). exists st'. rewrite A. repeat split; auto; try apply G; try apply B. }
  assert (Ex : eff st x = 0) by lia. pose proof (nfin_nz x Sx) as Nx.
  destruct (first_ok st x I Sx Hsx) as (st1 & E1 & R1). rewrite E1. cbv zeta in R1. set (stf := fixParent st1 (hdo (nkids x)) (noff x)) in *.
  destruct R1 as (I1 & G1 & Y1 & M1 & Em1 & Ne1 & Nh1).
  assert (Hsx1 : stored stf x) by (apply G1, Hsx). assert (Hsp1 : stored stf p) by (apply G1, Hs).
  destruct (HL stf x [] (nkids x) I1 Sx eq_refl Hsx1 Y1) as (st2 & E2 & I2 & G2 & M2 & L2 & P2). { rewrite nsize_eq in Hf. lia. }
  rewrite E2. cbv zeta.
  (* after the reset of the last child *)
  set (st3 := match rev (map noff (nkids x)) with l :: _ => setNext st2 l 0 | [] => st2 end).
  assert (X3 : Inv st3 /\ grows st st3 /\ (forall m, sub m root -> eff st m = nfin m -> eff st3 m = nfin m \/ inside m x) /\ (closable st x -> eff st3 x = nfin x)).
  { assert (MM : forall m, sub m root -> eff st m = nfin m -> eff st2 m = nfin m \/ inside m x).
    { intros m Sm Em. destruct (M2 m Sm (M1 m Sm Em)) as [?|(k & Hk & Ik)]; [now left|]. right.
      pose proof (kid_in x k Wx Hk). unfold inside in *. lia. }
    assert (G02 : grows st st2) by (eapply grows_trans; eauto).
    destruct (exists_last_or_nil (nkids x)) as [Kn|(l & y & Kl)].
    - subst st3. rewrite Kn. cbn [map rev]. split; [exact I2|]. split; [exact G02|]. split; [exact MM|].
      intros C. inversion C as [? E|? Hh _|? l k _ K' _]; subst; [lia| |rewrite Kn in K'; destruct l; discriminate].
      destruct (M2 x Sx (Em1 Kn Hh)) as [?|(k & Hk & _)]; [assumption|rewrite Kn in Hk; destruct Hk].
    - assert (R3 : st3 = setNext st2 (noff y) 0) by (subst st3; rewrite Kl, map_app, rev_app_distr; reflexivity).
      assert (Hy : In y (nkids x)) by (rewrite Kl; apply in_or_app; right; now left).
      assert (Sy : sub y root) by (eapply sub_trans; [apply kid_sub; exact Hy|exact Sx]).
      pose proof (kid_in x y Wx Hy) as Gy. pose proof (wf_lt _ (wf_kid _ _ Wx Hy)) as Ly.
      assert (E3 : forall m, sub m root -> m <> y -> eff st3 m = eff st2 m).
      { intros m Sm Nm. rewrite R3, setNext_eff. destruct (noff m =? noff y) eqn:Qy; [|reflexivity]. exfalso. apply Nm. apply (uniq root); auto; lia. }
      assert (M3 : forall m, sub m root -> eff st m = nfin m -> eff st3 m = nfin m \/ inside m x).
      { intros m Sm Em. destruct (MM m Sm Em) as [E|?]; [|now right]. destruct (Z.eq_dec (noff m) (noff y)) as [Qy|Qy].
        - right. unfold inside. lia.
        - left. rewrite E3; [exact E|exact Sm|intros ->; congruence]. }
      assert (C3 : closable st x -> eff st3 x = nfin x).
      { intros C. inversion C as [? E|? Hh K'|? l' k _ K' Ck]; subst; [lia|rewrite Kl in K'; destruct l; discriminate|].
        rewrite Kl in K'. apply app_inj_tail in K' as [<- <-].
        assert (E : eff st2 x = nfin x).
        { apply (L2 l y Kl). eapply closable_sub; [exact Ck|]. intros m Sm Em. apply M1; [|exact Em]. eapply sub_trans; eauto. }
        rewrite E3; [exact E|exact Sx|]. intros ->. lia. }
      split; [|split; [|split]]; auto.
      + split; [rewrite R3; apply (setNext_raw st2 (noff y) 0 y); auto; apply I2|].
        intros q a k b Sq Kq Hb. assert (Hk : In k (nkids q)) by (rewrite Kq; apply in_or_app; right; now left).
        assert (Sk : sub k root) by (eapply sub_trans; [apply kid_sub; exact Hk|exact Sq]).
        assert (Wk : wfN k) by (eapply sub_wf; eauto).
        destruct (Z_le_dec (noff k) (noff y)) as [Lk|Lk]; [destruct (Z_lt_dec (noff y) (nfin k)) as [Uk|Uk]|].
        * assert (Nk : noff k <> noff y).
          { intros Eo. assert (k = y) by (apply (uniq root); auto). subst k.
            assert (q = x) by (apply (parent_uniq root y q x Wr Sq Sx Hk Hy)). subst q.
            destruct (exists_last Hb) as (b' & w & Eb). assert (w = y).
            { rewrite Kl, Eb in Kq. change (a ++ y :: b' ++ [w]) with (a ++ (y :: b') ++ [w]) in Kq. rewrite app_assoc in Kq. now apply app_inj_tail in Kq. }
            subst w. destruct (kids_order x a y b y Wx Kq) as [_ O]. specialize (O ltac:(rewrite Eb; apply in_or_app; right; now left)). lia. }
          assert (Ck : closable st k) by exact (proj2 I q a k b Sq Kq Hb).
          destruct (closable_claim st st3 x Sx M3 C3 k Sk Ck) as [?|[B1 B2]]; [assumption|]. exfalso.
          destruct (parent_inside root y x k Wr Sx Sk Hy) as [->|[? ?]]; [unfold inside; lia|lia|lia].
        * eapply closable_sub; [exact (proj2 I2 q a k b Sq Kq Hb)|]. intros m Sm Em. rewrite E3; [exact Em|eapply sub_trans; eauto|]. intros ->.
          pose proof (sub_range _ _ Sm Wk). lia.
        * eapply closable_sub; [exact (proj2 I2 q a k b Sq Kq Hb)|]. intros m Sm Em. rewrite E3; [exact Em|eapply sub_trans; eauto|]. intros ->.
          pose proof (sub_range _ _ Sm Wk). lia.
      + rewrite R3. eapply grows_trans; [exact G02|apply setNext_grows]. }
  clearbody st3. destruct X3 as (I3 & G3 & M3 & C3).
  assert (Hsx3 : stored st3 x) by (apply G3, Hsx). rewrite (nextOf_eff st3 x Hsx3).
  destruct (eff_cases st3 x I3 Sx) as [E3|E3]; rewrite E3.
  - destruct (next_off st3 p l1 x l2 I3 Sp K ltac:(apply G3, Hs)) as (st' & A & B & G & Y & M & L). exists st'. rewrite A. split; [reflexivity|].
    split; [exact B|]. split; [eapply grows_trans; eauto|]. split; [exact Y|]. split; [|split; auto].
    intros m Sm Em. destruct (M3 m Sm Em); auto.
  - assert (NC : ~ closable st x) by (intros C; specialize (C3 C); lia).
    assert (l2 = []). { destruct l2; [reflexivity|]. exfalso. apply NC. apply (proj2 I p l1 x (n :: l2) Sp K). discriminate. } subst l2.
    rewrite offToDie_0. exists st3. split; [reflexivity|]. split; [exact I3|]. split; [exact G3|]. split; [discriminate|]. split; [exact M3|]. split; intros C; contradiction.
Qed.
Lemma nav_ok fuel : PN fuel /\ PL fuel.
Proof.
  induction fuel as [|f [HN HL]].
  - split.
    + intros st p l1 x l2 _ _ _ _ _ Hf. rewrite nsize_eq in Hf. lia.
    + intros st p l1 l2 _ _ _ _ _ Hf. lia.
  - split; [now apply PN_step|now apply PL_step].
Qed.

Lemma children_ok fuel st p : Inv st -> sub p root -> stored st p -> (3 * nsize p <= fuel)%nat ->
  exists st', children u dec fuel st (noff p) = (st', Ok (map noff (nkids p))) /\ Inv st' /\ grows st st' /\
    (forall k, In k (nkids p) -> stored st' k /\ parentField st' (noff k) <> 0).
Proof.
  intros I Sp Hs Hf. unfold children. destruct (first_ok st p I Sp Hs) as (st1 & E1 & I1 & G1 & Y1 & _). rewrite E1.
  destruct (proj2 (nav_ok fuel) (fixParent st1 (hdo (nkids p)) (noff p)) p [] (nkids p) I1 Sp eq_refl) as (st' & A & B & G & _ & _ & P); auto.
  - apply G1, Hs.
  - rewrite nsize_eq in Hf. lia.
  - exists st'. split; [exact A|]. split; [exact B|]. split; [eapply grows_trans; eauto|exact P].
Qed.

Definition known (st : store) (m : node) : Prop := stored st m /\ parentField st (noff m) <> 0.
Lemma known_grows st st' m : grows st st' -> known st m -> known st' m.
Proof. intros [G1 G2] [A B]. split; [now apply G1|]. rewrite G2 by exact B. exact B. Qed.
Definition PW (fuel : nat) : Prop := forall st x, Inv st -> sub x root -> stored st x -> (3 * nsize x <= fuel)%nat ->
  exists st', walk u dec fuel st (noff x) = (st', Ok tt) /\ Inv st' /\ grows st st' /\ (forall k m, In k (nkids x) -> sub m k -> known st' m).
Definition PWL (fuel : nat) : Prop := forall st p l1 l2, Inv st -> sub p root -> nkids p = l1 ++ l2 -> stored st p ->
  (forall y r, l2 = y :: r -> known st y) -> (3 * lsize l2 + 1 <= fuel)%nat ->
  exists st', walkLoop u dec fuel st (noff p) (hdo l2) = (st', Ok tt) /\ Inv st' /\ grows st st' /\ (forall k m, In k l2 -> sub m k -> known st' m).
Lemma walkLoop_S f st par cur : walkLoop u dec (S f) st par cur =
  match cur with
  | None => (st, Ok tt)
  | Some c =>
      match walk u dec f st c with
      | (st1, Ok _) =>
          match nextSib u dec f st1 c (Some par) with
          | (st2, Ok nxt) => walkLoop u dec f (fixParent st2 nxt par) par nxt
          | (st2, Throw) => (st2, Throw) | (st2, UB) => (st2, UB) | (st2, OutOfFuel) => (st2, OutOfFuel)
          end
      | x => x
      end
  end.
Proof. reflexivity. Qed.
Lemma walk_S f st d : walk u dec (S f) st d =
  match offToDie u dec st (Some d) (firstOf st d) with
  | (st1, Ok first) => walkLoop u dec f (fixParent st1 first d) d first
  | (st1, Throw) => (st1, Throw) | (st1, UB) => (st1, UB) | (st1, OutOfFuel) => (st1, OutOfFuel)
  end.
Proof. reflexivity. Qed.
Lemma walk_ok fuel : PW fuel /\ PWL fuel.
Proof.
  induction fuel as [|f [HW HL]].
  - split.
    + intros st x _ _ _ Hf. rewrite nsize_eq in Hf. lia.
    + intros st p l1 l2 _ _ _ _ _ Hf. lia.
  - split.
    + intros st x I Sx Hs Hf. rewrite walk_S. destruct (first_ok st x I Sx Hs) as (st1 & E1 & I1 & G1 & Y1 & _). rewrite E1.
      destruct (HL (fixParent st1 (hdo (nkids x)) (noff x)) x [] (nkids x) I1 Sx eq_refl) as (st' & A & B & G & P); auto.
      { apply G1, Hs. } { rewrite nsize_eq in Hf. lia. }
      exists st'. split; [exact A|]. split; [exact B|]. split; [eapply grows_trans; eauto|exact P].
    + intros st p l1 l2 I Sp K Hs Hy Hf. rewrite walkLoop_S. destruct l2 as [|x r]; cbn [hdo].
      { exists st. split; [reflexivity|]. split; [exact I|]. split; [apply grows_refl|]. intros k m []. }
      pose proof (Hy x r eq_refl) as Kx. assert (Sx : sub x root) by (eapply sub_trans; [apply kid_sub; rewrite K; apply in_or_app; right; now left|exact Sp]).
      cbn [lsize fold_right] in Hf. fold (lsize r) in Hf. assert (1 <= nsize x)%nat by (rewrite nsize_eq; lia).
      destruct (HW st x I Sx (proj1 Kx) ltac:(lia)) as (st1 & E1 & I1 & G1 & P1). rewrite E1.
      destruct (proj1 (nav_ok f) st1 p l1 x r I1 Sp K) as (st2 & E2 & I2 & G2 & Y2 & _); [apply G1, Kx|apply G1, Hs|lia|]. rewrite E2.
      assert (X3 : let st3 := fixParent st2 (hdo r) (noff p) in Inv st3 /\ grows st2 st3 /\ (forall y r', r = y :: r' -> known st3 y)).
      { destruct r as [|y r']; cbn [hdo].
        - cbn. split; [exact I2|]. split; [apply grows_refl|discriminate].
        - destruct (fixParent_ok st2 p y I2 Sp) as (J1 & J2 & J3 & J4).
          + rewrite K. apply in_or_app. right. right. now left.
          + now apply (Y2 y r').
          + cbv zeta in *. split; [exact J1|]. split; [exact J2|]. intros ? ? X. inversion X; subst. split; [|exact J4]. apply J2. now apply (Y2 y0 r'0). }
      cbv zeta in X3. destruct X3 as (I3 & G3 & Y3).
      assert (G03 : grows st (fixParent st2 (hdo r) (noff p))) by (eapply grows_trans; [exact G1|]; eapply grows_trans; eauto).
      assert (G13 : grows st1 (fixParent st2 (hdo r) (noff p))) by (eapply grows_trans; eauto).
      destruct (HL (fixParent st2 (hdo r) (noff p)) p (l1 ++ [x]) r I3 Sp) as (st' & A & B & G & P); auto.
      { rewrite <- app_assoc. exact K. } { apply G03, Hs. } { lia. }
      exists st'. rewrite A. split; [reflexivity|]. split; [exact B|]. split; [eapply grows_trans; eauto|].
      intros k m [<-|Hk] Sm; [|now apply (P k)]. apply (known_grows (fixParent st2 (hdo r) (noff p))); [exact G|].
      inversion Sm as [|? k' ? Hk' Sm']; subst; [apply (known_grows st); auto|]. apply (known_grows st1); [exact G13|]. now apply (P1 k' m).
Qed.

(** The empty store. *)
Definition store0 : store := fun _ => None.
Lemma closable0 m : wfN m -> closable store0 m.
Proof.
  intros W. induction W as [n D F IH] using wfN_ind'. destruct D as (a & vs & fi & z & nx & D & _ & _ & _ & H1 & H2).
  assert (E : eff store0 n = nx) by (unfold eff, store0, fresh; rewrite D; reflexivity).
  destruct (nhk n) eqn:Hh.
  - destruct (H2 eq_refl) as ([X|X] & _); [|apply CNext; congruence].
    destruct (exists_last_or_nil (nkids n)) as [Kn|(l & y & Kl)]; [now apply CEmpty|]. eapply CLast; [exact Hh|exact Kl|].
    rewrite Forall_forall in IH. apply IH. rewrite Kl. apply in_or_app. right. now left.
  - destruct (H1 eq_refl) as [_ X]. apply CNext. congruence.
Qed.
Lemma Inv0 : Inv store0.
Proof.
  split; [discriminate|]. intros p l1 k l2 Sp K _. apply closable0. apply (wf_kid p); [eapply sub_wf; eauto|].
  rewrite K. apply in_or_app. right. now left.
Qed.

(** The recorded parent, if any, is the parent. *)
Lemma parent_true st m : Inv st -> sub m root -> stored st m -> parentField st (noff m) <> 0 ->
  exists p, sub p root /\ In m (nkids p) /\ parentField st (noff m) = noff p.
Proof.
  intros I S Hs H. unfold stored in Hs. unfold parentField in *. destruct (st (noff m)) as [r|] eqn:E; [|congruence].
  destruct (proj1 I _ _ E) as (m' & r0 & S' & O' & _ & _ & _ & _ & _ & P). assert (m' = m) by (apply (uniq root); auto). subst m'.
  destruct P as [?|P]; [contradiction|exact P].
Qed.
Lemma root_no_parent st : Inv st -> stored st root -> parentField st (noff root) = 0.
Proof.
  intros I Hs. destruct (Z.eq_dec (parentField st (noff root)) 0) as [E|E]; [exact E|]. exfalso.
  destruct (parent_true st root I (SubRefl _) Hs E) as (p & Sp & Hp & _).
  pose proof (kid_in p root (sub_wf _ _ Sp Wr) Hp). pose proof (sub_range _ _ Sp Wr). lia.
Qed.
Lemma getParent_ok fuel st m : Inv st -> sub m root -> stored st m -> dRoot u = noff root -> (3 * nsize root <= fuel)%nat ->
  exists st' r, getParent u dec fuel st (noff m) = (st', Ok r) /\ Inv st' /\ grows st st' /\
    ((m = root /\ r = 0) \/ exists p, sub p root /\ In m (nkids p) /\ r = noff p).
Proof.
  intros I S Hs Hr Hf. unfold getParent. rewrite Hr. destruct (parentField st (noff m) =? 0) eqn:Q; cbn [andb].
  2: { exists st. eexists. split; [reflexivity|]. split; [exact I|]. split; [apply grows_refl|]. right.
       destruct (parent_true st m I S Hs ltac:(lia)) as (p & A & B & C). eauto. }
  destruct (noff m =? noff root) eqn:Qr; cbn [negb].
  - assert (m = root) by (apply (uniq root); auto; [constructor|lia]). subst m. exists st. eexists. split; [reflexivity|]. split; [exact I|]. split; [apply grows_refl|]. left.
    split; [reflexivity|lia].
  - destruct (offToDie_node st None root I (SubRefl _) (or_introl eq_refl)) as (st1 & E1 & I1 & G1 & S1 & _). rewrite E1.
    destruct (proj1 (walk_ok fuel) st1 root I1 (SubRefl _) S1 Hf) as (st2 & E2 & I2 & G2 & P2). rewrite E2.
    exists st2. eexists. split; [reflexivity|]. split; [exact I2|]. split; [eapply grows_trans; eauto|]. right.
    assert (K : known st2 m). { inversion S as [|? k ? Hk Sk]; subst; [rewrite Z.eqb_refl in Qr; discriminate|]. now apply (P2 k). }
    destruct (parent_true st2 m I2 S (proj1 K) (proj2 K)) as (p & A & B & C). eauto.
Qed.
End Nav.
