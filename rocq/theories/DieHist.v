(** Histories of navigation over the tree of entries of a unit. *)
From Verif Require Import Base Leb LebSpec DwarfReader DwarfReaderProofs ReaderSpec CfiSpec CfiProofs CfiProofs2 ExprProofs Cursor LinesSpec LinesProofs Die DieSpec DieProofs DieNav DieTree.

(** What a client does with the entry at an offset: get it (Unit::offsetToDIE, dwarf_unit.cc:149-160),
    iterate its children, begin such an iteration, step it from a child (DIE::ChildIterator
    dwarf_die.cc:387-405, 649-657), or ask for its parent (351-370).  The entry is obtained from its
    offset first, which does nothing if it is known already. *)
Inductive navOp : Type := OpAt (o : Z) | OpChildren (o : Z) | OpFirst (o : Z) | OpNext (parent child : Z) | OpParent (o : Z).
Inductive navAns : Type := AnsDie (o : option Z) | AnsList (l : list Z).
Definition mapAns {A} (g : A -> navAns) (x : store * res A) : store * res navAns :=
  (fst x, match snd x with Ok a => Ok (g a) | Throw => Throw | UB => UB | OutOfFuel => OutOfFuel end).
Definition fixed (par : Z) (x : store * res (option Z)) : store * res (option Z) :=
  match x with (st, Ok c) => (fixParent st c par, Ok c) | y => y end.
Section Run.
Context (u : dunit) (dec : Z -> res decoded) (fuel : nat).
Definition withDie {A} (st : store) (o : Z) (k : store -> Z -> store * res A) : store * res A :=
  match offToDie u dec st None o with
  | (st1, Ok (Some d)) => k st1 d
  | (st1, Ok None) => (st1, UB)
  | (st1, Throw) => (st1, Throw) | (st1, UB) => (st1, UB) | (st1, OutOfFuel) => (st1, OutOfFuel)
  end.
Definition runOp (st : store) (op : navOp) : store * res navAns :=
  match op with
  | OpAt o => mapAns AnsDie (offToDie u dec st None o)
  | OpChildren o => mapAns AnsList (withDie st o (fun s d => children u dec fuel s d))
  | OpFirst o => mapAns AnsDie (withDie st o (fun s d => fixed d (offToDie u dec s (Some d) (firstOf s d))))
  | OpNext p c => mapAns AnsDie (withDie st p (fun s dp => withDie s c (fun s dc => fixed dp (nextSib u dec fuel s dc (Some dp)))))
  | OpParent o => mapAns (fun r => AnsDie (if r =? 0 then None else Some r)) (withDie st o (fun s d => getParent u dec fuel s d))
  end.
Fixpoint runOps (st : store) (h : list navOp) : store :=
  match h with [] => st | op :: r => runOps (fst (runOp st op)) r end.
End Run.

(** Specification: what the answers should be, for the tree [t] at offset [root]. *)
Section Answers.
Context (f : fmt) (ds : list sdecl) (root : Z) (t : dtree).
Definition entryAt (o : Z) : Prop := exists x, inTree f ds root t o x.
Definition validOp (op : navOp) : Prop :=
  match op with
  | OpAt o | OpChildren o | OpFirst o | OpParent o => entryAt o
  | OpNext p c => exists x k, inTree f ds root t p x /\ kidAt f ds p x c k
  end.
Definition rightAnswer (op : navOp) (a : navAns) : Prop :=
  match op with
  | OpAt o => a = AnsDie (Some o)
  | OpChildren o => forall x, inTree f ds root t o x -> a = AnsList (kidOffs f ds o x)
  | OpFirst o => forall x, inTree f ds root t o x -> a = AnsDie (hd_error (kidOffs f ds o x))
  | OpNext p c => forall x l1 l2, inTree f ds root t p x -> kidOffs f ds p x = l1 ++ c :: l2 -> a = AnsDie (hd_error l2)
  | OpParent o => (o = root -> a = AnsDie None) /\ (forall po p k, inTree f ds root t po p -> kidAt f ds po p o k -> a = AnsDie (Some po))
  end.
End Answers.

(** The data a unit's entries are read from. *)
Record unitAt (f : fmt) (base fin root : Z) (ds : list sdecl) (t : dtree) (data : list Z) : Prop := {
  uFmt : wfFmt f; uDecls : Forall wfDecl ds; uBytes : Forall isByte data; uLen : zlen data + 32 < W64;
  uBase : 0 <= base < root; uFin : root + zlen (encodeT f ds t) <= fin;
  uTree : wfT f ds base root t; uSmall : allVals (offsetSmall f) t;
  uData : exists pre post, data = pre ++ encodeT f ds t ++ post /\ zlen pre = root }.

Lemma at_pre {pre l post : list Z} : at_ (pre ++ l ++ post) (zlen pre) (l ++ post).
Proof. split; [apply zlen_nonneg|]. exists []. rewrite zdrop_app_zlen. now rewrite app_nil_r. Qed.
Lemma wfL_in f ds base : forall l1 k l2 o, wfL f ds base o (l1 ++ k :: l2) -> wfT f ds base (o + zlen (flat_map (encodeT f ds) l1)) k.
Proof.
  induction l1 as [|y l1 IH]; intros k l2 o WL; cbn [app flat_map] in *.
  - change (zlen (@nil Z)) with 0. rewrite Z.add_0_r. now inversion WL.
  - rewrite zlen_app, Z.add_assoc. apply (IH k l2). now inversion WL.
Qed.
Lemma wfT_in f ds base off t o x : inTree f ds off t o x -> wfT f ds base off t -> wfT f ds base o x.
Proof.
  induction 1 as [off t|off t ko k o x K _ IH]; [auto|]. intros W. apply IH. inversion K as [? ? l1 ? l2 E]; subst.
  inversion W as [? ? ? ? d _ _ _ WL]; subst. cbn [tKids] in E. subst. eapply wfL_in. exact WL.
Qed.
Lemma wfT_kids f ds base off t : wfT f ds base off t -> hasKids ds (tCode t) = false -> tKids t = [].
Proof. intros W Q. inversion W as [? ? ? ? d D _ K _]; subst. cbn [tCode tKids] in *. apply K. unfold hasKids in Q. now rewrite D in Q. Qed.
Lemma node_size_le f ds base off t : wfT f ds base off t -> Z.of_nat (nsize (toNode f ds off t)) <= zlen (encodeT f ds t).
Proof.
  intros W. destruct (node_size f ds t off) as [A|[[A B]|(x & o & I & A & B)]]; [exact A| |]; exfalso; apply B; eapply wfT_kids; eauto using wfT_in.
Qed.

Section Hist.
Context (f : fmt) (base fin root : Z) (ds : list sdecl) (t : dtree) (data : list Z) (U : unitAt f base fin root ds t data).
Context (fuel : nat) (Hfuel : (3 * length data <= fuel)%nat).
Let u := unitOf f base fin root.
Let dec := decode data u (tableOf ds).
Let rt := toNode f ds root t.

Lemma unit_at : exists post, at_ data root (encodeT f ds t ++ post).
Proof. destruct (uData _ _ _ _ _ _ _ U) as (pre & post & -> & <-). exists post. apply at_pre. Qed.
Lemma Wr : wfN u dec rt.
Proof. destruct unit_at as [post A]. destruct U. apply (node_wf data uBytes0 uLen0 f base fin root uFmt0 ds uDecls0 t root post); tauto || lia || auto. Qed.
Lemma rt_root : dRoot u = noff rt. Proof. unfold rt. rewrite noff_toNode. reflexivity. Qed.
Lemma sub_size m n : sub m n -> (nsize m <= nsize n)%nat.
Proof.
  induction 1 as [|m k n Hk _ IH]; [lia|]. rewrite (nsize_eq n). clear -Hk IH. induction (nkids n) as [|y r IHr]; [destruct Hk|].
  cbn [lsize fold_right]. fold (lsize r). destruct Hk as [->|Hk]; [lia|]. specialize (IHr Hk). lia.
Qed.
Lemma rt_fuel m : sub m rt -> (3 * nsize m <= fuel)%nat.
Proof.
  intros S. apply sub_size in S. pose proof (node_size_le f ds base root t (uTree _ _ _ _ _ _ _ U)) as Z. fold rt in Z.
  destruct (uData _ _ _ _ _ _ _ U) as (pre & post & E & _). pose proof Hfuel as HF. rewrite E in HF. rewrite !app_length in HF. unfold zlen in Z. lia.
Qed.
Lemma entry_sub o x : inTree f ds root t o x -> sub (toNode f ds o x) rt.
Proof. intros I. apply sub_toNode. eauto. Qed.
Lemma withDie_node {A} st o x (k : store -> Z -> store * res A) : Inv dec rt st -> inTree f ds root t o x ->
  exists st', withDie u dec st o k = k st' o /\ Inv dec rt st' /\ grows st st' /\ stored st' (toNode f ds o x).
Proof.
  intros I H. pose proof (entry_sub o x H) as S. unfold withDie.
  destruct (offToDie_node u dec rt Wr st None (toNode f ds o x) I S (or_introl eq_refl)) as (st1 & E & I1 & G1 & S1 & _).
  rewrite noff_toNode in E. rewrite E. eauto 6.
Qed.
Lemma hdo_offs l : hdo l = hd_error (map noff l). Proof. destruct l; reflexivity. Qed.
Lemma kid_node p x c k : kidAt f ds p x c k -> exists l1 l2, nkids (toNode f ds p x) = l1 ++ toNode f ds c k :: l2.
Proof.
  intros K. apply in_split. rewrite nkids_toNode. apply toNodes_in. inversion K; subst. eauto.
Qed.
Lemma entry_uniq o x y : inTree f ds root t o x -> inTree f ds root t o y -> toNode f ds o x = toNode f ds o y.
Proof. intros A B. eapply (uniq u dec rt); [exact Wr|now apply entry_sub|now apply entry_sub|]. now rewrite !noff_toNode. Qed.
Lemma kidOffs_node o x : kidOffs f ds o x = map noff (nkids (toNode f ds o x)).
Proof. rewrite nkids_toNode, toNodes_offs. reflexivity. Qed.
Lemma NoDup_kids m : sub m rt -> NoDup (map noff (nkids m)).
Proof.
  intros S. pose proof (sub_wf u dec _ _ S Wr) as W. destruct (nkids m) as [|k0 r0] eqn:E; [constructor|].
  destruct (wf_kids u dec m W ltac:(congruence)) as (fi & z & C & _ & _ & F). rewrite E in *. revert fi C F. generalize (k0 :: r0). clear.
  induction l as [|k r IH]; intros fi C F; [constructor|]. cbn [map chain] in *. destruct C as [<- C]. inversion F; subst. constructor; [|eauto].
  intros X. apply in_map_iff in X as (y & E & Iy). destruct (chain_le _ _ _ C H2) as [_ Q]. specialize (Q y Iy). lia.
Qed.
Lemma NoDup_split {A} (x : A) l1 l2 m1 m2 : NoDup (l1 ++ x :: l2) -> l1 ++ x :: l2 = m1 ++ x :: m2 -> l2 = m2.
Proof.
  revert m1. induction l1 as [|a l1 IH]; intros [|b m1] ND E; cbn [app] in *.
  - now injection E.
  - injection E as -> ->. inversion ND; subst. exfalso. apply H1. apply in_or_app. right. now left.
  - injection E as -> <-. inversion ND; subst. exfalso. apply H1. apply in_or_app. right. now left.
  - injection E as -> E. inversion ND; subst. eauto.
Qed.

Lemma op_ok st op : Inv dec rt st -> validOp f ds root t op ->
  exists a, snd (runOp u dec fuel st op) = Ok a /\ rightAnswer f ds root t op a /\ Inv dec rt (fst (runOp u dec fuel st op)).
Proof.
  intros I V. destruct op as [o|o|o|p c|o]; cbn [validOp rightAnswer runOp] in *; unfold mapAns; cbn [fst snd].
  - destruct V as [x H]. pose proof (entry_sub o x H) as S.
    destruct (offToDie_node u dec rt Wr st None (toNode f ds o x) I S (or_introl eq_refl)) as (st1 & E & I1 & _). rewrite noff_toNode in E. rewrite E. cbn [fst snd].
    eauto.
  - destruct V as [x H]. destruct (withDie_node st o x (fun s d => children u dec fuel s d) I H) as (s1 & E & I1 & _ & S1). rewrite E.
    pose proof (entry_sub o x H) as S.
    destruct (children_ok u dec rt Wr fuel s1 _ I1 S S1 (rt_fuel _ S)) as (s2 & E2 & I2 & _). rewrite noff_toNode in E2. rewrite E2. cbn [fst snd].
    eexists. split; [reflexivity|]. split; [|exact I2]. intros y Hy. rewrite kidOffs_node. now rewrite (entry_uniq o y x Hy H).
  - destruct V as [x H]. destruct (withDie_node st o x (fun s d => fixed d (offToDie u dec s (Some d) (firstOf s d))) I H) as (s1 & E & I1 & _ & S1). rewrite E.
    pose proof (entry_sub o x H) as S. destruct (first_ok u dec rt Wr s1 _ I1 S S1) as (s2 & E2 & I2 & _). rewrite noff_toNode in *. rewrite E2.
    unfold fixed. cbn [fst snd]. eexists. split; [reflexivity|]. split; [|exact I2].
    intros y Hy. rewrite kidOffs_node, (entry_uniq o y x Hy H), hdo_offs. reflexivity.
  - destruct V as (x & k & H & K).
    assert (Hk : inTree f ds root t c k).
    { clear -H K. induction H as [off t|off t ko k' o x K' _ IH]; [econstructor; [exact K|constructor]|]. econstructor; [exact K'|]. now apply IH. }
    match goal with |- context [withDie u dec st p ?kk] => destruct (withDie_node st p x kk I H) as (s1 & E & I1 & _ & S1) end. rewrite E. clear E.
    match goal with |- context [withDie u dec s1 c ?kk] => destruct (withDie_node s1 c k kk I1 Hk) as (s2 & E & I2 & G2 & S2) end. rewrite E. clear E.
    pose proof (entry_sub p x H) as Sp. pose proof (entry_sub c k Hk) as Sk. destruct (kid_node p x c k K) as (l1 & l2 & N).
    destruct (proj1 (nav_ok u dec rt Wr fuel) s2 _ l1 _ l2 I2 Sp N S2) as (s3 & E3 & I3 & G3 & Y3 & _); [apply G2; exact S1|now apply rt_fuel|].
    rewrite !noff_toNode in E3. rewrite E3. unfold fixed. cbn [fst snd].
    eexists. split; [reflexivity|]. split.
    + intros y m1 m2 Hy Q. rewrite kidOffs_node, (entry_uniq p y x Hy H), N, map_app in Q. cbn [map] in Q. rewrite noff_toNode in Q.
      rewrite hdo_offs. do 2 f_equal. eapply NoDup_split; [|exact Q]. pose proof (NoDup_kids _ Sp) as ND. rewrite N, map_app in ND. cbn [map] in ND.
      now rewrite noff_toNode in ND.
    + destruct l2 as [|y r]; cbn [hdo fixParent]; [exact I3|].
      assert (Ky : In y (nkids (toNode f ds p x))) by (rewrite N; apply in_or_app; right; right; now left).
      pose proof (fixParent_ok u dec rt Wr s3 _ y I3 Sp Ky (Y3 y r eq_refl)) as Q. cbv zeta in Q. rewrite noff_toNode in Q. tauto.
  - destruct V as [x H]. destruct (withDie_node st o x (fun s d => getParent u dec fuel s d) I H) as (s1 & E & I1 & _ & S1). rewrite E.
    pose proof (entry_sub o x H) as S.
    destruct (getParent_ok u dec rt Wr fuel s1 _ I1 S S1 rt_root (rt_fuel _ (SubRefl _))) as (s2 & r & E2 & I2 & _ & R). rewrite noff_toNode in E2. rewrite E2. cbn [fst snd].
    eexists. split; [reflexivity|]. split; [|exact I2].
    destruct R as [[R ->]|(q & Sq & Kq & ->)].
    + assert (o = root) by (apply (f_equal noff) in R; unfold rt in R; now rewrite !noff_toNode in R). subst o. split; [reflexivity|].
      intros po p k Hp K. exfalso. destruct (kid_node po p root k K) as (l1 & l2 & N).
      pose proof (sub_wf u dec _ _ (entry_sub _ _ Hp) Wr) as Wp. pose proof (kid_in u dec _ (toNode f ds root k) Wp ltac:(rewrite N; apply in_or_app; right; now left)) as Q.
      pose proof (sub_range u dec _ _ (entry_sub _ _ Hp) Wr) as Q2. unfold rt in Q2. rewrite !noff_toNode in *. lia.
    + pose proof (noff_nz u dec rt Wr q Sq) as NZ. replace (noff q =? 0) with false by lia. split.
      * intros ->. exfalso. pose proof (kid_in u dec _ _ (sub_wf u dec _ _ Sq Wr) Kq) as Q. pose proof (sub_range u dec _ _ Sq Wr) as Q2. unfold rt in Q2. rewrite !noff_toNode in *. lia.
      * intros po p k Hp K. do 2 f_equal. destruct (kid_node po p o k K) as (l1 & l2 & N). pose proof (entry_sub _ _ Hp) as Sp.
        assert (Hk : inTree f ds root t o k).
        { clear -Hp K. induction Hp as [off t|off t ko k' o' x K' _ IH]; [econstructor; [exact K|constructor]|]. econstructor; [exact K'|]. now apply IH. }
        rewrite (entry_uniq o x k H Hk) in Kq.
        assert (Kp : In (toNode f ds o k) (nkids (toNode f ds po p))) by (rewrite N; apply in_or_app; right; now left).
        pose proof (sub_wf u dec _ _ Sq Wr) as Wq. pose proof (sub_wf u dec _ _ Sp Wr) as Wp.
        pose proof (kid_in u dec _ _ Wq Kq) as Q1. pose proof (kid_in u dec _ _ Wp Kp) as Q2.
        pose proof (wf_lt u dec _ (sub_wf u dec _ _ (entry_sub _ _ Hk) Wr)) as Q3.
        assert (X : sub q (toNode f ds po p) \/ sub (toNode f ds po p) q).
        { destruct (Z.le_gt_cases (noff q) (noff (toNode f ds po p))); [right|left]; apply (lam u dec rt Wr); auto; lia. }
        assert (Same : q = toNode f ds po p).
        { destruct X as [X|X].
          - inversion X as [|? k' ? Hk' Sk']; subst; [reflexivity|]. exfalso.
            pose proof (sub_range u dec _ _ Sk' (wf_kid u dec _ _ Wp Hk')) as R1.
            assert (k' = toNode f ds o k) by (apply (kids_disj u dec (toNode f ds po p) k' _ (noff (toNode f ds o k)) Wp Hk' Kp); lia). subst k'. lia.
          - inversion X as [|? k' ? Hk' Sk']; subst; [reflexivity|]. exfalso.
            pose proof (sub_range u dec _ _ Sk' (wf_kid u dec _ _ Wq Hk')) as R1.
            assert (k' = toNode f ds o k) by (apply (kids_disj u dec q k' _ (noff (toNode f ds o k)) Wq Hk' Kq); lia). subst k'. lia. }
        rewrite Same, noff_toNode. reflexivity.
Qed.
Lemma hist_Inv h : Forall (validOp f ds root t) h -> forall st, Inv dec rt st -> Inv dec rt (runOps u dec fuel st h).
Proof.
  induction 1 as [|op h V _ IH]; intros st I; [exact I|]. cbn [runOps]. apply IH. now destruct (op_ok st op I V) as (_ & _ & _ & ?).
Qed.
Theorem nav_answers h op : Forall (validOp f ds root t) h -> validOp f ds root t op ->
  exists a, snd (runOp u dec fuel (runOps u dec fuel store0 h) op) = Ok a /\ rightAnswer f ds root t op a.
Proof.
  intros H V. destruct (op_ok _ op (hist_Inv h H store0 (Inv0 u dec rt Wr)) V) as (a & A & B & _). eauto.
Qed.
End Hist.
