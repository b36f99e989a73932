From Coq Require Import String.
From Verif Require Import Base ElfHash Python PythonSpec PythonProofs.

Definition exps (l : list out) : list Z := flat_map listed l.
Lemma exps_app a b : exps (a ++ b) = exps a ++ exps b. Proof. apply flat_map_app. Qed.
Lemma calls_app a b : calls (a ++ b) = calls a ++ calls b. Proof. apply flat_map_app. Qed.
Lemma NoDup_app2 {A} (a b : list A) : NoDup a -> NoDup b -> (forall x, In x a -> ~ In x b) -> NoDup (a ++ b).
Proof.
  induction a as [|x a IH]; intros Na Nb D; [exact Nb|]. inversion Na; subst. cbn [app]. constructor.
  - rewrite in_app_iff. intros [X|X]; [contradiction|]. apply (D x); [now left|exact X].
  - apply IH; auto. intros y Hy. apply D. now right.
Qed.

(** computations that list objects at most once: what they list was not marked before and is marked afterwards *)
Definition E {A} (x : M A) : Prop := forall s o s' r, x s = (o, s', r) ->
  incl (pVisited s) (pVisited s') /\ NoDup (exps o) /\ forall a, In a (exps o) -> In a (pVisited s') /\ ~ In a (pVisited s).
(** and that list nothing, request nothing and mark nothing *)
Definition N {A} (x : M A) : Prop := forall s o s' r, x s = (o, s', r) -> calls o = [] /\ exps o = [] /\ pVisited s' = pVisited s.
Lemma N_E {A} (x : M A) : N x -> E x.
Proof. intros H s o s' r Ex. destruct (H _ _ _ _ Ex) as (_ & H2 & H3). rewrite H2, H3. repeat split; try apply incl_refl; try constructor; destruct H0. Qed.
Lemma E_bind {A B} (x : M A) (f : A -> M B) : E x -> (forall a, E (f a)) -> E (bindM x f).
Proof.
  intros Hx Hf s o s' r. unfold bindM. destruct (x s) as ((o1 & s1) & r1) eqn:Ex. specialize (Hx _ _ _ _ Ex). destruct Hx as (X1 & X2 & X3).
  destruct r1 as [a| | |]; try (intros [= <- <- <-]; exact (conj X1 (conj X2 X3))). destruct (f a s1) as ((o2 & s2) & r2) eqn:Ef. specialize (Hf a _ _ _ _ Ef). destruct Hf as (F1 & F2 & F3).
  intros [= <- <- <-]. rewrite exps_app. split; [eapply incl_tran; eauto|]. split.
  - apply NoDup_app2; auto. intros y Hy Hz. apply X3 in Hy. apply F3 in Hz. tauto.
  - intros y Hy. apply in_app_iff in Hy as [Hy|Hy]; [apply X3 in Hy as (Y1 & Y2); auto|]. apply F3 in Hy as (Y1 & Y2). split; [auto|]. intros Z. apply Y2. now apply X1.
Qed.
Lemma N_bind {A B} (x : M A) (f : A -> M B) : N x -> (forall a, N (f a)) -> N (bindM x f).
Proof.
  intros Hx Hf s o s' r. unfold bindM. destruct (x s) as ((o1 & s1) & r1) eqn:Ex. specialize (Hx _ _ _ _ Ex). destruct Hx as (X1 & X2 & X3).
  destruct r1 as [a| | |]; try (intros [= <- <- <-]; now repeat split). destruct (f a s1) as ((o2 & s2) & r2) eqn:Ef. specialize (Hf a _ _ _ _ Ef). destruct Hf as (F1 & F2 & F3).
  intros [= <- <- <-]. rewrite exps_app, calls_app, X1, X2, F1, F2, F3. now repeat split.
Qed.
Lemma N_lift {A} (r : res A) : N (lift r). Proof. intros s o s' r' [= <- <- <-]. now repeat split. Qed.
Lemma N_ret {A} (a : A) : N (ret a). Proof. intros s o s' r' [= <- <- <-]. now repeat split. Qed.
Lemma N_emit t : N (emit t). Proof. intros s o s' r' [= <- <- <-]. now repeat split. Qed.
Lemma N_lit t : N (lit t). Proof. apply N_emit. Qed.
Lemma N_addDepth d : N (addDepth d). Proof. intros s o s' r' [= <- <- <-]. now repeat split. Qed.
Lemma N_getDepth : N getDepth. Proof. intros s o s' r' [= <- <- <-]. now repeat split. Qed.
Lemma N_prefix : N prefix. Proof. apply N_bind; [apply N_getDepth|intros; apply N_emit]. Qed.
Lemma N_setType t v : N (setType t v). Proof. intros s o s' r' [= <- <- <-]. now repeat split. Qed.
Lemma N_isVisited a : N (isVisited a). Proof. intros s o s' r' [= <- <- <-]. now repeat split. Qed.
Lemma E_each l body : (forall a, E (body a)) -> E (each l body).
Proof. intros H. induction l as [|a l IH]; cbn [each]; [apply N_E, N_ret|]. apply E_bind; auto. Qed.
Lemma E_pairs l body : (forall a b, E (body a b)) -> forall k, E (pairs l k body).
Proof. intros H. induction l as [|a l IH]; intros [|b k]; cbn [pairs]; try apply N_E, N_ret. apply E_bind; auto. Qed.
Lemma E_forN body : (forall i, E (body i)) -> forall fuel i n, E (forN fuel i n body).
Proof. intros H. induction fuel as [|f IH]; intros i n; cbn [forN]; [apply N_E, N_lift|]. destruct (_ <? _); [apply E_bind; auto|apply N_E, N_ret]. Qed.
Lemma exps_call a o : exps [Call a o] = exps o. Proof. unfold exps at 1. cbn [flat_map listed]. now rewrite app_nil_r. Qed.
Lemma E_call {A} a (x : M A) : E x -> E (group (Call a) x).
Proof. intros H s o s' r. unfold group. destruct (x s) as ((o1 & s1) & r1) eqn:Ex. intros [= <- <- <-]. specialize (H _ _ _ _ Ex). now rewrite exps_call. Qed.

(** depth: a computation that finishes changes it by [k] unless it reports a failure *)
Definition D (k : Z) {A} (x : M A) : Prop := forall s o s' a, x s = (o, s', Ok a) -> existsb fails o = false -> pDepth s' = pDepth s + k.
Lemma D_bind k j {A B} (x : M A) (f : A -> M B) : D k x -> (forall a, D j (f a)) -> D (k + j) (bindM x f).
Proof.
  intros Hx Hf s o s' r. unfold bindM. destruct (x s) as ((o1 & s1) & r1) eqn:Ex. destruct r1 as [a| | |]; try discriminate. specialize (Hx _ _ _ _ Ex). 
  destruct (f a s1) as ((o2 & s2) & r2) eqn:Ef. intros [= <- <- ->]. specialize (Hf a _ _ _ _ Ef). rewrite existsb_app. intros Ee. apply orb_false_iff in Ee as (E1 & E2). rewrite (Hf E2), (Hx E1). lia.
Qed.
Lemma D_lift {A} (r : res A) : D 0 (lift r). Proof. intros s o s' a [= <- <- _] _. lia. Qed.
Lemma D_ret {A} (a : A) : D 0 (ret a). Proof. intros s o s' a' [= <- <- _] _. lia. Qed.
Lemma D_emit t : D 0 (emit t). Proof. intros s o s' a' [= <- <- _] _. lia. Qed.
Lemma D_lit t : D 0 (lit t). Proof. apply D_emit. Qed.
Lemma D_addDepth d : D d (addDepth d). Proof. intros s o s' a' [= <- <- _] _. reflexivity. Qed.
Lemma D_getDepth : D 0 getDepth. Proof. intros s o s' a' [= <- <- _] _. lia. Qed.
Lemma D_prefix : D 0 prefix. Proof. apply (D_bind 0 0); [apply D_getDepth|intros; apply D_emit]. Qed.
Lemma D_setType t v : D 0 (setType t v). Proof. intros s o s' a' [= <- <- _] _. cbn. lia. Qed.
Lemma D_isVisited a : D 0 (isVisited a). Proof. intros s o s' a' [= <- <- _] _. lia. Qed.
Lemma D_visit a : D 0 (visit a). Proof. intros s o s' a' [= <- <- _] _. cbn. lia. Qed.
Lemma D_each l body : (forall a, D 0 (body a)) -> D 0 (each l body).
Proof. intros H. induction l as [|a l IH]; cbn [each]; [apply D_ret|]. apply (D_bind 0 0); auto. Qed.
Lemma D_pairs l body : (forall a b, D 0 (body a b)) -> forall k, D 0 (pairs l k body).
Proof. intros H. induction l as [|a l IH]; intros [|b k]; cbn [pairs]; try apply D_ret. apply (D_bind 0 0); auto. Qed.
Lemma D_forN body : (forall i, D 0 (body i)) -> forall fuel i n, D 0 (forN fuel i n body).
Proof. intros H. induction fuel as [|f IH]; intros i n; cbn [forN]; [apply D_lift|]. destruct (_ <? _); [apply (D_bind 0 0); auto|apply D_ret]. Qed.
Lemma D_eq k j {A} (x : M A) : D k x -> k = j -> D j x. Proof. now intros H <-. Qed.
Lemma D_group {A} g (x : M A) : (forall o, fails (g o) = existsb fails o) -> D 0 x -> D 0 (group g x).
Proof. intros Hg H s o s' a. unfold group. destruct (x s) as ((o1 & s1) & r1) eqn:Ex. intros [= <- <- ->]. cbn [existsb]. rewrite Hg, orb_false_r. now apply H with (a := a). Qed.

Section S.
Context (v3 : bool) (lay : layout) (m : memory) (str : Z -> res (list Z)) (kindOf : Z -> option kind) (maxdepth : Z) (doargs dolocals : bool).
Lemma N_rd a n : N (rd m a n). Proof. apply N_lift. Qed.
Lemma N_strM a : N (strM str a). Proof. apply N_lift. Qed.
Lemma N_fld b o n : N (fldM b o n). Proof. apply N_lift. Qed.
Lemma N_vla n : N (vla n). Proof. apply N_lift. Qed.
Ltac n1 := match goal with
  | |- N (bindM _ _) => apply N_bind; [|intros ?]
  | |- N (if ?c then _ else _) => destruct c
  | |- N (let _ := _ in _) => cbv zeta
  | |- _ => first [apply N_lift|apply N_rd|apply N_strM|apply N_fld|apply N_vla|apply N_lit|apply N_emit|apply N_addDepth|apply N_getDepth|apply N_prefix|apply N_ret|apply N_setType|apply N_isVisited]
  end.
Ltac nn := cbv zeta; repeat (n1; cbv zeta).
Lemma N_ptrs a n : N (ptrs m a n). Proof. unfold ptrs. nn. Qed.
Lemma N_pyString a : N (pyString v3 m str a). Proof. unfold pyString. nn. Qed.
Lemma N_getLine c l : N (getLine v3 lay m c l). Proof. unfold getLine. nn. Qed.
Lemma N_getType t : N (getType lay m t).
Proof.
  intros s. unfold getType. destruct (typeFind (pTypes s) t) as [[ty|]|]; [now apply N_ret|now apply N_lift|].
  match goal with |- forall o s' r, ?x s = _ -> _ => assert (X : N x) by nn; intros o s' r H; exact (X _ _ _ _ H) end.
Qed.
Lemma N_choose tp a ty : N (choose str kindOf tp a ty).
Proof. unfold choose. destruct (kindOf tp); nn. Qed.
Section R.
Context (fuel : nat) (pr : Z -> M unit).
Lemma N_contents0 k ty n a : dupdetect k = false -> N (contents v3 lay m str maxdepth doargs dolocals fuel pr k ty n a).
Proof.
  intros Ed. unfold contents. nn. destruct k; try discriminate; cbn [runPrinter]; unfold stringPrinter, floatPrinter, longPrinter, boolPrinter, intPrinter; nn; try apply N_pyString.
Qed.
Section RE.
Context (Hpr : forall a, E (pr a)).
Ltac e1 := match goal with
  | |- E (bindM _ _) => apply E_bind; [|intros ?]
  | |- E (if ?c then _ else _) => destruct c
  | |- E (pr _) => apply Hpr
  | |- E (each _ _) => apply E_each; intros ?
  | |- E (pairs _ _ _) => apply E_pairs; intros ? ?
  | |- E (forN _ _ _ _) => apply E_forN; intros ?
  | |- _ => apply N_E; first [apply N_ptrs|apply N_pyString|apply N_getLine|n1]
  end.
Ltac ee := cbv zeta; repeat (e1; cbv zeta).
Lemma E_tupleVars n v t k : E (printTupleVars m pr n v t k). Proof. unfold printTupleVars. ee. Qed.
Lemma E_printArguments b a : E (printArguments v3 lay m str pr b a). Proof. unfold printArguments. ee. Qed.
Lemma E_runPrinter k ty b a : E (runPrinter v3 lay m str maxdepth doargs dolocals fuel pr k ty b a).
Proof.
  destruct k; cbn [runPrinter].
  - unfold heapPrinter. ee.
  - unfold stringPrinter. ee.
  - unfold floatPrinter. ee.
  - unfold modulePrinter. ee.
  - unfold listPrinter, elements. ee.
  - unfold typePrinter. ee.
  - unfold longPrinter. ee.
  - unfold framePrinter. ee; first [apply E_printArguments|apply E_tupleVars].
  - unfold tuplePrinter, elements. ee.
  - destruct v3; [unfold dict3Printer, dict3Slot|unfold dict2Printer, dict2Slot]; ee.
  - unfold boolPrinter. ee.
  - unfold intPrinter. ee.
  - unfold classPrinter. ee.
  - unfold instancePrinter. ee.
Qed.
Lemma E_contents k ty n a : E (contents v3 lay m str maxdepth doargs dolocals fuel pr k ty n a).
Proof. unfold contents. ee. apply E_runPrinter. Qed.
(** an object with something below it was not marked before *)
Definition F (a : Z) (x : M Z) : Prop := forall s o s' r, x s = (o, s', r) ->
  (incl (pVisited s) (pVisited s') /\ NoDup (exps o) /\ forall b, In b (exps o) -> In b (pVisited s') /\ ~ In b (pVisited s)) /\
  (calls o <> [] -> ~ In a (pVisited s) /\ In a (pVisited s') /\ ~ In a (exps o)).
Lemma F_N a x : N x -> F a x.
Proof. intros H s o s' r Ex. split; [exact (N_E x H _ _ _ _ Ex)|]. destruct (H _ _ _ _ Ex) as (-> & _). congruence. Qed.
Lemma F_bind a {A} (x : M A) (f : A -> M Z) : N x -> (forall y, F a (f y)) -> F a (bindM x f).
Proof.
  intros Hx Hf s o s' r. unfold bindM. destruct (x s) as ((o1 & s1) & r1) eqn:Ex. specialize (Hx _ _ _ _ Ex). destruct Hx as (X1 & X2 & X3).
  destruct r1 as [y| | |]; try (intros [= <- <- <-]; rewrite X1, X2, X3; split; [repeat split; try apply incl_refl; try constructor; destruct H|congruence]).
  destruct (f y s1) as ((o2 & s2) & r2) eqn:Ef. specialize (Hf y _ _ _ _ Ef). intros [= <- <- <-]. rewrite exps_app, calls_app, X1, X2. cbn [app]. now rewrite X3 in Hf.
Qed.
Lemma F_one a : F a (one v3 lay m str kindOf maxdepth doargs dolocals fuel pr a).
Proof.
  unfold one. do 4 (apply F_bind; [n1|intros ?]). apply F_bind; [nn|intros _]. apply F_bind; [apply N_getType|intros ty]. apply F_bind; [apply N_choose|intros [k|]]; [|apply F_N, N_ret].
  intros s o s' r. unfold bindM at 1, isVisited. cbn [app]. set (seen := existsb _ _).
  match goal with |- match ?x with _ => _ end = _ -> _ => destruct x as ((o1 & s1) & r1) eqn:Ex end. intros [= <- <- <-].
  destruct (dupdetect k) eqn:Ed; cbn [andb] in Ex.
  2:{ revert Ex. apply (F_bind a (ret tt)); [apply N_ret|]. intros _. apply F_N. now apply N_contents0. }
  destruct seen eqn:Es; [revert Ex; apply F_N; nn|].
  unfold bindM at 1, visit in Ex. cbn [app] in Ex. set (s2 := mkPS (pDepth s) (a :: pVisited s) (pTypes s)) in *.
  destruct (contents _ _ _ _ _ _ _ _ _ _ _ _ _ s2) as ((o2 & s3) & r2) eqn:Ec. destruct (E_contents _ _ _ _ _ _ _ _ Ec) as (C1 & C2 & C3). cbn [s2 pVisited] in C1, C3. injection Ex as <- <- <-.
  assert (Nv : ~ In a (pVisited s)). { intros X. assert (seen = true); [|congruence]. apply existsb_exists. exists a. split; [exact X|apply Z.eqb_refl]. }
  split; [split; [|split]|].
  - intros x Hx. apply C1. now right.
  - exact C2.
  - intros b Hb. destruct (C3 b Hb) as (Y1 & Y2). split; [exact Y1|]. intros X. apply Y2. now right.
  - intros _. repeat split; [exact Nv|apply C1; now left|]. intros X. destruct (C3 a X) as (_ & Y). apply Y. now left.
Qed.
Lemma E_obj a : E (group (Obj a) (one v3 lay m str kindOf maxdepth doargs dolocals fuel pr a)).
Proof.
  intros s o s' r. unfold group. destruct (one _ _ _ _ _ _ _ _ _ _ _ s) as ((o1 & s1) & r1) eqn:Eo. intros [= <- <- <-]. destruct (F_one _ _ _ _ _ Eo) as ((X1 & X2 & X3) & X4).
  assert (Ee : exps [Obj a o1] = match calls o1 with [] => [] | _ => [a] end ++ exps o1). { unfold exps at 1. cbn [flat_map listed]. now rewrite app_nil_r. }
  rewrite Ee. destruct (calls o1) as [|c cs]; cbn [app]; [now repeat split; auto; apply X3|]. destruct X4 as (Y1 & Y2 & Y3); [discriminate|].
  split; [exact X1|]. split; [now constructor|]. intros b [<-|Hb]; [now split|now apply X3].
Qed.
Lemma E_loop n : forall a, E (loop v3 lay m str kindOf maxdepth doargs dolocals fuel pr n a).
Proof. induction n as [|n IH]; intros a; cbn [loop]; [apply N_E, N_lift|]. destruct (a =? 0); [apply N_E, N_ret|]. apply E_bind; [apply E_obj|exact IH]. Qed.
End RE.

Section RD.
Context (Hpr : forall a, D 0 (pr a)).
Lemma D_rd a n : D 0 (rd m a n). Proof. apply D_lift. Qed.
Lemma D_strM a : D 0 (strM str a). Proof. apply D_lift. Qed.
Lemma D_fld b o n : D 0 (fldM b o n). Proof. apply D_lift. Qed.
Lemma D_vla n : D 0 (vla n). Proof. apply D_lift. Qed.
Ltac d0 := first [apply D_rd|apply D_strM|apply D_fld|apply D_vla|apply D_lit|apply D_emit|apply D_addDepth|apply D_getDepth|apply D_prefix|apply D_ret|apply D_setType|apply D_isVisited|apply D_visit|apply D_lift|apply Hpr].
Ltac dgo := cbv zeta; lazymatch goal with
  | |- D _ (bindM _ _) => eapply D_bind; [dleaf|intros ?; dgo]
  | |- _ => dleaf
  end
with dleaf := lazymatch goal with
  | |- D ?j (if ?c then _ else _) => unify j 0; destruct c; dz
  | |- D ?j (bindM _ _) => unify j 0; dz
  | |- D ?j (each _ _) => unify j 0; apply D_each; intros ?; dz
  | |- D ?j (pairs _ _ _) => unify j 0; apply D_pairs; intros ? ?; dz
  | |- D ?j (forN _ _ _ _) => unify j 0; apply D_forN; intros ?; dz
  | |- D ?j (ptrs _ _ _) => unify j 0; unfold ptrs; dz
  | |- D ?j (pyString _ _ _ _) => unify j 0; unfold pyString; dz
  | |- D ?j (getLine _ _ _ _ _) => unify j 0; unfold getLine; dz
  | |- D ?j (dict2Slot _ _ _ _) => unify j 0; unfold dict2Slot; dz
  | |- D ?j (dict3Slot _ _ _ _ _ _ _) => unify j 0; unfold dict3Slot; dz
  | |- D ?j (elements _ _) => unify j 0; unfold elements; dz
  | |- D ?j (printTupleVars _ _ _ _ _ _) => unify j 0; unfold printTupleVars; dz
  | |- D ?j (printArguments _ _ _ _ _ _ _) => unify j 0; unfold printArguments; dz
  | |- _ => d0
  end
with dz := eapply D_eq; [dgo|reflexivity].
Lemma D_getType t : D 0 (getType lay m t).
Proof.
  intros s. unfold getType. destruct (typeFind (pTypes s) t) as [[ty|]|]; [now apply D_ret|now apply D_lift|].
  match goal with |- forall o s' r, ?x s = _ -> _ => assert (X : D 0 x) by dz; intros o s' r H; exact (X _ _ _ _ H) end.
Qed.
Lemma D_choose tp a ty : D 0 (choose str kindOf tp a ty).
Proof. unfold choose. destruct (kindOf tp); dz. Qed.
Lemma D_runPrinter k ty b a : D 0 (runPrinter v3 lay m str maxdepth doargs dolocals fuel pr k ty b a).
Proof.
  destruct k; cbn [runPrinter].
  - unfold heapPrinter. dz.
  - unfold stringPrinter. dz.
  - unfold floatPrinter. dz.
  - unfold modulePrinter. dz.
  - unfold listPrinter. dz.
  - unfold typePrinter. dz.
  - unfold longPrinter. dz.
  - unfold framePrinter. dz.
  - unfold tuplePrinter. dz.
  - destruct v3; [unfold dict3Printer|unfold dict2Printer]; dz.
  - unfold boolPrinter. dz.
  - unfold intPrinter. dz.
  - unfold classPrinter. dz.
  - unfold instancePrinter. dz.
Qed.
Lemma D_one a : D 0 (one v3 lay m str kindOf maxdepth doargs dolocals fuel pr a).
Proof.
  unfold one. eapply D_eq; [do 4 (eapply D_bind; [d0|intros ?]); eapply D_bind; [apply (D_eq 0); [destruct (_ =? _); d0|reflexivity]|intros _]; eapply D_bind; [apply D_getType|intros ty]; eapply D_bind; [apply D_choose|intros k]|].
  - instantiate (1 := 0). destruct k as [k|]; [|d0]. eapply D_eq; [eapply D_bind; [d0|intros seen]|].
    + instantiate (1 := 0). destruct (_ && _); [dz|]. eapply D_eq; [eapply D_bind; [apply (D_eq 0); [destruct (dupdetect k); d0|reflexivity]|intros _]|].
      * instantiate (1 := 0). unfold contents. destruct (_ && _); [dz|]. cbv zeta. eapply D_eq; [eapply D_bind; [d0|intros _]; eapply D_bind; [d0|intros buf]; apply D_runPrinter|reflexivity].
      * reflexivity.
    + reflexivity.
  - reflexivity.
Qed.
Lemma D_loop n : forall a, D 0 (loop v3 lay m str kindOf maxdepth doargs dolocals fuel pr n a).
Proof. induction n as [|n IH]; intros a; cbn [loop]; [d0|]. destruct (a =? 0); [d0|]. apply (D_bind 0 0); [apply D_group; [reflexivity|apply D_one]|exact IH]. Qed.
End RD.
End R.
Lemma E_caught x : E x -> E (caught x).
Proof.
  intros H s o s' r. unfold caught. destruct (x s) as ((o1 & s1) & r1) eqn:Ex. specialize (H _ _ _ _ Ex).
  destruct r1; intros [= <- <- <-]; try exact H. rewrite exps_app. unfold exps at 2 4. cbn. now rewrite app_nil_r.
Qed.
Lemma print_E fuel : forall a, E (print v3 lay m str kindOf maxdepth doargs dolocals fuel a).
Proof.
  induction fuel as [|f IH]; intros a; cbn [print]; [apply N_E, N_lift|]. apply E_call. apply E_bind; [apply N_E, N_getDepth|intros d]. destruct (_ >? _); [apply N_E, N_lit|].
  apply E_bind; [apply N_E, N_addDepth|intros _]. apply E_bind; [|intros _; apply N_E, N_addDepth]. apply E_caught. apply E_loop. exact IH.
Qed.
Lemma D_caught x : D 0 x -> D 0 (caught x).
Proof.
  intros H s o s' a. unfold caught. destruct (x s) as ((o1 & s1) & r1) eqn:Ex. destruct r1; try discriminate.
  - intros [= <- <- _]. exact (H _ _ _ _ Ex).
  - intros [= <- <- _]. rewrite existsb_app. cbn [existsb fails]. rewrite String.eqb_refl. cbn. rewrite orb_true_r. discriminate.
Qed.
Lemma print_D fuel : forall a, D 0 (print v3 lay m str kindOf maxdepth doargs dolocals fuel a).
Proof.
  induction fuel as [|f IH]; intros a; cbn [print]; [apply D_lift|]. apply D_group; [reflexivity|]. apply (D_bind 0 0); [apply D_getDepth|intros d]. destruct (_ >? _); [apply D_lit|].
  apply (D_bind 1 (-1)); [apply D_addDepth|intros _]. apply (D_bind 0 (-1)); [|intros _; apply D_addDepth]. apply D_caught. apply D_loop. exact IH.
Qed.
End S.
