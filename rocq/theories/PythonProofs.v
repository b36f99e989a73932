From Coq Require Import String.
From Verif Require Import Base ElfHash Python PythonSpec.

Definition inR (a : Z) : Prop := 0 <= a < W64.
Lemma le_range l : Forall isByte l -> 0 <= le l < 256 ^ zlen l.
Proof.
  induction 1 as [|b l Hb _ IH]; [cbn; lia|]. cbn [le]. rewrite zlen_cons. pose proof (zlen_nonneg l). rewrite Z.pow_add_r by lia. unfold isByte in Hb. change (256 ^ 1) with 256. nia.
Qed.
Lemma Forall_ztake {A} (P : A -> Prop) l : Forall P l -> forall n, Forall P (ztake n l).
Proof. induction 1; intros n; cbn [ztake]; [constructor|]. destruct (n <=? 0); constructor; auto. Qed.
Lemma Forall_zdrop {A} (P : A -> Prop) l : Forall P l -> forall n, Forall P (zdrop n l).
Proof. induction 1; intros n; cbn [zdrop]; [constructor|]. destruct (n <=? 0); [constructor; auto|auto]. Qed.
Lemma memread_bytes m : byteMem m -> forall n a l, memread m a n = Some l -> Forall isByte l.
Proof.
  intros Hm. induction n as [|n IH]; intros a l; cbn [memread]; [intros [= <-]; constructor|].
  destruct (m a) eqn:E; [|discriminate]. destruct (memread m (a + 1) n) eqn:F; [|discriminate]. intros [= <-]. constructor; [exact (Hm _ _ E)|exact (IH _ _ F)].
Qed.

(** ** Termination *)
Definition Inv (s : pst) : Prop := NoDup (pVisited s) /\ Forall inR (pVisited s).
Definition T (s : pst) : Z := W64 - zlen (pVisited s).
Lemma NoDup_bound (l : list Z) n : 0 <= n -> NoDup l -> Forall (fun a => 0 <= a < n) l -> zlen l <= n.
Proof.
  intros Hn N F. assert (L : (length l <= length (map Z.of_nat (seq 0 (Z.to_nat n))))%nat).
  { apply NoDup_incl_length; [exact N|]. intros x Hx. rewrite Forall_forall in F. apply F in Hx. apply in_map_iff. exists (Z.to_nat x). split; [lia|]. apply in_seq. lia. }
  rewrite map_length, seq_length in L. unfold zlen. lia.
Qed.
Lemma T_nonneg s : Inv s -> 0 <= T s.
Proof. intros (N & F). unfold T. assert (zlen (pVisited s) <= W64); [|lia]. apply NoDup_bound; [unfold W64; lia|exact N|exact F]. Qed.

Definition G (u : Z) {A} (x : M A) (P : A -> Prop) : Prop := forall s, Inv s -> T s <= u ->
  match x s with (o, s', r) => Inv s' /\ T s' <= T s /\ match r with Ok a => P a | OutOfFuel => False | _ => True end end.
Lemma G_lift u {A} (r : res A) (P : A -> Prop) : match r with Ok a => P a | OutOfFuel => False | _ => True end -> G u (lift r) P.
Proof. intros H s Hs Hu. unfold lift, ret. repeat split; try apply Hs; [lia|]. destruct r; auto. Qed.
Lemma G_ret u {A} (a : A) (P : A -> Prop) : P a -> G u (ret a) P.
Proof. intros H s Hs Hu. unfold lift, ret. repeat split; try apply Hs; auto; lia. Qed.
Lemma G_bind u {A B} (x : M A) (f : A -> M B) P Q : G u x P -> (forall a, P a -> G u (f a) Q) -> G u (bindM x f) Q.
Proof.
  intros Hx Hf s Hs Hu. unfold bindM. specialize (Hx s Hs Hu). destruct (x s) as ((o & s1) & r). destruct Hx as (H1 & H2 & H3). destruct r; auto.
  specialize (Hf a H3 s1 H1 ltac:(lia)). destruct (f a s1) as ((o2 & s2) & r2). destruct Hf as (F1 & F2 & F3). repeat split; try apply F1; auto; lia.
Qed.
Lemma G_weak u {A} (x : M A) (P Q : A -> Prop) : G u x P -> (forall a, P a -> Q a) -> G u x Q.
Proof. intros H HQ s Hs Hu. specialize (H s Hs Hu). destruct (x s) as ((o & s1) & [a| | |]); destruct H as (H1 & H2 & H3); repeat split; try apply H1; auto. Qed.
Lemma G_mono u v {A} (x : M A) P : v <= u -> G u x P -> G v x P.
Proof. intros L H s Hs Hu. apply H; [exact Hs|lia]. Qed.
Lemma G_emit u t : G u (emit t) (fun _ => True). Proof. intros s Hs Hu. unfold emit, getDepth. repeat split; try apply Hs; lia. Qed.
Lemma G_lit u t : G u (lit t) (fun _ => True). Proof. apply G_emit. Qed.
Lemma G_addDepth u d : G u (addDepth d) (fun _ => True).
Proof. intros s Hs Hu. unfold addDepth, T, Inv in *. cbn [pVisited]. repeat split; try apply Hs; lia. Qed.
Lemma G_getDepth u : G u getDepth (fun _ => True). Proof. intros s Hs Hu. unfold emit, getDepth. repeat split; try apply Hs; lia. Qed.
Lemma G_prefix u : G u prefix (fun _ => True).
Proof. unfold prefix. eapply G_bind; [apply G_getDepth|intros]. apply G_emit. Qed.
Lemma G_fld u buf off n : Forall isByte buf -> 0 <= n -> G u (fldM buf off n) (fun v => 0 <= v < 256 ^ n).
Proof.
  intros Hb Hn. apply G_lift. unfold fld. destruct ((0 <=? off) && _) eqn:E; [|exact I].
  assert (F : Forall isByte (ztake n (zdrop off buf))) by (apply Forall_ztake; now apply Forall_zdrop). apply le_range in F. apply andb_true_iff in E as (_ & E). apply Z.eqb_eq in E. now rewrite E in F.
Qed.
Lemma G_vla u n : G u (vla n) (fun _ => True). Proof. apply G_lift. now destruct (_ && _). Qed.
Lemma G_group u {A} g (x : M A) P : G u x P -> G u (group g x) P.
Proof. intros H s Hs Hu. specialize (H s Hs Hu). unfold group. destruct (x s) as ((o & s1) & r). exact H. Qed.
Lemma G_each u l body : Forall inR l -> (forall a, inR a -> G u (body a) (fun _ => True)) -> G u (each l body) (fun _ => True).
Proof. induction 1; intros H2; cbn [each]; [now apply G_ret|]. eapply G_bind; [now apply H2|intros; auto]. Qed.
Lemma G_pairs u body l : forall k, Forall inR k -> (forall a b, inR b -> G u (body a b) (fun _ => True)) -> G u (pairs l k body) (fun _ => True).
Proof. induction l as [|x l IH]; intros [|y k] F H2; cbn [pairs]; try now apply G_ret. inversion F; subst. eapply G_bind; [now apply H2|intros; apply IH; auto]. Qed.
Lemma G_pairs2 u body l : forall k, Forall inR l -> Forall inR k -> (forall a b, inR a -> inR b -> G u (body a b) (fun _ => True)) -> G u (pairs l k body) (fun _ => True).
Proof. induction l as [|x l IH]; intros [|y k] F1 F H2; cbn [pairs]; try now apply G_ret. inversion F; inversion F1; subst. eapply G_bind; [now apply H2|intros; apply IH; auto]. Qed.
Lemma G_forN u body : (forall i, G u (body i) (fun _ => True)) -> forall fuel i n, Z.max 0 (n - i) < Z.of_nat fuel -> G u (forN fuel i n body) (fun _ => True).
Proof.
  intros H. induction fuel as [|f IH]; intros i n L; cbn [forN]; [exfalso; lia|]. destruct (i <? n) eqn:E; [|now apply G_ret].
  eapply G_bind; [apply H|intros; apply IH; lia].
Qed.
Lemma words_range n : forall buf, Forall isByte buf -> Forall inR (words n buf).
Proof.
  induction n as [|n IH]; intros buf H; cbn [words]; constructor; [|apply IH; now apply Forall_zdrop].
  assert (F : Forall isByte (ztake 8 buf)) by now apply Forall_ztake. apply le_range in F. unfold inR.
  assert (256 ^ zlen (ztake 8 buf) <= 256 ^ 8) by (apply Z.pow_le_mono_r; [lia|]; rewrite zlen_ztake by lia; lia). change (256 ^ 8) with W64 in *. lia.
Qed.
Lemma longLoop_fuel buf fuel : forall i n v, Z.max 0 (n - i) < Z.of_nat fuel -> longLoop fuel buf i n v <> OutOfFuel.
Proof.
  induction fuel as [|f IH]; intros i n v L; cbn [longLoop]; [lia|]. destruct (i <? n) eqn:E; [|discriminate].
  unfold fld. destruct (_ && _); cbn [bind]; [|discriminate]. destruct (_ >=? _); [discriminate|]. unfold chk64. destruct (_ && _); cbn [bind]; [|discriminate]. apply IH. lia.
Qed.
Lemma lineLoop_fuel v3 lasti fuel : forall p a l, (length p < fuel)%nat -> lineLoop v3 lasti fuel p a l <> OutOfFuel.
Proof.
  induction fuel as [|f IH]; intros p a l L; [lia|]. cbn [lineLoop]. destruct p as [|d p]; [discriminate|]. unfold chk32. destruct (_ && _); cbn [bind]; [|discriminate].
  destruct (_ >? _); [discriminate|]. destruct p as [|i p]; [discriminate|]. destruct (_ && _); cbn [bind]; [|discriminate]. apply IH. cbn [length] in L. lia.
Qed.

Section Term.
Context (v3 : bool) (lay : layout) (m : memory) (Hm : byteMem m) (str : Z -> res (list Z)) (Hstr : forall a, str a <> OutOfFuel)
        (kindOf : Z -> option kind) (maxdepth : Z) (doargs dolocals : bool).
Lemma G_rd u a n : G u (rd m a n) (fun l => Forall isByte l).
Proof. apply G_lift. destruct (memread m _ _) eqn:E; [|exact I]. exact (memread_bytes m Hm _ _ _ E). Qed.
Lemma G_strM u a : G u (strM str a) (fun _ => True).
Proof. apply G_lift. specialize (Hstr (u64 a)). now destruct (str (u64 a)). Qed.
Lemma G_ptrs u a n : G u (ptrs m a n) (fun l => Forall inR l).
Proof. unfold ptrs. eapply G_bind; [apply G_rd|intros b Hb]. apply G_ret. now apply words_range. Qed.
Lemma G_pyString u a : G u (pyString v3 m str a) (fun _ => True).
Proof.
  unfold pyString. destruct v3; [|apply G_strM]. eapply G_bind; [apply G_rd|intros b Hb; cbv beta in Hb]. eapply G_bind; [apply G_fld; [exact Hb|lia]|intros st _]. cbv zeta. destruct (_ && _); apply G_strM.
Qed.
Lemma G_getLine u code lasti : Forall isByte code -> G u (getLine v3 lay m code lasti) (fun _ => True).
Proof.
  intros H. unfold getLine. eapply G_bind; [apply G_fld; [exact H|lia]|intros]. eapply G_bind; [apply G_rd|intros b Hb; cbv beta in Hb]. eapply G_bind; [apply G_fld; [exact Hb|lia]|intros].
  eapply G_bind; [apply G_vla|intros]. eapply G_bind; [apply G_rd|intros b2 Hb2; cbv beta in Hb2]. eapply G_bind; [apply G_fld; [exact H|lia]|intros]. apply G_lift.
  destruct (lineLoop _ _ _ _ _ _) eqn:E; auto. revert E. apply lineLoop_fuel. lia.
Qed.

Section Rec.
Context (u : Z) (fuel : nat) (Hfuel : W64 < Z.of_nat fuel) (pr : Z -> M unit) (Hpr : forall a, inR a -> G u (pr a) (fun _ => True)).
Lemma s64_lt x : s64 x < W64.
Proof. unfold s64, sgn, W64. destruct (_ <? _); lia. Qed.
Ltac g1 := match goal with
  | |- G _ (bindM (if ?c then _ else _) _) _ => eapply (G_bind _ _ _ (fun _ => True)); [destruct c|intros ? _]
  | |- G _ (bindM _ _) _ => eapply G_bind; [|intros ?; intros ?H; cbv beta in *]
  | |- G _ (rd _ _ _) _ => apply G_rd
  | |- G _ (strM _ _) _ => apply G_strM
  | |- G _ (ptrs _ _ _) _ => apply G_ptrs
  | |- G _ (pyString _ _ _ _) _ => apply G_pyString
  | |- G _ (getLine _ _ _ _ _) _ => apply G_getLine; assumption
  | |- G _ (fldM _ _ _) (fun _ => True) => eapply G_weak; [apply G_fld; [assumption|lia]|intros; exact I]
  | |- G _ (fldM _ _ _) _ => apply G_fld; [assumption|lia]
  | |- G _ (lit _) _ => apply G_lit
  | |- G _ (emit _) _ => apply G_emit
  | |- G _ (vla _) _ => apply G_vla
  | |- G _ (addDepth _) _ => apply G_addDepth
  | |- G _ getDepth _ => apply G_getDepth
  | |- G _ prefix _ => apply G_prefix
  | |- G _ (pr _) _ => apply Hpr; unfold inR; change W64 with (256 ^ 8); first [assumption|lia]
  | |- G _ (each _ _) _ => apply G_each; [assumption|intros ? ?]
  | |- G _ (ret _) _ => apply G_ret; try exact I
  | |- G _ (lift Throw) _ => apply G_lift; exact I
  | |- G _ (lift (chk32 ?x)) _ => apply (G_lift _ (chk32 x) (fun _ => True)); unfold chk32; destruct (andb _ _); exact I
  | |- G _ (if ?c then _ else _) _ => destruct c
  | |- G _ (let _ := _ in _) _ => cbv zeta
  end.
Ltac gg := cbv zeta; repeat (g1; cbv zeta).
Definition R0 : Z -> Prop := fun a => inR a.
Lemma inR0 : inR 0. Proof. unfold inR, W64. lia. Qed.
Hint Resolve inR0 : core.
Lemma G_tupleVars n v t k : G u (printTupleVars m pr n v t k) (fun _ => True).
Proof. unfold printTupleVars. gg. apply G_pairs2; [assumption|assumption|]. intros xa xb Hxa Hxb. gg. Qed.
Lemma G_forD body n i : (forall i, G u (body i) (fun _ => True)) -> n < W64 -> 0 <= i -> G u (forN fuel i n body) (fun _ => True).
Proof. intros. apply G_forN; [assumption|unfold W64 in *; lia]. Qed.
Lemma G_dict2Slot t i : G u (dict2Slot m pr t i) (fun _ => True).
Proof. unfold dict2Slot. gg. Qed.
Lemma G_dict3Slot k x z v i : G u (dict3Slot m pr k x z v i) (fun _ => True).
Proof.
  unfold dict3Slot. eapply G_bind; [apply G_rd|intros b Hb; cbv beta in Hb]. cbv zeta. destruct (_ || _); [now apply G_ret|].
  eapply G_bind; [apply G_rd|intros e He; cbv beta in He]. eapply G_bind; [apply G_fld; [exact He|lia]|intros kk Hk; cbv beta in Hk]. eapply G_bind; [apply G_fld; [exact He|lia]|intros vv Hv; cbv beta in Hv].
  eapply (G_bind _ _ _ inR). { destruct (negb _). - eapply G_bind; [apply G_rd|intros b2 Hb2; cbv beta in Hb2]. eapply G_weak; [apply G_fld; [exact Hb2|lia]|]. intros a Ha. exact Ha. - apply G_ret. exact Hv. }
  intros val Hval. gg.
Qed.
Lemma G_printArguments buf a : Forall isByte buf -> G u (printArguments v3 lay m str pr buf a) (fun _ => True).
Proof.
  intros H. unfold printArguments. gg; try exact I.
  - apply G_pairs; [assumption|]. intros i x Hx. gg.
  - apply G_pairs2; [assumption|assumption|]. intros i x Hi Hx. gg.
Qed.
Lemma G_runPrinter k ty buf a : Forall isByte buf -> G u (runPrinter v3 lay m str maxdepth doargs dolocals fuel pr k ty buf a) (fun b => inR b /\ (dupdetect k = false -> b = 0)).
Proof.
  intros Hb. assert (Z0 : inR 0 /\ (dupdetect k = false -> 0 = 0)) by auto.
  destruct k; cbn [runPrinter dupdetect] in *.
  - unfold heapPrinter. gg; auto.
  - unfold stringPrinter. gg; auto.
  - unfold floatPrinter. gg; auto.
  - unfold modulePrinter. gg; auto.
  - unfold listPrinter, elements. gg; auto.
  - unfold typePrinter. gg; auto.
  - unfold longPrinter. eapply G_bind; [apply G_fld; [exact Hb|lia]|intros n Hn; cbv beta in Hn]. eapply (G_bind _ _ _ (fun _ => True)).
    + apply G_lift. destruct (longLoop _ _ _ _ _) eqn:E; auto. revert E. apply longLoop_fuel. lia.
    + intros v _. eapply (G_bind _ _ _ (fun _ => True)); [apply G_lift; unfold chk64; destruct (andb _ _); exact I|intros]. gg. auto.
  - unfold framePrinter. eapply G_bind; [apply G_fld; [exact Hb|lia]|intros ca Hca; cbv beta in Hca]. eapply G_bind; [apply G_fld; [exact Hb|lia]|intros lo Hlo; cbv beta in Hlo].
    eapply G_bind; [apply G_fld; [exact Hb|lia]|intros ba Hba; cbv beta in Hba]. change (256 ^ 8) with W64 in Hba. gg; auto; try (apply G_printArguments; assumption); try apply G_tupleVars.
    all: try (split; [exact Hba|discriminate]).
  - unfold tuplePrinter, elements. gg; auto.
  - destruct v3.
    + unfold dict3Printer. gg; auto. apply G_forD; [intros; apply G_dict3Slot|apply s64_lt|lia].
    + unfold dict2Printer. gg; auto. apply G_forD; [intros; apply G_dict2Slot|apply s64_lt|lia].
  - unfold boolPrinter. destruct v3; gg; auto.
  - unfold intPrinter. gg; auto.
  - unfold classPrinter. gg; auto.
  - unfold instancePrinter. gg; auto.
Qed.
End Rec.

Lemma G_getType u t : G u (getType lay m t) (fun _ => True).
Proof.
  intros s Hs Hu. unfold getType. destruct (typeFind (pTypes s) t) as [[ty|]|].
  - exact (G_ret u ty (fun _ => True) I s Hs Hu).
  - exact (G_lift u (@UB ptype) (fun _ => True) I s Hs Hu).
  - assert (Gs : forall v, G u (setType t v) (fun _ => True)). { intros v s' Hs' Hu'. unfold setType, T, Inv in *. cbn [pVisited]. repeat split; try apply Hs'; lia. }
    revert s Hs Hu. change (G u (setType t None ;; b <- rd m t (lTypeSize lay); n <- fldM b 24 8; ba <- fldM b 32 8; it <- fldM b 40 8; fl <- fldM b 168 8; dof <- fldM b 288 8;
       let ty := mkPT n ba it fl (s64 dof) in setType t (Some ty) ;; ret ty) (fun _ => True)).
    eapply G_bind; [apply Gs|intros _ _]. eapply G_bind; [apply G_rd|intros b Hb; cbv beta in Hb].
    do 5 (eapply G_bind; [apply G_fld; [exact Hb|lia]|intros ? _]). cbv zeta. eapply G_bind; [apply Gs|intros _ _]. now apply G_ret.
Qed.
(** one turn either ends the loop or marks a new object *)
Definition progress (u : Z) (x : M Z) : Prop := forall s, Inv s -> T s <= u ->
  match x s with (o, s', r) => Inv s' /\ T s' <= T s /\ match r with Ok b => inR b /\ (b = 0 \/ T s' < T s) | OutOfFuel => False | _ => True end end.
Lemma progress_bind u {A} (x : M A) f P : G u x P -> (forall a, P a -> progress u (f a)) -> progress u (bindM x f).
Proof.
  intros Hx Hf s Hs Hu. unfold bindM. specialize (Hx s Hs Hu). destruct (x s) as ((o & s1) & r). destruct Hx as (H1 & H2 & H3). destruct r; auto.
  specialize (Hf a H3 s1 H1 ltac:(lia)). destruct (f a s1) as ((o2 & s2) & r2). destruct Hf as (F1 & F2 & F3). repeat split; try apply F1; [lia|].
  destruct r2; auto. destruct F3 as (F3 & [F4|F4]); split; auto. right. lia.
Qed.
Lemma progress_0 u (x : M Z) : G u x (fun b => b = 0) -> progress u x.
Proof.
  intros H s Hs Hu. specialize (H s Hs Hu). destruct (x s) as ((o & s1) & r). destruct H as (H1 & H2 & H3). repeat split; try apply H1; auto.
  destruct r; auto. subst. split; [unfold inR, W64; lia|now left].
Qed.
Lemma G_choose u tp a ty : G u (choose str kindOf tp a ty) (fun _ => True).
Proof.
  unfold choose. destruct (kindOf _); [now apply G_ret|]. eapply G_bind; [apply G_strM|intros tn _]. destruct (beq _ _).
  - eapply G_bind; [apply G_lit|intros _ _]. now apply G_ret.
  - destruct (_ =? _); [now apply G_ret|]. repeat (eapply G_bind; [first [apply G_emit|apply G_lit]|intros _ _]). now apply G_ret.
Qed.
Lemma G_contents u fuel pr k ty n a : W64 < Z.of_nat fuel -> (forall b, inR b -> G u (pr b) (fun _ => True)) ->
  G u (contents v3 lay m str maxdepth doargs dolocals fuel pr k ty n a) (fun b => inR b).
Proof.
  intros Hf Hpr. unfold contents. destruct (_ && _).
  - repeat (eapply G_bind; [first [apply G_emit|apply G_lit]|intros _ _]). apply G_ret. unfold inR, W64. lia.
  - cbv zeta. eapply G_bind; [apply G_vla|intros _ _]. eapply G_bind; [apply G_rd|intros buf Hbuf; cbv beta in Hbuf]. eapply G_weak; [apply G_runPrinter; [exact Hf|exact Hpr|exact Hbuf]|]. now intros b (Hb1 & _).
Qed.
Lemma G_contents0 u fuel pr k ty n a : dupdetect k = false -> G u (contents v3 lay m str maxdepth doargs dolocals fuel pr k ty n a) (fun b => b = 0).
Proof.
  intros Ed. unfold contents. destruct (_ && _).
  - repeat (eapply G_bind; [first [apply G_emit|apply G_lit]|intros _ _]). now apply G_ret.
  - cbv zeta. eapply G_bind; [apply G_vla|intros _ _]. eapply G_bind; [apply G_rd|intros buf Hbuf; cbv beta in Hbuf].
    destruct k; try discriminate; cbn [runPrinter].
    + unfold stringPrinter. eapply G_bind; [apply G_pyString|intros]. repeat (eapply G_bind; [first [apply G_emit|apply G_lit]|intros _ _]). now apply G_ret.
    + unfold floatPrinter. eapply G_bind; [apply G_fld; [exact Hbuf|lia]|intros]. repeat (eapply G_bind; [first [apply G_emit|apply G_lit]|intros _ _]). now apply G_ret.
    + unfold longPrinter. eapply G_bind; [apply G_fld; [exact Hbuf|lia]|intros]. eapply (G_bind _ _ _ (fun _ => True)).
      * apply G_lift. destruct (longLoop _ _ _ _ _) eqn:E; auto. revert E. apply longLoop_fuel. lia.
      * intros. eapply (G_bind _ _ _ (fun _ => True)); [apply G_lift; unfold chk64; destruct (andb _ _); exact I|intros]. repeat (eapply G_bind; [first [apply G_emit|apply G_lit]|intros _ _]). now apply G_ret.
    + unfold boolPrinter. eapply (G_bind _ _ _ (fun _ => True)). { destruct v3; (eapply G_weak; [apply G_fld; [exact Hbuf|lia]|auto]). } intros. repeat (eapply G_bind; [first [apply G_emit|apply G_lit]|intros _ _]). now apply G_ret.
    + unfold intPrinter. eapply G_bind; [apply G_fld; [exact Hbuf|lia]|intros]. repeat (eapply G_bind; [first [apply G_emit|apply G_lit]|intros _ _]). now apply G_ret.
Qed.
Lemma one_progress u fuel pr a : inR a -> W64 < Z.of_nat fuel -> (forall b, inR b -> G (u - 1) (pr b) (fun _ => True)) -> 
  progress u (one v3 lay m str kindOf maxdepth doargs dolocals fuel pr a).
Proof.
  intros Ra Hf Hpr. unfold one.
  eapply progress_bind; [apply G_rd|intros base Hb; cbv beta in Hb]. do 3 (eapply progress_bind; [apply G_fld; [exact Hb|lia]|intros ? _]).
  eapply (progress_bind _ _ _ (fun _ => True)); [destruct (_ =? _); [apply G_lit|now apply G_ret]|intros _ _].
  eapply progress_bind; [apply G_getType|intros ty _]. eapply progress_bind; [apply G_choose|].
  intros [k|] _; [|apply progress_0; now apply G_ret].
  intros s Hs Hu. unfold bindM at 1, isVisited. cbn [app]. set (seen := existsb _ _).
  match goal with |- match match ?x with _ => _ end with _ => _ end => assert (X : match x with (o, s', r) => Inv s' /\ T s' <= T s /\ match r with Ok b => inR b /\ (b = 0 \/ T s' < T s) | OutOfFuel => False | _ => True end end); [|destruct x as ((o & s2) & r); exact X] end.
  destruct (dupdetect k) eqn:Ed; cbn [andb].
  2:{ apply (progress_0 u); [|exact Hs|exact Hu]. eapply G_bind; [apply (G_ret _ tt (fun _ => True)); exact I|intros _ _]. now apply G_contents0. }
  destruct seen eqn:Es; [apply (progress_0 u); [|exact Hs|exact Hu]; eapply G_bind; [apply G_lit|intros _ _]; now apply G_ret|].
  unfold bindM at 1, visit. cbn [app]. set (s1 := mkPS (pDepth s) (a :: pVisited s) (pTypes s)).
  assert (I1 : Inv s1). { destruct Hs as (N & F). split; cbn [s1 pVisited]; [|now constructor]. constructor; [|exact N]. intros X. assert (seen = true); [|congruence]. apply existsb_exists. exists a. split; [exact X|apply Z.eqb_refl]. }
  assert (T1 : T s1 = T s - 1) by (unfold T, s1; cbn [pVisited]; rewrite zlen_cons; lia).
  pose proof (G_contents (u - 1) fuel pr k ty (s64 a2) a Hf Hpr s1 I1 ltac:(lia)) as P.
  destruct (contents _ _ _ _ _ _ _ _ _ _ _ _ _ s1) as ((o & s2) & r). destruct P as (P1 & P2 & P3). repeat split; try apply P1; [lia|]. destruct r; auto. split; [exact P3|right; lia].
Qed.
Lemma loop_term fuel pr : W64 < Z.of_nat fuel -> forall n u a, inR a -> (forall v b, v < u -> inR b -> G v (pr b) (fun _ => True)) -> u + 1 < Z.of_nat n ->
  G u (loop v3 lay m str kindOf maxdepth doargs dolocals fuel pr n a) (fun _ => True).
Proof.
  intros Hf. induction n as [|n IH]; intros u a Ra Hpr L s Hs Hu; [exfalso; pose proof (T_nonneg s Hs); lia|].
  cbn [loop]. destruct (a =? 0); [exact (G_ret u tt (fun _ => True) I s Hs Hu)|]. unfold bindM, group.
  pose proof (one_progress u fuel pr a Ra Hf (fun b Hb => Hpr (u - 1) b ltac:(lia) Hb) s Hs Hu) as P. destruct (one _ _ _ _ _ _ _ _ _ _ _ s) as ((o & s1) & r). destruct P as (P1 & P2 & P3). destruct r as [b| | |]; auto.
  destruct P3 as (P3 & P4). pose proof (T_nonneg s1 P1).
  assert (X : match loop v3 lay m str kindOf maxdepth doargs dolocals fuel pr n b s1 with (o2, s2, r2) => Inv s2 /\ T s2 <= T s1 /\ match r2 with OutOfFuel => False | _ => True end end).
  { destruct P4 as [->|P4].
    - destruct n as [|n]; [pose proof (T_nonneg s Hs); lia|]. cbn [loop Z.eqb]. unfold ret. repeat split; try apply P1. lia.
    - apply (IH (u - 1) b P3); [intros; apply Hpr; [lia|assumption]|lia|exact P1|lia]. }
  destruct (loop _ _ _ _ _ _ _ _ _ _ n b s1) as ((o2 & s2) & r2). destruct X as (X1 & X2 & X3). repeat split; try apply X1; [lia|]. destruct r2; auto.
Qed.
Lemma G_caught u x : G u x (fun _ => True) -> G u (caught x) (fun _ => True).
Proof. intros H s Hs Hu. specialize (H s Hs Hu). unfold caught. destruct (x s) as ((o & s1) & [[]| | |]); exact H. Qed.
Lemma print_term : forall n u fuel, u <= Z.of_nat n -> 2 * W64 + u < Z.of_nat fuel -> forall a, inR a -> G u (print v3 lay m str kindOf maxdepth doargs dolocals fuel a) (fun _ => True).
Proof.
  induction n as [|n IH]; intros u fuel Hu Hf a Ra.
  - destruct fuel as [|fuel]; [intros s Hs Hu'; pose proof (T_nonneg s Hs); unfold W64 in *; exfalso; lia|].
    cbn [print]. apply G_group. eapply G_bind; [apply G_getDepth|intros d _]. destruct (_ >? _); [apply G_lit|]. eapply G_bind; [apply G_addDepth|intros _ _]. eapply G_bind; [|intros _ _; apply G_addDepth].
    apply G_caught. destruct (Z_lt_dec u 0) as [L|L]; [intros s Hs Hu'; pose proof (T_nonneg s Hs); exfalso; lia|].
    apply loop_term; [unfold W64 in *; lia|exact Ra| |unfold W64 in *; lia]. intros v b Hv Rb s Hs Hu'. pose proof (T_nonneg s Hs). exfalso. lia.
  - destruct (Z_lt_dec u 0) as [L|L]; [intros s Hs Hu'; pose proof (T_nonneg s Hs); exfalso; lia|].
    destruct fuel as [|fuel]; [unfold W64 in *; exfalso; lia|].
    cbn [print]. apply G_group. eapply G_bind; [apply G_getDepth|intros d _]. destruct (_ >? _); [apply G_lit|]. eapply G_bind; [apply G_addDepth|intros _ _]. eapply G_bind; [|intros _ _; apply G_addDepth].
    apply G_caught. apply loop_term; [unfold W64 in *; lia|exact Ra| |unfold W64 in *; lia]. intros v b Hv Rb. apply IH; [lia|lia|exact Rb].
Qed.
End Term.
