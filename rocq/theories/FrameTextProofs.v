(** Proofs about the description of frames. *)
From Coq Require Import Ascii String.
From Verif Require Import Base DwarfReader Json Lines Die DieAttr DieAttrSpec DieAttrProofs Args FrameText FrameTextSpec.

Lemma lit_txt s : lit s = txt s. Proof. reflexivity. Qed.

Section N.
Context (ents : Z -> option entry) (par : Z -> Z) (str : entry -> Z -> dval -> res (list Z)).
Context (Hw : forall o e, ents o = Some e -> wfEntry e /\ 0 <= eUnit e) (One : forall o e, ents o = Some e -> hasNo e 0x31 \/ hasNo e 0x47).
Notation build := (buildName ents par str).

Lemma own_refers o e name p : ents o = Some e -> refersTo ents o name p -> exists a, ownAttr e name = Some a /\ asDie ents e (Some a) = Ok (Some p).
Proof.
  intros E R. destruct (asDie_refers ents Hw o e name p E R) as [D _]. destruct (ownAttr e name) as [a|] eqn:Q.
  - exists a. split; [reflexivity|exact D].
  - discriminate D.
Qed.
(** The name of an entry, for enough fuel. *)
Lemma name_ok o n : nameIs ents str o n -> exists N, forall fuel, (N <= fuel)%nat -> nameOf ents str fuel o = Ok n.
Proof.
  intros (r & L & H). destruct (lookup_ok ents Hw 0x03 o r One L) as (N & HN). exists N. intros fuel Hf. unfold nameOf. rewrite (HN fuel Hf). cbn [bind].
  destruct r as [[[o' form] v]|]; [|now subst n]. destruct H as (e' & E & S). now rewrite E.
Qed.
Lemma decl_ok o d : DeclOf ents o d -> forall first X, (exists N, forall fuel, (N <= fuel)%nat -> build fuel (Some d) first = X) ->
  exists N, forall fuel, (N <= fuel)%nat -> build fuel (Some o) first = X.
Proof.
  intros D. induction D as [o e E H1 H2|o p d R D IH|o e p d E H1 R D IH]; intros first X HX; [exact HX| |].
  - destruct (IH first X HX) as (N & HN). assert (exists e, ents o = Some e) as (e & E) by (destruct R as (e & ? & ? & E & _); eauto).
    destruct (own_refers o e 0x47 p E R) as (a & O1 & O2).
    exists (S N). intros [|f] Hf; [lia|]. cbn [buildName]. rewrite E, O1, O2. apply HN. lia.
  - destruct (IH first X HX) as (N & HN). destruct (own_refers o e 0x31 p E R) as (a & O1 & O2).
    exists (S N). intros [|f] Hf; [lia|]. cbn [buildName]. rewrite E, (own_hasNo e 0x47 (proj1 (Hw _ _ E)) H1), O1, O2. apply HN. lia.
Qed.
Lemma decl_self o d : DeclOf ents o d -> exists e, ents d = Some e /\ hasNo e 0x47 /\ hasNo e 0x31.
Proof. intros D. induction D as [o e E H1 H2|o p d R D IH|o e p d E H1 R D IH]; eauto. Qed.

(** What is printed for the scopes of a path. *)
Lemma build_scope d e ts pr first n : ents d = Some e -> hasNo e 0x47 -> hasNo e 0x31 -> eTag e <> 0x11 -> eTag e <> 0x3c -> par d <> 0 ->
  (exists N, forall fuel, (N <= fuel)%nat -> build fuel (Some (par d)) false = (ts, Ok pr)) -> nameIs ents str d n ->
  exists N, forall fuel, (N <= fuel)%nat -> build fuel (Some d) first =
    (if first || (eTag e =? 0x13) || (eTag e =? 0x02) || (eTag e =? 0x39) then ((if (pr : bool) then ts ++ txt "::" else ts) ++ n, Ok true) else (ts, Ok pr)).
Proof.
  intros E H1 H2 T1 T2 P (N1 & HN1) Hn. destruct (name_ok d n Hn) as (N2 & HN2). exists (S (N1 + N2)). intros [|f] Hf; [lia|].
  cbn [buildName]. rewrite E, (own_hasNo e 0x47 (proj1 (Hw _ _ E)) H1), (own_hasNo e 0x31 (proj1 (Hw _ _ E)) H2).
  replace ((eTag e =? 17) || (eTag e =? 60)) with false by lia. replace (par d =? 0) with false by lia. rewrite (HN1 f) by lia.
  destruct (first || (eTag e =? 19) || (eTag e =? 2) || (eTag e =? 57)); [|reflexivity]. rewrite (HN2 f) by lia. reflexivity.
Qed.
Lemma build_unit d e first : ents d = Some e -> hasNo e 0x47 -> hasNo e 0x31 -> (eTag e = 0x11 \/ eTag e = 0x3c) ->
  exists N, forall fuel, (N <= fuel)%nat -> build fuel (Some d) first = ([], Ok false).
Proof.
  intros E H1 H2 T. exists 1%nat. intros [|f] Hf; [lia|].
  cbn [buildName]. rewrite E, (own_hasNo e 0x47 (proj1 (Hw _ _ E)) H1), (own_hasNo e 0x31 (proj1 (Hw _ _ E)) H2).
  replace ((eTag e =? 17) || (eTag e =? 60)) with true by lia. reflexivity.
Qed.
Definition nonempty {A} (l : list A) : bool := match l with [] => false | _ => true end.
Lemma join_snoc sep l x : join sep (l ++ [x]) = (if nonempty l then join sep l ++ sep else join sep l) ++ x.
Proof.
  induction l as [|a l IH]; [reflexivity|]. destruct l as [|b l]; [cbn; now rewrite app_assoc|].
  change ((a :: b :: l) ++ [x]) with (a :: b :: (l ++ [x])). change (b :: (l ++ [x])) with ((b :: l) ++ [x]) in *.
  cbn [nonempty] in *. change (join sep (a :: (b :: l) ++ [x])) with (a ++ sep ++ join sep ((b :: l) ++ [x])). rewrite IH.
  change (join sep (a :: b :: l)) with (a ++ sep ++ join sep (b :: l)). now rewrite <- !app_assoc.
Qed.
Lemma quals_snoc l d ns : Qualifiers ents str (l ++ [d]) ns -> exists e, ents d = Some e /\
  ((scopeTag (eTag e) /\ exists ns' n, ns = ns' ++ [n] /\ nameIs ents str d n /\ Qualifiers ents str l ns') \/ (~ scopeTag (eTag e) /\ Qualifiers ents str l ns)).
Proof.
  revert ns. induction l as [|x l IH]; intros ns Q; cbn [app] in Q.
  - inversion Q as [|o e l0 n ns0 E T N Q0|o e l0 ns0 E T Q0]; subst; inversion Q0; subst.
    + exists e. split; [exact E|]. left. split; [exact T|]. exists [], n. split; [reflexivity|]. split; [exact N|constructor].
    + exists e. split; [exact E|]. right. split; [exact T|constructor].
  - inversion Q as [|o e l0 n ns0 E T N Q0|o e l0 ns0 E T Q0]; subst.
    + destruct (IH _ Q0) as (e' & E' & [(T' & ns' & n' & -> & N' & Q')|(T' & Q')]); exists e'; split; try exact E'.
      * left. split; [exact T'|]. exists (n :: ns'), n'. split; [reflexivity|]. split; [exact N'|]. now apply QScope with e.
      * right. split; [exact T'|]. now apply QScope with e.
    + destruct (IH _ Q0) as (e' & E' & [(T' & ns' & n' & -> & N' & Q')|(T' & Q')]); exists e'; split; try exact E'.
      * left. split; [exact T'|]. exists ns', n'. split; [reflexivity|]. split; [exact N'|]. now apply QOther with e.
      * right. split; [exact T'|]. now apply QOther with e.
Qed.
Definition plainScope (o : Z) : Prop := exists e, ents o = Some e /\ ~ In (eTag e) [0x17; 0x38; 0x04] /\ exists n, nameIs ents str o n.
Lemma scopes_ok o p : Path ents par o p -> forall ns, Qualifiers ents str p ns -> Forall plainScope p ->
  exists N, forall fuel, (N <= fuel)%nat -> build fuel (Some o) false = (join (txt "::") ns, Ok (nonempty ns)).
Proof.
  intros P. induction P as [o d D T|o d l D T1 T2 Pd P IH]; intros ns Q F.
  - inversion Q; subst. apply (decl_ok o d D). destruct (decl_self o d D) as (e & E & H1 & H2).
    apply (build_unit d e false E H1 H2). destruct T as [(e' & E' & T)|(e' & E' & T)]; rewrite E in E'; inversion E'; subst; lia.
  - apply (decl_ok o d D). destruct (decl_self o d D) as (e & E & H1 & H2).
    apply Forall_app in F as [F1 F2]. apply Forall_cons_iff in F2 as [(e0 & E0 & U & n & Hn) _]. rewrite E in E0. inversion E0; subst e0.
    assert (T1' : eTag e <> 0x11) by (intros X; apply T1; exists e; auto). assert (T2' : eTag e <> 0x3c) by (intros X; apply T2; exists e; auto).
    destruct (quals_snoc l d ns Q) as (e1 & E1 & HQ). rewrite E in E1. inversion E1; subst e1.
    destruct HQ as [(T & ns' & n' & -> & N' & Q')|(T & Q')].
    + destruct (build_scope d e _ _ false n' E H1 H2 T1' T2' Pd (IH ns' Q' F1) N') as (N & HN). exists N. intros fuel Hf. rewrite (HN fuel Hf).
      assert (X : false || (eTag e =? 19) || (eTag e =? 2) || (eTag e =? 57) = true).
      { cbn [In] in U. unfold scopeTag in T. cbn [In] in T. lia. }
      rewrite X, join_snoc. f_equal. f_equal. now destruct ns'.
    + destruct (build_scope d e _ _ false n E H1 H2 T1' T2' Pd (IH ns Q' F1) Hn) as (N & HN). exists N. intros fuel Hf. rewrite (HN fuel Hf).
      assert (X : false || (eTag e =? 19) || (eTag e =? 2) || (eTag e =? 57) = false).
      { unfold scopeTag in T. cbn [In] in T. lia. }
      now rewrite X.
Qed.
Lemma qualified_ok o l d ns n : Path ents par o (l ++ [d]) -> Qualifiers ents str l ns -> Forall plainScope l -> nameIs ents str d n ->
  exists N, forall fuel, (N <= fuel)%nat -> build fuel (Some o) true = (join (txt "::") (ns ++ [n]), Ok true).
Proof.
  intros P Q F Hn. inversion P as [? ? ? ? E0|o' d' l' D T1 T2 Pd P' E1 E2]; [destruct l; discriminate|]. apply app_inj_tail in E2 as [-> ->]. subst o'.
  apply (decl_ok o d D). destruct (decl_self o d D) as (e & E & H1 & H2).
  assert (T1' : eTag e <> 0x11) by (intros X; apply T1; exists e; auto). assert (T2' : eTag e <> 0x3c) by (intros X; apply T2; exists e; auto).
  destruct (build_scope d e _ _ true n E H1 H2 T1' T2' Pd (scopes_ok _ _ P' ns Q F) Hn) as (N & HN). exists N. intros fuel Hf. rewrite (HN fuel Hf).
  cbn [orb]. rewrite join_snoc. now destruct ns.
Qed.

(** Types. *)
Lemma type_ref o b : typeIs ents o b -> exists N, forall fuel, (N <= fuel)%nat -> typeRef ents fuel o = Ok b.
Proof.
  intros (r & L & H). destruct (lookup_ok ents Hw 0x49 o r One L) as (N & HN). exists N. intros fuel Hf. unfold typeRef. rewrite (HN fuel Hf). cbn [bind].
  destruct r as [[[o' form] v]|]; [|now subst b]. destruct H as (p & -> & e' & w & E & -> & F & R & X). rewrite E.
  cbn [asDie]. destruct (ents p) as [ep|] eqn:Ep; [|congruence]. destruct F as [[-> ->]|[F ->]].
  - cbn [Z.eqb Pos.eqb]. now rewrite Ep.
  - assert (form =? 16 = false) by (cbn [In] in F; lia). rewrite H.
    replace ((form =? 21) || (form =? 17) || (form =? 18) || (form =? 19) || (form =? 20)) with true by (cbn [In] in F; lia).
    replace (u64 (w + eUnit e')) with (eUnit e' + w) by (unfold u64; rewrite Z.mod_small by lia; lia). now rewrite Ep.
Qed.
Context (kids : Z -> list Z) (tagText : Z -> list Z).
Scheme TT_ind := Minimality for TypeText Sort Prop with AT_ind := Minimality for ArgTexts Sort Prop.
Combined Scheme TT_mut from TT_ind, AT_ind.
Lemma typeName_ok : (forall o t, TypeText ents str kids o t -> exists N, forall fuel, (N <= fuel)%nat -> typeName ents str kids tagText fuel o = Ok t) /\
  (forall l ns, ArgTexts ents str kids l ns -> exists N, forall f, (N <= f)%nat -> forall sep, 
     (fix go (sep : list Z) (l : list Z) : res (list Z) :=
        match l with
        | [] => Ok []
        | a :: r =>
            match ents a with
            | None => UB
            | Some ea =>
                if negb (eTag ea =? 0x05) then go sep r
                else
                  let* t := typeRef ents f a in
                  let* n := typeName ents str kids tagText f t in
                  let* rest := go (txt ", ") r in Ok (sep ++ n ++ rest)
            end
        end) sep l = Ok (match ns with [] => [] | _ => sep ++ join (lit ", ") ns end)).
Proof.
  apply TT_mut.
  - exists 1%nat. intros [|f] Hf; [lia|reflexivity].
  - intros o n Hn Ne. destruct (name_ok o n Hn) as (N & HN). exists (S N). intros [|f] Hf; [lia|]. cbn [typeName].
    assert (exists e, ents o = Some e) as (e & E). { destruct Hn as (r & L & _). inversion L; eauto. }
    rewrite E, (HN f) by lia. cbn [bind]. destruct n; [congruence|]. rewrite zlen_cons. replace (zlen n + 1 =? 0) with false by (pose proof (zlen_nonneg n); lia). reflexivity.
  - intros o tag suffix b t (e & E & T) I Hn Tb _ (N & HN). destruct (name_ok o [] Hn) as (N1 & HN1). destruct (type_ref o b Tb) as (N2 & HN2).
    exists (S (N + N1 + N2)). intros [|f] Hf; [lia|]. cbn [typeName]. rewrite E, (HN1 f) by lia. cbn [bind]. change (zlen (@nil Z)) with 0. cbn [Z.eqb negb].
    rewrite (HN2 f) by lia. cbn [bind]. rewrite (HN f) by lia. rewrite T. cbn [In] in I.
    repeat (destruct I as [I|I]; [inversion I; subst; reflexivity|]). destruct I.
  - intros o b t args (e & E & T) Hn Tb _ (N & HN) _ (N3 & HN3). destruct (name_ok o [] Hn) as (N1 & HN1). destruct (type_ref o b Tb) as (N2 & HN2).
    exists (S (N + N1 + N2 + N3)). intros [|f] Hf; [lia|]. cbn [typeName]. rewrite E, (HN1 f) by lia. cbn [bind]. change (zlen (@nil Z)) with 0. cbn [Z.eqb negb].
    rewrite (HN2 f) by lia. cbn [bind]. rewrite (HN f) by lia. rewrite T. cbn [Z.eqb Pos.eqb bind]. rewrite (HN3 f) by lia. cbn [bind app].
    destruct args; reflexivity.
  - exists 0%nat. intros. reflexivity.
  - intros a l t n ns (e & E & T) Ta _ (N & HN) _ (N1 & HN1). destruct (type_ref a t Ta) as (N2 & HN2). exists (N + N1 + N2)%nat. intros f Hf sep.
    rewrite E, T. cbn [Z.eqb Pos.eqb negb]. rewrite (HN2 f) by lia. cbn [bind]. rewrite (HN f) by lia. cbn [bind]. rewrite (HN1 f) by lia. cbn [bind].
    destruct ns; cbn [join]; [now rewrite app_nil_r|reflexivity].
  - intros a e l ns E T _ (N & HN). exists N. intros f Hf sep. rewrite E. replace (eTag e =? 5) with false by lia. cbn [negb]. now apply HN.
Qed.
Lemma typeName_other o tag b : tagIs ents o tag -> ~ In tag [0x0f; 0x26; 0x35; 0x15; 0x10] -> nameIs ents str o [] -> typeIs ents o b ->
  exists N, forall fuel, (N <= fuel)%nat -> typeName ents str kids tagText fuel (Some o) = Ok (lit "(unhandled tag " ++ tagText tag ++ lit ")").
Proof.
  intros (e & E & T) I Hn Tb. destruct (name_ok o [] Hn) as (N1 & HN1). destruct (type_ref o b Tb) as (N2 & HN2). exists (S (N1 + N2)). intros [|f] Hf; [lia|]. cbn [typeName]. rewrite E, (HN1 f) by lia. cbn [bind]. change (zlen (@nil Z)) with 0. cbn [Z.eqb negb].
  rewrite (HN2 f) by lia. cbn [bind]. rewrite T. cbn [In] in I. replace (tag =? 15) with false by lia. replace (tag =? 38) with false by lia. replace (tag =? 53) with false by lia. replace (tag =? 21) with false by lia. replace (tag =? 16) with false by lia. reflexivity.
Qed.
End N.
