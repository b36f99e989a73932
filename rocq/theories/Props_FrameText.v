(** C119-C123: how a frame is described. *)
From Coq Require Import Ascii String.
From Verif Require Import Base DwarfReader MapsSpec CfiSpec Regs Cfi Expr Unwind Json Lines Die DieAttr DieAttrSpec DieAttrProofs Args ArgsSpec ArgsProofs.
From Verif Require Import FrameText FrameTextSpec FrameTextProofs FrameTextProofs2.

(** ** C119: qualified names *)
(** The name shown for a function (an instance of an inlined one, or a definition outside its class, too) is the
    declared name after the names of the scopes around the declaration, outermost first, separated by "::".
    Partial: scopes that are unions, interfaces or enumerations are left out, see
    [C119_union_refuted]; unnamed scopes count as an empty name, see [C119_unnamed_refuted]; references must not go round in
    circles (that is in [Path]), see [C119_cycle_refuted]; the units' roots are compile or partial units, see
    [C119_skeleton_refuted]; no entry has both kinds of reference (as in C26). *)
Theorem C119_qualified_name_partial : forall ents par str o l d ns n,
  (forall x e, ents x = Some e -> wfEntry e /\ 0 <= eUnit e) ->
  (forall x e, ents x = Some e -> hasNo e 0x31 \/ hasNo e 0x47) ->
  Path ents par o (l ++ [d]) -> Qualifiers ents str l ns -> nameIs ents str d n ->
  Forall (fun x => exists e, ents x = Some e /\ ~ In (eTag e) [0x17; 0x38; 0x04] /\ exists m, nameIs ents str x m) l ->
  exists N, forall fuel, (N <= fuel)%nat -> buildName ents par str fuel (Some o) true = (join (lit "::") (ns ++ [n]), Ok true).
Proof. intros ents par str o l d ns n W One P Q Hn F. exact (qualified_ok ents par str W One o l d ns n P Q F Hn). Qed.
Print Assumptions C119_qualified_name_partial.

(** namespace ns { class C { void f(); }; } with f defined outside (50), a variable's scope in a union,
    an unnamed namespace, a skeleton unit. *)
Definition C119_ents (o : Z) : option entry :=
  let E t n := Some (mkEntry 10 t [(0x03, 0x08, 0)] [VWord n]) in
  if o =? 20 then Some (mkEntry 10 0x11 [(0x03, 0x08, 0)] [VWord 900])
  else if o =? 30 then E 0x39 1
  else if o =? 35 then E 0x02 2
  else if o =? 40 then E 0x2e 3
  else if o =? 50 then Some (mkEntry 10 0x2e [(0x11, 0x01, 0); (0x12, 0x06, 0); (0x47, 0x13, 0)] [VWord 4096; VWord 256; VWord 30])
  else if o =? 60 then Some (mkEntry 10 0x1d [(0x31, 0x13, 0); (0x11, 0x01, 0); (0x12, 0x06, 0)] [VWord 40; VWord 4112; VWord 64])
  else if o =? 70 then E 0x17 4 else if o =? 75 then E 0x2e 5
  else if o =? 80 then Some (mkEntry 10 0x39 [] []) else if o =? 85 then E 0x2e 6
  else if o =? 90 then Some (mkEntry 10 0x2e [(0x47, 0x13, 0)] [VWord 80])
  else if o =? 100 then Some (mkEntry 10 0x4a [] []) else if o =? 105 then E 0x2e 7
  else None.
Definition C119_par (o : Z) : Z :=
  if o =? 30 then 20 else if o =? 35 then 30 else if o =? 40 then 35 else if o =? 50 then 20 else if o =? 60 then 50
  else if o =? 70 then 30 else if o =? 75 then 70 else if o =? 80 then 20 else if o =? 85 then 80 else if o =? 90 then 20 else if o =? 105 then 100 else 0.
Definition C119_str (e : entry) (form : Z) (v : dval) : res (list Z) :=
  match v with
  | VWord w => Ok (if w =? 1 then lit "ns" else if w =? 2 then lit "C" else if w =? 3 then lit "f" else if w =? 4 then lit "U" else if w =? 5 then lit "g" else if w =? 6 then lit "h" else lit "a.c")
  | _ => Throw
  end.
Ltac own := eapply LOwn; [reflexivity|exists 0%nat, 0; split; reflexivity].
Ltac nm := eexists; split; [own|eexists; split; reflexivity].
Lemma C119_wf : forall x e, C119_ents x = Some e -> (wfEntry e /\ 0 <= eUnit e) /\ (hasNo e 0x31 \/ hasNo e 0x47).
Proof.
  intros x e. unfold C119_ents. intros E.
  repeat match goal with H : (if ?b then _ else _) = _ |- _ => destruct b end; try discriminate; apply ExprProofs.Some_inj in E; subst e;
  (split; [split; [split; [reflexivity|cbn; repeat (constructor; [cbn; lia|]); constructor]|cbn; lia]|unfold hasNo; cbn; lia]).
Qed.
Lemma C119_self x e : C119_ents x = Some e -> existsb (fun a => (fst (fst a) =? 0x47) || (fst (fst a) =? 0x31)) (eAttrs e) = false -> DeclOf C119_ents x x.
Proof.
  intros E H. apply DSelf with e; [exact E| |]; unfold hasNo; intros I; apply in_map_iff in I as (a & Ea & Ia); 
  assert (X : existsb (fun a => (fst (fst a) =? 0x47) || (fst (fst a) =? 0x31)) (eAttrs e) = true) by (apply existsb_exists; exists a; split; [exact Ia|lia]); congruence.
Qed.
Ltac self := eapply C119_self; reflexivity.
Ltac notag := let X := fresh in intros (X & E & T); vm_compute in E; apply ExprProofs.Some_inj in E; subst X; discriminate T.
Lemma C119_scopes : Path C119_ents C119_par 35 [30; 35].
Proof.
  change [30; 35] with ([30] ++ [35]). eapply PIn; [self|notag|notag|discriminate|]. change [30] with ([] ++ [30]). eapply PIn; [self|notag|notag|discriminate|].
  eapply PUnit; [self|]. left. eexists; split; reflexivity.
Qed.
Example C119_nonvacuous :
  (exists N, forall fuel, (N <= fuel)%nat -> buildName C119_ents C119_par C119_str fuel (Some 60) true = (lit "ns::C::f", Ok true)) /\
  buildName C119_ents C119_par C119_str 9 (Some 50) true = (lit "ns::C::f", Ok true).
Proof.
  split; [|vm_compute; reflexivity].
  apply (C119_qualified_name_partial C119_ents C119_par C119_str 60 [30; 35] 40 [lit "ns"; lit "C"] (lit "f")).
  - intros x e E. apply (C119_wf x e E).
  - intros x e E. apply (C119_wf x e E).
  - eapply PIn; [|notag|notag| |exact C119_scopes].
    + eapply (DOrigin _ 60 _ 50); [reflexivity|unfold hasNo; cbn; lia| |].
      * do 3 eexists. split; [reflexivity|]. split; [exists 0%nat, 0; split; reflexivity|]. split; [right; split; [cbn; tauto|reflexivity]|]. unfold W64. repeat split; try lia. discriminate.
      * eapply (DSpec _ 50 40); [|self]. do 3 eexists. split; [reflexivity|]. split; [exists 2%nat, 0; split; reflexivity|]. split; [right; split; [cbn; tauto|reflexivity]|]. unfold W64. repeat split; try lia. discriminate.
    + discriminate.
  - eapply QScope; [reflexivity|cbn; tauto|nm|]. eapply QScope; [reflexivity|cbn; tauto|nm|]. constructor.
  - nm.
  - repeat constructor; eexists; (split; [reflexivity|]); (split; [cbn; lia|]); eexists; nm.
Qed.
(** Refuted: a member function of a union is shown without the union's name. *)
Theorem C119_union_refuted : Path C119_ents C119_par 75 ([30; 70] ++ [75]) /\ Qualifiers C119_ents C119_str [30; 70] [lit "ns"; lit "U"] /\
  buildName C119_ents C119_par C119_str 9 (Some 75) true = (lit "ns::g", Ok true).
Proof.
  split; [|split; [|vm_compute; reflexivity]].
  - eapply PIn; [self|notag|notag|discriminate|]. change [30; 70] with ([30] ++ [70]). eapply PIn; [self|notag|notag|discriminate|]. change [30] with ([] ++ [30]). eapply PIn; [self|notag|notag|discriminate|].
    eapply PUnit; [self|]. left. eexists; split; reflexivity.
  - eapply QScope; [reflexivity|cbn; tauto|nm|]. eapply QScope; [reflexivity|cbn; tauto|nm|]. constructor.
Qed.
Print Assumptions C119_union_refuted.
(** Refuted: a function in an unnamed namespace is shown as if it were in the global one. *)
Theorem C119_unnamed_refuted : tagIs C119_ents (C119_par 85) 0x39 /\ buildName C119_ents C119_par C119_str 9 (Some 85) true = (lit "::h", Ok true).
Proof. split; [eexists; split; reflexivity|vm_compute; reflexivity]. Qed.
Print Assumptions C119_unnamed_refuted.
(** Refuted: an entry whose DW_AT_specification refers to itself has no end of a name. *)
Theorem C119_cycle_refuted : forall fuel, snd (buildName C119_ents C119_par C119_str fuel (Some 90) true) = OutOfFuel.
Proof. induction fuel as [|f IH]; [reflexivity|]. exact IH. Qed.
Print Assumptions C119_cycle_refuted.
(** Refuted: below a skeleton unit's root (DW_TAG_skeleton_unit) the climb goes past the root, through a null pointer. *)
Theorem C119_skeleton_refuted : tagIs C119_ents (C119_par 105) 0x4a /\ C119_par 100 = 0 /\ forall fuel, snd (buildName C119_ents C119_par C119_str (S (S (S fuel))) (Some 105) true) = UB.
Proof. split; [eexists; split; reflexivity|]. split; [reflexivity|]. intros fuel. reflexivity. Qed.
Print Assumptions C119_skeleton_refuted.

(** ** C123: names of types *)
Theorem C123_type_name_partial : forall ents str kids tagText o t,
  (forall x e, ents x = Some e -> wfEntry e /\ 0 <= eUnit e) ->
  (forall x e, ents x = Some e -> hasNo e 0x31 \/ hasNo e 0x47) ->
  TypeText ents str kids o t ->
  exists N, forall fuel, (N <= fuel)%nat -> typeName ents str kids tagText fuel o = Ok t.
Proof. intros ents str kids tagText o t W One H. exact (proj1 (typeName_ok ents (fun x => x) str W One kids tagText) o t H). Qed.
Print Assumptions C123_type_name_partial.
(** const char *f(int, void * ): 10 pointer to the function type 20, its result 30 pointer to 40 const 50 char; parameters
    60 of type int 70 and 80 of type pointer 90 to nothing; 95 something else. *)
Definition C123_ents (o : Z) : option entry :=
  let T t r := Some (mkEntry 0 t [(0x49, 0x13, 0)] [VWord r]) in
  if o =? 10 then T 0x0f 20 else if o =? 20 then T 0x15 30 else if o =? 30 then T 0x0f 40 else if o =? 40 then T 0x26 50
  else if o =? 50 then Some (mkEntry 0 0x24 [(0x03, 0x08, 0)] [VWord 1])
  else if o =? 60 then T 0x05 70 else if o =? 70 then Some (mkEntry 0 0x24 [(0x03, 0x08, 0)] [VWord 2])
  else if o =? 80 then T 0x05 90 else if o =? 90 then Some (mkEntry 0 0x0f [] []) else if o =? 95 then Some (mkEntry 0 0x18 [] [])
  else if o =? 100 then T 0x42 50 else if o =? 110 then T 0x0f 110 else None.
Definition C123_str (e : entry) (form : Z) (v : dval) : res (list Z) := match v with VWord w => Ok (if w =? 1 then lit "char" else lit "int") | _ => Throw end.
Definition C123_kids (o : Z) : list Z := if o =? 20 then [60; 95; 80] else [].
Lemma C123_wf : forall x e, C123_ents x = Some e -> (wfEntry e /\ 0 <= eUnit e) /\ (hasNo e 0x31 \/ hasNo e 0x47).
Proof.
  intros x e. unfold C123_ents. intros E.
  repeat match goal with H : (if ?b then _ else _) = _ |- _ => destruct b end; try discriminate; apply ExprProofs.Some_inj in E; subst e;
  (split; [split; [split; [reflexivity|cbn; repeat (constructor; [cbn; lia|]); constructor]|cbn; lia]|unfold hasNo; cbn; lia]).
Qed.
Ltac nonm := eexists; split; [eapply LNone; [reflexivity|unfold hasNo; cbn; lia|unfold ownOnly; lia|unfold hasNo; cbn; lia|unfold hasNo; cbn; lia]|reflexivity].
Ltac ty := eexists; split; [own|]; eexists; split; [reflexivity|]; do 2 eexists; split; [reflexivity|]; split; [reflexivity|]; split; [right; split; [cbn; tauto|reflexivity]|]; unfold W64; split; [cbn [eUnit]; lia|discriminate].
Example C123_nonvacuous : TypeText C123_ents C123_str C123_kids (Some 10) (lit "char const *(int, void *) *") /\
  typeName C123_ents C123_str C123_kids (fun _ => []) 20 (Some 10) = Ok (lit "char const *(int, void *) *").
Proof.
  split; [|vm_compute; reflexivity].
  change (lit "char const *(int, void *) *") with ((((lit "char" ++ lit " const") ++ lit " *") ++ lit "(" ++ join (lit ", ") [lit "int"; lit "void" ++ lit " *"] ++ lit ")") ++ lit " *").
  eapply (TTBuilt _ _ _ 10 0x0f " *"); [eexists; split; reflexivity|cbn; tauto|nonm|ty|].
  eapply (TTFunction _ _ _ 20); [eexists; split; reflexivity|nonm|ty| |].
  - eapply (TTBuilt _ _ _ 30 0x0f " *"); [eexists; split; reflexivity|cbn; tauto|nonm|ty|].
    eapply (TTBuilt _ _ _ 40 0x26 " const"); [eexists; split; reflexivity|cbn; tauto|nonm|ty|].
    eapply TTNamed; [nm|discriminate].
  - change (C123_kids 20) with [60; 95; 80]. eapply ATParam; [eexists; split; reflexivity|ty|eapply TTNamed; [nm|discriminate]|].
    eapply ATOther; [reflexivity|discriminate|]. eapply ATParam; [eexists; split; reflexivity|ty| |constructor].
    eapply (TTBuilt _ _ _ 90 0x0f " *"); [eexists; split; reflexivity|cbn; tauto|nonm|nonm|constructor].
Qed.
(** Refuted: rvalue references (and arrays, and every other unnamed type) get no name but "(unhandled tag ...)". *)
Theorem C123_rvalue_refuted : forall tagText, tagIs C123_ents 100 0x42 /\ TypeText C123_ents C123_str C123_kids (Some 50) (lit "char") /\
  typeName C123_ents C123_str C123_kids tagText 20 (Some 100) = Ok (lit "(unhandled tag " ++ tagText 0x42 ++ lit ")").
Proof. intros tagText. split; [eexists; split; reflexivity|]. split; [eapply TTNamed; [nm|discriminate]|reflexivity]. Qed.
Print Assumptions C123_rvalue_refuted.
(** ... in general: an unnamed type of any other kind - an array, a structure, an enumeration - is shown as that text. *)
Theorem C123_other_kinds_refuted : forall ents str kids tagText o tag b,
  (forall x e, ents x = Some e -> wfEntry e /\ 0 <= eUnit e) ->
  (forall x e, ents x = Some e -> hasNo e 0x31 \/ hasNo e 0x47) ->
  tagIs ents o tag -> ~ In tag [0x0f; 0x26; 0x35; 0x15; 0x10] -> nameIs ents str o [] -> typeIs ents o b ->
  exists N, forall fuel, (N <= fuel)%nat -> typeName ents str kids tagText fuel (Some o) = Ok (lit "(unhandled tag " ++ tagText tag ++ lit ")").
Proof. intros ents str kids tagText o tag b W One. exact (typeName_other ents (fun x => x) str W One kids tagText o tag b). Qed.
Print Assumptions C123_other_kinds_refuted.
(** Refuted: a type built on itself has no end of a name. *)
Theorem C123_cycle_refuted : forall tagText fuel, typeName C123_ents C123_str C123_kids tagText fuel (Some 110) = OutOfFuel.
Proof.
  intros tagText. induction fuel as [|f IH]; [reflexivity|]. destruct f as [|f]; [reflexivity|].
  assert (E : typeName C123_ents C123_str C123_kids tagText (S (S f)) (Some 110) = let* b := typeName C123_ents C123_str C123_kids tagText (S f) (Some 110) in Ok (b ++ txt " *")) by reflexivity.
  rewrite E, IH. reflexivity.
Qed.
Print Assumptions C123_cycle_refuted.
