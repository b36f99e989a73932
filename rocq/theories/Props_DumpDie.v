(** Properties of the dump of a unit's entries. *)
From Coq Require Import Ascii String Permutation.
From Verif Require Import Base Leb LebSpec DwarfReader ReaderSpec CfiSpec CfiProofs LinesSpec Lines Die DieSpec DieProofs DieNav DieTree DieHist Props_Die
  DieAttr DieAttrSpec DieAttrProofs Args ArgsSpec FrameText FrameTextSpec FrameTextProofs JsonDoc JsonDocSpec JsonDocProofs Dump DumpProofs Props_Dump DumpCfi DumpTables DumpDie DumpDieSpec DumpDieProofs.
Open Scope Z_scope.

Lemma names_ok info str lineStr alt sx ents f ds base fin root t : entriesOf ents f ds base fin root t ->
  (forall o x, inTree f ds root t o x -> showableEntry info str lineStr alt sx ents f ds base o x) ->
  exists N, forall nf, (N <= nf)%nat -> forall o x, inTree f ds root t o x ->
    exists nm nt, entryName info str lineStr alt sx ents o nm /\ plainText nm nt /\ nameOf ents (attrText info str lineStr alt sx) nf o = Ok nm.
Proof.
  intros (H1 & H2 & _) HS.
  set (P := fun (o : Z) (x : dtree) (N : nat) => exists nm nt, entryName info str lineStr alt sx ents o nm /\ plainText nm nt /\ forall fuel, (N <= fuel)%nat -> nameOf ents (attrText info str lineStr alt sx) fuel o = Ok nm).
  destruct (uniform_tree P f ds) with (t := t) (off := root) as (N & HN).
  - intros o x n m (nm & nt & A & B & C) L. exists nm, nt. split; [exact A|]. split; [exact B|]. intros fuel Hf. apply C. lia.
  - intros o x I. destruct (HS o x I) as (d & _ & _ & _ & nm & nt & EN & PT).
    destruct (name_ok ents (attrText info str lineStr alt sx) H1 H2 o nm) as (N & HN).
    + destruct EN as (r & L & M). exists r. split; [exact L|]. destruct r as [[[o' form] v]|]; [|exact M]. destruct M as (e' & w & E & -> & SI). exists e'. split; [exact E|].
      now apply attrText_ok.
    + exists N, nm, nt. auto.
  - exists N. intros nf Hf o x I. destruct (HN o x I) as (nm & nt & A & B & C). exists nm, nt. auto.
Qed.
(** C150: after any history of navigation, the entries of a unit are printed as a JSON text that says, for the root and for every entry below it in document order,
    its name, its tag, where it is in the section and in the unit, where its parent is (0 for the root), each of its attributes with the form and the value, and its
    children in order; and the text can be read in no other way. *)
Theorem C150_tree_dump_partial f base fin root ds t info str lineStr alt sx sc ue ents h fuel :
  unitAt f base fin root ds t info -> (3 * List.length info <= fuel)%nat -> Forall (validOp f ds root t) h ->
  entriesOf ents f ds base fin root t -> (forall o x, inTree f ds root t o x -> showableEntry info str lineStr alt sx ents f ds base o x) ->
  let u := unitOf f base fin root in let dec := decode info u (tableOf ds) in
  exists N, forall nf, (N <= nf)%nat -> exists v txt d,
    snd (dumpTree info str lineStr alt sx sc ue u dec ents nf fuel (runOps u dec fuel store0 h)) = Ok v /\ jprint v = Ok txt /\ jsonDoc txt d /\
    (forall y, jsonDoc txt y -> y = d) /\ treeDoc info str lineStr alt sx ents f ds base 0 root t d.
Proof.
  intros U Hf V HE HS. cbv zeta. destruct (names_ok _ _ _ _ _ _ _ _ _ _ _ _ HE HS) as (N & HN). exists N. intros nf Hn.
  pose proof (hist_Inv f base fin root ds t info U fuel Hf h V store0 (Inv0 _ _ _ (Wr f base fin root ds t info U fuel Hf))) as I.
  destruct (dumpTree_ok f base fin root ds t info U str lineStr alt sx sc ue ents nf HE HS (HN nf Hn) fuel _ I Hf) as (v & d & E & M & T).
  destruct (C137_documents _ _ M) as (tx & Et & J & Un). exists v, tx, d. auto.
Qed.
Print Assumptions C150_tree_dump_partial.

(** A unit with a base type, a declaration of a function, and the function, which takes its name from the declaration, with a variable. *)
Definition exFmt : fmt := mkFmt 4 4 8.
Definition exDecls : list sdecl :=
  [mkDecl 1 0x11 true [(0x03, 0x08, 0)]; mkDecl 2 0x24 false [(0x03, 0x0e, 0); (0x0b, 0x0b, 0); (0x3e, 0x0b, 0)]; mkDecl 3 0x2e false [(0x03, 0x08, 0); (0x3c, 0x19, 0)];
   mkDecl 4 0x2e true [(0x47, 0x13, 0); (0x40, 0x18, 0)]; mkDecl 5 0x34 false [(0x49, 0x13, 0); (0x03, 0x0e, 0)]].
Definition exVar : dtree := DT 5 [AFixed 0x13 4 16; AOffset 0x0e 5] [].
Definition exTree : dtree :=
  DT 1 [AString [97; 46; 99]] [DT 2 [AOffset 0x0e 1; AFixed 0x0b 1 4; AFixed 0x0b 1 5] []; DT 3 [AString [102]; APresent] []; DT 4 [AFixed 0x13 4 23; ABlock 0x18 [0x9c]] [exVar]].
Definition exInfo : list Z := repeat 0 11 ++ encodeT exFmt exDecls exTree ++ [9; 9].
Definition exStr : list Z := [0; 105; 110; 116; 0; 120; 0].
Lemma exUnit : unitAt exFmt 0 44 11 exDecls exTree exInfo.
Proof.
  assert (NS : forall e a v, fst (fst a) <> 1 -> sibOk 0 e a v) by (intros e a v N X; contradiction).
  split.
  - unfold wfFmt. cbn. lia.
  - repeat constructor; cbn; lia.
  - assert (F : forallb (fun b => (0 <=? b) && (b <? 256)) exInfo = true) by reflexivity. rewrite forallb_forall in F. apply Forall_forall.
    intros b Hb. specialize (F b Hb). unfold isByte. lia.
  - reflexivity.
  - lia.
  - vm_compute. discriminate.
  - econstructor; [reflexivity| |discriminate|]; [|repeat apply WfCons; [| | |constructor]; (econstructor; [reflexivity| |try reflexivity; discriminate|])]; try (apply WfCons; [|apply WfNil]; econstructor; [reflexivity| |reflexivity|]); try apply WfNil;
    repeat (apply Forall2_cons || apply Forall2_nil); (split; [reflexivity|]); (split; [intros y Hy; discriminate Hy|]); (split; [|apply NS; cbn; lia]); cbn [wfA]; try exact I;
    unfold isText, isByte, fixedForms, lebBlockForms, offsetForms; cbn [In fVer fOff exFmt]; try (repeat constructor; lia); try (split; [tauto|lia]); try (left; tauto); try (split; [tauto|split; [lia|intros; lia]]).
  - repeat constructor; cbn; lia.
  - exists (repeat 0 11), [9; 9]. split; reflexivity.
Qed.
(** the entries of a tree, listed *)
Fixpoint listed (f : fmt) (ds : list sdecl) (off : Z) (t : dtree) : list (Z * dtree) :=
  match t with
  | DT c vs ks => (off, t) :: (fix go (o : Z) (l : list dtree) := match l with [] => [] | k :: r => listed f ds o k ++ go (o + zlen (encodeT f ds k)) r end) (off + headLen f t) ks
  end.
Fixpoint listedL (f : fmt) (ds : list sdecl) (o : Z) (l : list dtree) : list (Z * dtree) :=
  match l with [] => [] | k :: r => listed f ds o k ++ listedL f ds (o + zlen (encodeT f ds k)) r end.
Lemma listed_S f ds off c vs ks : listed f ds off (DT c vs ks) = (off, DT c vs ks) :: listedL f ds (off + headLen f (DT c vs ks)) ks.
Proof. cbn [listed]. f_equal. generalize (off + headLen f (DT c vs ks)). induction ks as [|k r IH]; intros o; [reflexivity|]. cbn [listedL]. f_equal. apply IH. Qed.
Lemma inTree_listed f ds off t o x : inTree f ds off t o x -> In (o, x) (listed f ds off t).
Proof.
  induction 1 as [off [c vs ks]|off [c vs ks] ko k o x K _ IH]; rewrite listed_S; [now left|right].
  inversion K as [? ? l1 ? l2 E]; subst. cbn [tKids] in E. subst ks. revert IH. generalize (off + headLen f (DT c vs (l1 ++ k :: l2))) as b. clear.
  induction l1 as [|y l1 IH]; intros b H; cbn [app listedL flat_map] in *.
  - change (zlen (@nil Z)) with 0 in H. rewrite Z.add_0_r in H. apply in_or_app. now left.
  - rewrite zlen_app, Z.add_assoc in H. apply in_or_app. right. now apply IH.
Qed.
Definition exEnts (o : Z) : option entry :=
  match find (fun p => fst p =? o) (listed exFmt exDecls 11 exTree) with
  | Some (_, x) => option_map (fun d => mkEntry 0 (sdTag d) (sdAttrs d) (valsAt exFmt (o + zlen (uleb (tCode x))) (tVals x))) (declOf exDecls (tCode x))
  | None => None
  end.
Definition exSx (un i : Z) : res (list Z) := Throw.
Lemma exEntries : entriesOf exEnts exFmt exDecls 0 44 11 exTree.
Proof.
  assert (L : forall o e, exEnts o = Some e -> In o [11; 16; 23; 26; 33]).
  { intros o e. unfold exEnts. destruct (find _ _) as [[o' x]|] eqn:F; [|discriminate]. intros _. apply find_some in F as [F Q]. cbn [fst] in Q.
    assert (o' = o) by lia. subst o'. apply (in_map fst) in F. exact F. }
  assert (All : forall (P : Z -> entry -> Prop), (forall e, exEnts 11 = Some e -> P 11 e) -> (forall e, exEnts 16 = Some e -> P 16 e) -> (forall e, exEnts 23 = Some e -> P 23 e) ->
     (forall e, exEnts 26 = Some e -> P 26 e) -> (forall e, exEnts 33 = Some e -> P 33 e) -> forall o e, exEnts o = Some e -> P o e).
  { intros P A1 A2 A3 A4 A5 o e E. pose proof (L o e E) as Lo. cbn [In] in Lo. destruct Lo as [<-|[<-|[<-|[<-|[<-|[]]]]]]; auto. }
  split; [|split].
  - apply All; intros e E; vm_compute in E; injection E as <-; (split; [|cbn; lia]); (split; [reflexivity|]); cbn [eAttrs map fst]; repeat (apply NoDup_cons; [cbn [In]; lia|]); apply NoDup_nil.
  - apply All; intros e E; vm_compute in E; injection E as <-; left; unfold hasNo; cbn [eAttrs map fst In]; lia.
  - assert (K : forall o x, In (o, x) (listed exFmt exDecls 11 exTree) -> inTree exFmt exDecls 11 exTree o x).
    { intros o x H. cbn [listed exTree exVar] in H. cbn [In app] in H.
      assert (S1 : forall l1 k l2, tKids exTree = l1 ++ k :: l2 -> inTree exFmt exDecls 11 exTree (11 + headLen exFmt exTree + zlen (flat_map (encodeT exFmt exDecls) l1)) k).
      { intros l1 k l2 E. eapply InKid; [econstructor; exact E|constructor]. }
      destruct H as [H|[H|[H|[H|[H|[]]]]]]; apply pair_equal_spec in H as [<- <-].
      - constructor.
      - exact (S1 [] _ _ eq_refl).
      - exact (S1 [_] _ _ eq_refl).
      - exact (S1 [_; _] _ _ eq_refl).
      - eapply InKid; [apply (KidAt _ _ 11 exTree (firstn 2 (tKids exTree)) (DT 4 [AFixed 0x13 4 23; ABlock 0x18 [0x9c]] [exVar]) []); reflexivity|].
        eapply InKid; [apply (KidAt _ _ _ _ [] exVar []); reflexivity|]. constructor. }
    intros o e E _. unfold exEnts in E. destruct (find _ _) as [[o' x]|] eqn:F; [|discriminate]. apply find_some in F as [F Q]. cbn [fst] in Q.
    assert (o' = o) by lia. subst o'. exists x. now apply K.
Qed.
Lemma std_in t c : existsb (fun p : Z * string => fst p =? c) t = true -> exists x, called t c x.
Proof. intros F. apply existsb_exists in F as ([c' n] & F & Q). cbn [fst] in Q. assert (c' = c) by lia. subst c'. exists (lit n), n. auto. Qed.
Lemma tag_in c : existsb (fun p : Z * string => fst p =? c) stdTags = true -> exists x, tagShown c x.
Proof. intros F. destruct (std_in _ _ F) as (s & H). exists (XStr s). left. eauto. Qed.
Lemma exShow : forall o x, inTree exFmt exDecls 11 exTree o x -> showableEntry exInfo exStr [] None exSx exEnts exFmt exDecls 0 o x.
Proof.
  intros o x H. apply inTree_listed in H.
  assert (Own : forall o e form w i im s, exEnts o = Some e -> nth_error (eAttrs e) i = Some (3, form, im) -> nth_error (eVals e) i = Some (VWord w) ->
     stringIs exInfo exStr [] None exSx (eUnit e) form w s -> asciiB s = true -> exists nm nt, entryName exInfo exStr [] None exSx exEnts o nm /\ plainText nm nt).
  { intros o' e form w i im s E A1 A2 S As. exists s, s. split; [|now apply asciiB_plain]. exists (Some (o', form, VWord w)). split; [eapply LOwn; [exact E|]; exists i, im; auto|].
    exists e, w. auto. }
  assert (SS : forall sec off s pre post, sec = pre ++ cstr s ++ post -> zlen pre = off -> forallb (fun c => (1 <=? c) && (c <? 256)) s = true -> stringAt sec off s).
  { intros sec off s pre post E1 E2 T. exists pre, post. split; [exact E1|]. split; [exact E2|]. rewrite forallb_forall in T. apply Forall_forall. intros c I. specialize (T c I). unfold isByte. lia. }
  assert (I1 : stringAt exStr 1 [105; 110; 116]) by (apply (SS _ _ _ [0] [120; 0]); reflexivity).
  assert (I2 : stringAt exStr 5 [120]) by (apply (SS _ _ _ [0; 105; 110; 116; 0] []); reflexivity).
  assert (I3 : stringAt exInfo 12 [97; 46; 99]) by (apply (SS _ _ _ (firstn 12 exInfo) (skipn 16 exInfo)); reflexivity).
  assert (I4 : stringAt exInfo 24 [102]) by (apply (SS _ _ _ (firstn 24 exInfo) (skipn 26 exInfo)); reflexivity).
  assert (P1 : plainText [105; 110; 116] [105; 110; 116]) by (apply asciiB_plain; reflexivity). assert (P2 : plainText [120] [120]) by (apply asciiB_plain; reflexivity).
  assert (P3 : plainText [97; 46; 99] [97; 46; 99]) by (apply asciiB_plain; reflexivity). assert (P4 : plainText [102] [102]) by (apply asciiB_plain; reflexivity).
  cbn [listed exTree exVar] in H. cbn [In app] in H. destruct H as [H|[H|[H|[H|[H|[]]]]]]; apply pair_equal_spec in H as [<- <-]; unfold showableEntry; cbn [tCode tVals];
    eexists; (split; [reflexivity|]); (split; [apply tag_in; vm_compute; reflexivity|]); cbn [sdAttrs attrsAt]; (split; [repeat (apply Forall_cons || apply Forall_nil); (split; [apply std_in; vm_compute; reflexivity|]); (split; [apply std_in; vm_compute; reflexivity|])|]).
  - eexists. apply VDString; [lia|exact P3].
  - eapply (Own 11 _ 8 12 0%nat 0 [97; 46; 99]); [reflexivity|reflexivity|reflexivity|right; right; left; split; [reflexivity|exact I3]|reflexivity].
  - eexists. eapply VDStrp; [lia|left; split; [reflexivity|exact I1]|exact P1].
  - eexists. apply VDConst; [lia|cbn; tauto].
  - eexists. eapply VDEncoding; [reflexivity|left; eexists; split; [reflexivity|cbn; tauto]|]. exists "DW_ATE_signed"%string. split; [cbn; tauto|reflexivity].
  - eapply (Own 16 _ 0x0e 1 0%nat 0 [105; 110; 116]); [reflexivity|reflexivity|reflexivity|left; split; [reflexivity|exact I1]|reflexivity].
  - eexists. apply VDString; [lia|exact P4].
  - eexists. apply VDPresent. lia.
  - eapply (Own 23 _ 8 24 0%nat 0 [102]); [reflexivity|reflexivity|reflexivity|right; right; left; split; [reflexivity|exact I4]|reflexivity].
  - eexists. apply VDRef; [lia|cbn; tauto].
  - eexists. apply VDBlock. lia.
  - exists [102], [102]. split; [|exact P4]. exists (Some (23, 8, VWord 24)). split.
    + eapply (LSpec _ _ 26 _ 23); [reflexivity| | | |exists (mkEntry 0 0x2e [(0x47, 0x13, 0); (0x40, 0x18, 0)] [VWord 23; VBlock 32 1]), 0x13, 23; split; [reflexivity|]; split; [exists 0%nat, 0; split; reflexivity|]; split; [right; split; [cbn; tauto|reflexivity]|]; split; [unfold W64; lia|]; split; [lia|vm_compute; discriminate]|].
      * unfold hasNo. vm_compute. lia.
      * unfold ownOnly. lia.
      * unfold hasNo. vm_compute. lia.
      * eapply LOwn; [reflexivity|]. exists 0%nat, 0. split; reflexivity.
    + eexists _, 24. split; [reflexivity|]. split; [reflexivity|]. right; right; left; split; [reflexivity|exact I4].
  - eexists. apply VDRef; [lia|cbn; tauto].
  - eexists. eapply VDStrp; [lia|left; split; [reflexivity|exact I2]|exact P2].
  - eapply (Own 33 _ 0x0e 5 1%nat 0 [120]); [reflexivity|reflexivity|reflexivity|left; split; [reflexivity|exact I2]|reflexivity].
Qed.
Definition exSecs : secs := mkSecs None [] [].
Definition exUe : uenv := mkUenv 4 8 0 0 None.
Definition exText : string :=
"{ ""name"":""a.c"", ""type"":""DW_TAG_compile_unit"", ""cuOffset"":11, ""offset"":11, ""parent"":0, ""attributes"":{""DW_AT_name"":{ ""form"":""DW_FORM_string"", ""value"":""a.c"" }}, ""children"":[ { ""name"":""int"", ""type"":""DW_TAG_base_type"", ""cuOffset"":16, ""offset"":16, ""parent"":11, ""attributes"":{""DW_AT_name"":{ ""form"":""DW_FORM_strp"", ""value"":""int"" },
""DW_AT_byte_size"":{ ""form"":""DW_FORM_data1"", ""value"":4 },
""DW_AT_encoding"":{ ""form"":""DW_FORM_data1"", ""value"":""DW_ATE_signed"" }} },
{ ""name"":""f"", ""type"":""DW_TAG_subprogram"", ""cuOffset"":23, ""offset"":23, ""parent"":11, ""attributes"":{""DW_AT_name"":{ ""form"":""DW_FORM_string"", ""value"":""f"" },
""DW_AT_declaration"":{ ""form"":""DW_FORM_flag_present"", ""value"":true }} },
{ ""name"":""f"", ""type"":""DW_TAG_subprogram"", ""cuOffset"":26, ""offset"":26, ""parent"":11, ""attributes"":{""DW_AT_frame_base"":{ ""form"":""DW_FORM_exprloc"", ""value"":{ ""offset"":32, ""length"":1 } },
""DW_AT_specification"":{ ""form"":""DW_FORM_ref4"", ""value"":23 }}, ""children"":[ { ""name"":""x"", ""type"":""DW_TAG_variable"", ""cuOffset"":33, ""offset"":33, ""parent"":26, ""attributes"":{""DW_AT_name"":{ ""form"":""DW_FORM_strp"", ""value"":""x"" },
""DW_AT_type"":{ ""form"":""DW_FORM_ref4"", ""value"":16 }} } ] } ] }".
(** the hypotheses of C150 hold of it, and after a look at an entry in the middle this is printed *)
Example C150_nonvacuous : unitAt exFmt 0 44 11 exDecls exTree exInfo /\ entriesOf exEnts exFmt exDecls 0 44 11 exTree /\
  (forall o x, inTree exFmt exDecls 11 exTree o x -> showableEntry exInfo exStr [] None exSx exEnts exFmt exDecls 0 o x) /\ Forall (validOp exFmt exDecls 11 exTree) [OpAt 23; OpParent 33] /\
  let u := unitOf exFmt 0 44 11 in let dec := decode exInfo u (tableOf exDecls) in
  (let* v := snd (dumpTree exInfo exStr [] None exSx exSecs exUe u dec exEnts 5 200 (runOps u dec 200 store0 [OpAt 23; OpParent 33])) in jprint v) = Ok (txt exText).
Proof.
  split; [exact exUnit|]. split; [exact exEntries|]. split; [exact exShow|]. split.
  - repeat constructor; (destruct exEntries as (_ & _ & E3); eapply E3; [reflexivity|lia]).
  - vm_compute. reflexivity.
Qed.

(** Refuted: values of the forms ref1, ref_sig8, addrx, addrx1-4, loclistx, rnglistx, GNU_addr_index and GNU_str_index are not shown: their value is the string
    "unknown" whatever it is. *)
Theorem C150_form_refuted info str lineStr alt sx sc ue e name form v : name <> 0x3e -> In form [0x11; 0x20; 0x1b; 0x29; 0x2a; 0x2b; 0x2c; 0x22; 0x23; 0x1f01; 0x1f02] ->
  attrVal info str lineStr alt sx sc ue e name form v = Ok (VStr (lit "unknown")).
Proof.
  intros N I. unfold attrVal. replace (name =? 0x3e) with false by lia. cbn [In] in I.
  repeat match goal with H : _ \/ _ |- _ => destruct H as [<-|H] end; [..|destruct I]; reflexivity.
Qed.
Print Assumptions C150_form_refuted.
(** Refuted: all the attributes whose code is not in the list are shown under the same key, so that an object has the key several times and a reader of JSON keeps one. *)
Theorem C150_attribute_refuted c c' : Forall (fun p => fst p <> c) attrTable -> Forall (fun p => fst p <> c') attrTable -> attrKey c = lit "unknown" /\ attrKey c = attrKey c'.
Proof.
  assert (K : forall c, Forall (fun p => fst p <> c) attrTable -> attrKey c = lit "unknown").
  { intros x F. unfold attrKey, inTable. destruct (find (fun p => fst p =? x) attrTable) as [p|] eqn:E; [|reflexivity]. apply find_some in E as [I Q].
    rewrite Forall_forall in F. specialize (F p I). lia. }
  intros F F'. rewrite (K c F), (K c' F'). auto.
Qed.
Example C150_attribute_case : attrKey 0x2201 = lit "unknown" /\ attrKey 0x3fef = lit "unknown".
Proof. split; vm_compute; reflexivity. Qed.
Print Assumptions C150_attribute_refuted.
