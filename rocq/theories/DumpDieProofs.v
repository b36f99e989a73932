(** Proofs about the dump of a unit's entries. *)
From Coq Require Import Ascii String Permutation.
From Verif Require Import Props_Die.
From Verif Require Import Base Leb LebSpec LebProofs DwarfReader DwarfReaderProofs ReaderSpec CfiSpec CfiProofs CfiProofs2 ExprProofs Cursor LinesSpec LinesProofs Lines Die DieSpec DieProofs DieNav DieTree DieHist
  DieAttr DieAttrSpec DieAttrProofs Args ArgsSpec FrameText FrameTextSpec FrameTextProofs JsonDoc JsonDocSpec JsonDocProofs Dump DumpProofs DumpCfi DumpTables DumpDie DumpDieSpec.
Open Scope Z_scope.

(** ** Tables *)
Lemma table_std std tab : forallb (fun p => match find (fun q => fst q =? fst p) tab with Some q => String.eqb (snd q) (snd p) | None => false end) std = true ->
  forall c s, called std c s -> exists n, inTable tab c = Some n /\ s = txt n.
Proof.
  intros F c s (n & I & ->). rewrite forallb_forall in F. specialize (F _ I). cbn [fst snd] in F. unfold inTable. destruct (find (fun p => fst p =? c) tab) as [[c' n']|]; [|discriminate].
  cbn [snd option_map] in *. apply String.eqb_eq in F. subst n'. exists n. split; reflexivity.
Qed.
Lemma tag_std c s : called stdTags c s -> tagJ c = VStr s.
Proof. intros H. destruct (table_std stdTags tagTable ltac:(vm_compute; reflexivity) c s H) as (n & E & ->). unfold tagJ. now rewrite E. Qed.
Lemma attr_std c s : called stdAttrs c s -> attrKey c = s.
Proof. intros H. destruct (table_std stdAttrs attrTable ltac:(vm_compute; reflexivity) c s H) as (n & E & ->). unfold attrKey. now rewrite E. Qed.
Lemma form_std c s : called stdForms c s -> formJ c = VStr s.
Proof. intros H. destruct (table_std stdForms formTable ltac:(vm_compute; reflexivity) c s H) as (n & E & ->). unfold formJ. now rewrite E. Qed.
Lemma ate_std c s : called stdEncodings c s -> ateJ c = VStr s.
Proof. intros H. destruct (table_std stdEncodings ateTable ltac:(vm_compute; reflexivity) c s H) as (n & E & ->). unfold ateJ. now rewrite E. Qed.
Definition asciiB (s : list Z) : bool := forallb (fun c => (32 <=? c) && (c <? 127)) s.
Lemma asciiB_plain s : asciiB s = true -> plainText s s.
Proof. intros H. apply ascii_plain. unfold asciiB in H. rewrite forallb_forall in H. apply Forall_forall. intros c I. specialize (H c I). lia. Qed.
Lemma called_plain t : forallb (fun p : Z * string => asciiB (lit (snd p))) t = true -> forall c s, called t c s -> plainText s s.
Proof. intros F c s (n & I & ->). rewrite forallb_forall in F. apply asciiB_plain. exact (F _ I). Qed.
Lemma tags_plain c s : called stdTags c s -> plainText s s. Proof. apply called_plain. vm_compute. reflexivity. Qed.
Lemma attrs_plain c s : called stdAttrs c s -> plainText s s. Proof. apply called_plain. vm_compute. reflexivity. Qed.
Lemma forms_plain c s : called stdForms c s -> plainText s s. Proof. apply called_plain. vm_compute. reflexivity. Qed.
Lemma ates_plain c s : called stdEncodings c s -> plainText s s. Proof. apply called_plain. vm_compute. reflexivity. Qed.
Lemma tag_shown c x : tagShown c x -> means (tagJ c) x.
Proof.
  intros [(s & H & ->)|(R & ->)].
  - rewrite (tag_std _ _ H). apply mStr. eapply tags_plain. exact H.
  - assert (N : inTable tagTable c = None).
    { unfold inTable. destruct (find (fun p => fst p =? c) tagTable) as [q|] eqn:E; [|reflexivity]. exfalso. apply find_some in E as [I Q].
      assert (F : forallb (fun p => negb ((0x4080 <? fst p) && (fst p <? 0xffff))) tagTable = true) by (vm_compute; reflexivity). rewrite forallb_forall in F. specialize (F q I). lia. }
    unfold tagJ. rewrite N. assert (E32 : s32 c = c) by (unfold s32, sgn, W32; rewrite Z.mod_small by lia; destruct (c <? 4294967296 / 2) eqn:Q; [reflexivity|]; change (4294967296 / 2) with 2147483648 in Q; lia). rewrite E32. apply mInt. lia.
Qed.
Ltac lits := apply asciiB_plain; vm_compute; reflexivity.

Section Vals.
Context (info str lineStr : list Z) (alt : option (list Z)) (sx : Z -> Z -> res (list Z)) (sc : secs) (ue : uenv).
Lemma stringAt_sec sec off s : stringAt sec off s -> secString sec off = s.
Proof.
  intros (pre & post & -> & <- & T). unfold secString. rewrite zdrop_app_zlen. unfold cstr. rewrite <- app_assoc. apply untilNul_text. exact T.
Qed.
Lemma attrText_ok e form w s : stringIs info str lineStr alt sx (eUnit e) form w s -> attrText info str lineStr alt sx e form (VWord w) = Ok s.
Proof.
  intros [[-> H]|[[-> H]|[[-> H]|[[-> (a & -> & H)]|[I H]]]]]; unfold attrText; try (cbn [Z.eqb Pos.eqb]; now rewrite (stringAt_sec _ _ _ H)).
  cbn [In] in I. destruct I as [<-|[<-|[<-|[<-|[<-|[]]]]]]; cbn [Z.eqb Pos.eqb orb]; exact H.
Qed.
Lemma stringIs_form unit form w s : stringIs info str lineStr alt sx unit form w s -> In form [0x0e; 0x1f; 0x08; 0x1f21; 0x1a; 0x25; 0x26; 0x27; 0x28].
Proof. intros [[-> H]|[[-> H]|[[-> H]|[[-> H]|[I H]]]]]; cbn [In] in *; tauto. Qed.
Lemma attrVal_string e name form w s : name <> 0x3e -> In form [0x0e; 0x1f; 0x08; 0x1f21; 0x1a; 0x25; 0x26; 0x27; 0x28] ->
  attrText info str lineStr alt sx e form (VWord w) = Ok s -> attrVal info str lineStr alt sx sc ue e name form (VWord w) = Ok (VStr s).
Proof.
  intros N I H. unfold attrVal. replace (name =? 0x3e) with false by lia. cbn [In] in I.
  repeat match goal with H : _ \/ _ |- _ => destruct H as [<-|H] end; [..|destruct I]; cbn [Z.eqb Pos.eqb orb]; now rewrite H.
Qed.
Lemma fixed_pow form n : In (form, n) fixedForms -> 256 ^ Z.of_nat n <= 2 ^ 64.
Proof.
  unfold fixedForms. cbn [In]. intros H. repeat match goal with H : _ \/ _ |- _ => destruct H as [H|H] end; try contradiction;
  apply pair_equal_spec in H as [_ <-]; cbn [Z.of_nat Pos.of_succ_nat Pos.succ]; apply Z.leb_le; vm_compute; reflexivity.
Qed.
Lemma value_ok f e name off v x : wfFmt f -> wfA f v -> valueDoc info str lineStr alt sx f (eUnit e) name off v x ->
  (forall s, v = AString s -> stringAt info off s) -> 0 <= off -> off + zlen (encodeA f v) < W64 ->
  exists j, attrVal info str lineStr alt sx sc ue e name (formOfA v) (valueOf off v) = Ok j /\ means j x.
Proof.
  intros WF WA VD HS Ho Hl. inversion VD; subst; cbn [formOfA valueOf wfA] in *;
    try (match goal with H : stringIs _ _ _ _ _ _ _ _ ?s, P : plainText ?s _ |- _ => exists (VStr s); split; [|now apply mStr]; apply attrVal_string; auto; [eapply stringIs_form; eassumption|now apply attrText_ok] end);
    unfold attrVal; try (replace (name =? 0x3e) with false by lia).
  - (* encoding *) exists (VStr s). split; [|apply mStr; eapply ates_plain; eassumption]. cbn [Z.eqb Pos.eqb]. destruct H0 as [(k & -> & I)| ->].
    + cbn [formOfA valueOf] in *. cbn [In] in I. repeat match goal with H : _ \/ _ |- _ => destruct H as [<-|H] end; [..|destruct I]; cbn [toU Z.eqb Pos.eqb orb bind]; now rewrite (ate_std _ _ H1).
    + cbn [formOfA valueOf toU Z.eqb Pos.eqb orb bind]. now rewrite (ate_std _ _ H1).
  - exists (VInt n). destruct WA as [I R]. pose proof (fixed_pow _ _ I). split; [|apply mInt; lia].
    cbn [In] in H0. repeat match goal with H : _ \/ _ |- _ => destruct H as [<-|H] end; [..|destruct H0]; reflexivity.
  - exists (VInt n). split; [reflexivity|apply mInt; lia].
  - exists (VInt n). split; [|apply mInt; lia]. cbn [Z.eqb Pos.eqb orb]. f_equal. f_equal. unfold s64. rewrite sgn_mod by (unfold W64; lia). now apply sgn_id.
  - exists (VInt n). split; [|apply mInt; lia]. cbn [Z.eqb Pos.eqb orb]. f_equal. f_equal. unfold s64. rewrite sgn_mod by (unfold W64; lia). now apply sgn_id.
  - exists (VInt n). split; [reflexivity|]. apply mInt. destruct WF as (_ & _ & A & _). assert (256 ^ Z.of_nat (fAddr f) <= 256 ^ 8) by (apply Z.pow_le_mono_r; lia). change (256 ^ 8) with (2 ^ 64) in *. lia.
  - exists (VInt n). split; [reflexivity|]. apply mInt. destruct WF as (_ & A & _). assert (256 ^ Z.of_nat (fOff f) <= 256 ^ 8) by (apply Z.pow_le_mono_r; lia). change (256 ^ 8) with (2 ^ 64) in *. lia.
  - exists (VInt n). destruct WA as [I R]. pose proof (fixed_pow _ _ I). split; [|apply mInt; lia].
    cbn [In] in H0. repeat match goal with H : _ \/ _ |- _ => destruct H as [<-|H] end; [..|destruct H0]; reflexivity.
  - exists (VInt n). split; [reflexivity|apply mInt; lia].
  - exists (VInt n). split.
    + destruct WA as [[->|[-> _]] _]; reflexivity.
    + apply mInt. destruct WA as [_ R]. destruct WF as (_ & A & B & _). assert (256 ^ Z.of_nat (refSize f) <= 256 ^ 8) by (apply Z.pow_le_mono_r; [lia|]; unfold refSize; destruct (fVer f <=? 2); lia). change (256 ^ 8) with (2 ^ 64) in *. lia.
  - exists (VStr s). split; [|now apply mStr]. specialize (HS s eq_refl). cbn [Z.eqb Pos.eqb orb attrText]. now rewrite (stringAt_sec _ _ _ HS).
  - eexists. split.
    + destruct WA as [I|(k & I & _)].
      * unfold lebBlockForms in I. cbn [In] in I. repeat match goal with H : _ \/ _ |- _ => destruct H as [<-|H] end; [..|destruct I]; cbn [Z.eqb Pos.eqb orb]; reflexivity.
      * unfold blockForms in I. cbn [In] in I. repeat match goal with H : _ \/ _ |- _ => destruct H as [H|H] end; try contradiction; apply pair_equal_spec in H as [<- _] || apply pair_equal_spec in I as [<- _]; cbn [Z.eqb Pos.eqb orb]; reflexivity.
    + unfold nf. cbn [encodeA] in Hl. rewrite zlen_app in Hl. unfold W64 in Hl. pose proof (zlen_nonneg b). pose proof (zlen_nonneg (blockLen form (zlen b))).
      apply mObj. repeat apply mmCons; try apply mmNil; try lits; apply mInt; lia.
  - eexists. split; [reflexivity|constructor].
  - eexists. split; [reflexivity|constructor].
Qed.
End Vals.

Lemma znth_app_zlen {A} (l r : list A) x : znth (zlen l) (l ++ x :: r) = Some x.
Proof. rewrite znth_app_r by lia. rewrite Z.sub_diag. reflexivity. Qed.
Lemma dumpAll_F2 {X Y} (g : X -> res Y) l m : Forall2 (fun x y => g x = Ok y) l m -> dumpAll g l = Ok m.
Proof. induction 1 as [|x y l m H _ IH]; [reflexivity|]. cbn [dumpAll]. rewrite H. cbn [bind]. rewrite IH. reflexivity. Qed.
Lemma inTree_kid f ds root t p x o k : inTree f ds root t p x -> kidAt f ds p x o k -> inTree f ds root t o k.
Proof. intros H K. induction H as [off t|off t ko k' o' x K' _ IH]; [econstructor; [exact K|constructor]|]. econstructor; [exact K'|]. now apply IH. Qed.
Lemma kidAt_mid f ds p x l1 k r : tKids x = l1 ++ k :: r -> kidAt f ds p x (p + headLen f x + zlen (flat_map (encodeT f ds) l1)) k.
Proof. intros E. econstructor. exact E. Qed.
Lemma uniform_tree (P : Z -> dtree -> nat -> Prop) f ds (Pm : forall o x n m, P o x n -> (n <= m)%nat -> P o x m) :
  forall t off, (forall o x, inTree f ds off t o x -> exists n, P o x n) -> exists N, forall o x, inTree f ds off t o x -> P o x N.
Proof.
  induction t as [c vs ks IH] using dtree_ind'. intros off H. rewrite Forall_forall in IH.
  assert (K : forall l1 l2, ks = l1 ++ l2 -> exists N, forall j k r, l2 = j ++ k :: r ->
     forall o x, inTree f ds (off + headLen f (DT c vs ks) + zlen (flat_map (encodeT f ds) (l1 ++ j))) k o x -> P o x N).
  { intros l1 l2 E. 
    assert (G : forall o x j k r, l2 = j ++ k :: r -> inTree f ds (off + headLen f (DT c vs ks) + zlen (flat_map (encodeT f ds) (l1 ++ j))) k o x -> exists n, P o x n).
    { intros o x j k r E2 I. apply H. eapply InKid; [|exact I]. apply (kidAt_mid f ds off (DT c vs ks) (l1 ++ j) k r). cbn [tKids]. now rewrite <- app_assoc, <- E2. }
    assert (IHl : forall k, In k l2 -> forall off, (forall o x, inTree f ds off k o x -> exists n, P o x n) -> exists N, forall o x, inTree f ds off k o x -> P o x N).
    { intros k Ik. apply IH. rewrite E. apply in_or_app. now right. }
    revert G. generalize (off + headLen f (DT c vs ks)) as b. intros b. clear E H IH. revert l1. 
    induction l2 as [|k r IHr]; intros l1 G.
    - exists 0%nat. intros [|? ?]; discriminate.
    - destruct (IHl k (or_introl eq_refl) (b + zlen (flat_map (encodeT f ds) l1))) as (N1 & H1).
      { intros o x I. apply (G o x [] k r eq_refl). now rewrite app_nil_r. }
      destruct (IHr (fun k' I' => IHl k' (or_intror I')) (l1 ++ [k])) as (N2 & H2).
      { intros o x j k' r' E I. apply (G o x (k :: j) k' r'); [now rewrite E|]. now rewrite <- app_assoc in I. }
      exists (N1 + N2)%nat. intros [|y j] k' r' E o x I.
      + cbn [app] in E. assert (k = k') by congruence. subst k'. rewrite app_nil_r in I. eapply Pm; [apply H1; exact I|lia].
      + cbn [app] in E. assert (k = y) by congruence. subst y. assert (r = j ++ k' :: r') by congruence. eapply Pm; [apply (H2 j k' r'); [assumption|]; now rewrite <- app_assoc|lia]. }
  destruct (H off (DT c vs ks) ltac:(constructor)) as (N0 & H0). destruct (K [] ks eq_refl) as (N1 & H1). exists (N0 + N1)%nat.
  intros o x I. inversion I as [|? ? ko k ? ? Kk I']; subst; [eapply Pm; [exact H0|lia]|].
  inversion Kk as [? ? l1 ? l2 E]; subst. cbn [tKids] in E. eapply Pm; [apply (H1 l1 k l2 E); exact I'|lia].
Qed.

Section Dump.
Context (f : fmt) (base fin root : Z) (ds : list sdecl) (t : dtree) (info : list Z) (U : unitAt f base fin root ds t info).
Context (str lineStr : list Z) (alt : option (list Z)) (sx : Z -> Z -> res (list Z)) (sc : secs) (ue : uenv) (ents : Z -> option entry) (nf : nat).
Context (HE : entriesOf ents f ds base fin root t).
Context (HS : forall o x, inTree f ds root t o x -> showableEntry info str lineStr alt sx ents f ds base o x).
Context (HN : forall o x, inTree f ds root t o x -> exists nm nt, entryName info str lineStr alt sx ents o nm /\ plainText nm nt /\ nameOf ents (attrText info str lineStr alt sx) nf o = Ok nm).
Let u := unitOf f base fin root.
Let dec := decode info u (tableOf ds).
Let rt := toNode f ds root t.
Let W : wfN u dec rt := Wr f base fin root ds t info U (3 * List.length info) (le_n _).
Notation dump := (dumpDie info str lineStr alt sx sc ue u dec ents nf).
Notation kids := (dumpKids info str lineStr alt sx sc ue u dec ents nf).

Lemma dumpDie_S g st d : dump (S g) st d =
      match st d with
      | None => (st, UB)
      | Some r =>
          let e := entryOf u r in
          sbind (follow u dec ents nf st d, nameOf ents (attrText info str lineStr alt sx) nf d) (fun st1 nm =>
          sbind (getParent u dec g st1 d) (fun st2 par =>
          sbind (st2, dumpAttrs info str lineStr alt sx sc ue e) (fun st3 al =>
          let head := [(txt "name", VStr nm); (txt "type", tagJ (eTag e)); Dump.nf "cuOffset" (u64 (d - dOffset u)); Dump.nf "offset" d; Dump.nf "parent" par; (txt "attributes", al)] in
          if abKids (rAbbrev r) then
            sbind (offToDie u dec st3 (Some d) (firstOf st3 d)) (fun st4 first =>
            sbind (kids g (fixParent st4 first d) d first) (fun st5 ks =>
            (st5, Ok (VObj (head ++ [(txt "children", VList ks)])))))
          else (st3, Ok (VObj head)))))
      end.
Proof. reflexivity. Qed.
Lemma dumpKids_S g st par cur : kids (S g) st par cur =
      match cur with
      | None => (st, Ok [])
      | Some c =>
          sbind (dump g st c) (fun st1 v =>
          sbind (nextSib u dec g st1 c (Some par)) (fun st2 nxt =>
          sbind (kids g (fixParent st2 nxt par) par nxt) (fun st3 l => (st3, Ok (v :: l)))))
      end.
Proof. reflexivity. Qed.

Lemma refs_ents n : forall o p, In p (refs ents n o) -> ents p <> None.
Proof.
  assert (A : forall e a p, asDie ents e a = Ok (Some p) -> ents p <> None).
  { intros e a p. unfold asDie. destruct a as [[form v]|]; [|discriminate]. destruct v; try discriminate.
    destruct (form =? 16); [destruct (ents w) eqn:E; [|discriminate]; intros Q; injection Q as <-; congruence|].
    destruct ((form =? 21) || (form =? 17) || (form =? 18) || (form =? 19) || (form =? 20)); [|discriminate].
    cbv zeta. destruct (ents (u64 (w + eUnit e))) eqn:E; [|discriminate]. intros Q. injection Q as <-. congruence. }
  induction n as [|n IH]; intros o p; cbn [refs]; [intros []|]. destruct (ents o) as [e|]; [|intros []]. destruct (ownAttr e 3); [intros []|].
  assert (Spec : In p (match asDie ents e (ownAttr e 71) with Ok (Some q) => if q =? o then [q] else q :: refs ents n q | _ => [] end) -> ents p <> None).
  { destruct (asDie ents e (ownAttr e 71)) as [[q|]| | |] eqn:E; try (intros []). apply A in E. destruct (q =? o); cbn [In]; intros [<-|Q]; [exact E|destruct Q|exact E|eapply IH; exact Q]. }
  cbv zeta. destruct (asDie ents e (ownAttr e 49)) as [[q|]| | |] eqn:E; try (intros []); [|exact Spec]. apply A in E.
  destruct (q =? o); cbn [In]; intros [<-|Q]; eauto.
Qed.
Lemma follow_ok st o : Inv dec rt st -> let st' := follow u dec ents nf st o in Inv dec rt st' /\ grows st st'.
Proof.
  intros I. cbv zeta. unfold follow. pose proof (refs_ents nf o) as H. revert st I H. induction (refs ents nf o) as [|p l IH]; intros st I H; cbn [fold_left]; [split; [exact I|apply grows_refl]|].
  assert (G : let s := fst (offToDie u dec st None p) in Inv dec rt s /\ grows st s).
  { cbv zeta. destruct (ents p) as [e|] eqn:E; [|exfalso; apply (H p); [now left|exact E]].
    destruct (Z_le_dec base p) as [L1|L1]; [destruct (Z_lt_dec p fin) as [L2|L2]|].
    - destruct HE as (_ & _ & H3). destruct (H3 p e E ltac:(lia)) as (x & Ix). pose proof (proj2 (sub_toNode f ds root t _) (ex_intro _ p (ex_intro _ x (conj Ix eq_refl)))) as S.
      destruct (offToDie_node u dec rt W st None (toNode f ds p x) I S (or_introl eq_refl)) as (st1 & E1 & I1 & G1 & _). rewrite noff_toNode in E1. rewrite E1. auto.
    - unfold offToDie. replace ((p =? 0) || (p <? dOffset u) || (dEnd u <=? p)) with true by (cbn [u unitOf dOffset dEnd]; lia). split; [exact I|apply grows_refl].
    - unfold offToDie. replace ((p =? 0) || (p <? dOffset u) || (dEnd u <=? p)) with true by (cbn [u unitOf dOffset dEnd]; lia). split; [exact I|apply grows_refl]. }
  cbv zeta in G. destruct G as [I1 G1]. destruct (IH _ I1) as [I2 G2]; [intros q Q; apply H; now right|]. split; [exact I2|eapply grows_trans; eauto].
Qed.

(** ** Attributes *)
Lemma attrs_ok c vs ks d off rest nx first : declOf ds c = Some d -> wfT f ds base off (DT c vs ks) ->
  at_ info off (encodeT f ds (DT c vs ks) ++ rest) ->
  Forall (fun a => let '(n, o, v) := a in (exists s, called stdAttrs n s) /\ (exists s, called stdForms (formOfA v) s) /\ showableValue info str lineStr alt sx f base n o v) (attrsAt f (off + zlen (uleb c)) (sdAttrs d) vs) ->
  exists attrs ms j, Permutation attrs (attrsAt f (off + zlen (uleb c)) (sdAttrs d) vs) /\ Forall2 (attrDoc info str lineStr alt sx f base) attrs ms /\
    dumpAttrs info str lineStr alt sx sc ue (entryOf u (mkRaw (abbrevOf d) (valsAt f (off + zlen (uleb c)) vs) 0 first nx)) = Ok j /\ means j (XObj ms).
Proof.
  intros D WT A SH. pose proof U as [Uf Ud Ub Ul Ubs Ufn Ut Us _].
  set (e := entryOf u _).
  inversion WT as [? ? ? ? d' D' V K L]; subst. assert (d' = d) by congruence. subst d'. clear D'.
  assert (Hlen : off + zlen (uleb c) + zlen (flat_map (encodeA f) vs) <= zlen info).
  { pose proof A as A'. apply at_app in A' as [A' _]. apply at_len in A'; [|cbn [encodeT]; pose proof (uleb_ne c); destruct (uleb c); [congruence|discriminate]].
    cbn [encodeT] in A'. rewrite !zlen_app in A'. pose proof (zlen_nonneg (if hasKids ds c then flat_map (encodeT f ds) ks ++ [0] else [])). lia. }
  pose proof A as [A0 _]. cbn [encodeT] in A. rewrite <- !app_assoc in A. apply at_app in A as [_ A]. pose proof (zlen_nonneg (uleb c)).
  set (R := fun (ni : Z * Z) (a : Z * Z * aval) => let '(n, o, v) := a in fst ni = n /\ (exists im, znth (snd ni) (eAttrs e) = Some (n, formOfA v, im)) /\ znth (snd ni) (eVals e) = Some (valueOf o v) /\
      wfA f v /\ (forall s, v = AString s -> stringAt info o s) /\ 0 <= o /\ o + zlen (encodeA f v) < W64 /\ (exists s, called stdAttrs n s) /\ (exists s, called stdForms (formOfA v) s) /\ showableValue info str lineStr alt sx f base n o v).
  assert (F : Forall2 R (nameIdx 0 (eAttrs e)) (attrsAt f (off + zlen (uleb c)) (sdAttrs d) vs)).
  {
    change (eAttrs e) with (sdAttrs d). cbn [eVals e entryOf rVals].
    assert (Gen : forall a2 v2, Forall2 (fun a v => snd (fst a) = formOfA v /\ (forall x, v = AImplicit x -> x = snd a) /\ wfA f v /\ sibOk base (off + zlen (encodeT f ds (DT c vs ks))) a v) a2 v2 ->
       forall o2 rest2, 0 <= o2 -> o2 + zlen (flat_map (encodeA f) v2) <= zlen info -> at_ info o2 (flat_map (encodeA f) v2 ++ rest2) ->
       Forall (fun a => let '(n, o, v) := a in (exists s, called stdAttrs n s) /\ (exists s, called stdForms (formOfA v) s) /\ showableValue info str lineStr alt sx f base n o v) (attrsAt f o2 a2 v2) ->
       forall a1 w1, zlen a1 = zlen w1 -> eAttrs e = a1 ++ a2 -> eVals e = w1 ++ valsAt f o2 v2 -> Forall2 R (nameIdx (zlen a1) a2) (attrsAt f o2 a2 v2)).
    { clear SH A Hlen. induction 1 as [|[[n fm] im] v a2 v2 (Q1 & Q2 & Q3 & Q4) _ IH]; intros o2 rest2 Ho Hl A SH a1 w1 Z Ea Ev; cbn [nameIdx attrsAt]; [constructor|].
      cbn [flat_map valsAt fst snd attrsAt] in *. rewrite zlen_app in Hl. pose proof (zlen_nonneg (encodeA f v)). pose proof (zlen_nonneg (flat_map (encodeA f) v2)). inversion SH as [|? ? S1 S2]; subst.
      rewrite <- app_assoc in A. pose proof A as A'. apply at_app in A as [A1 A2]. constructor.
      - unfold R. cbn [fst snd]. destruct S1 as (S1 & S3 & S4). split; [reflexivity|]. split; [exists im; rewrite Ea; apply znth_app_zlen|]. split; [rewrite Ev, Z; apply znth_app_zlen|]. split; [exact Q3|].
        split; [|split; [exact Ho|split; [unfold W64 in *; lia|auto]]]. intros s ->. cbn [encodeA wfA] in *. destruct A1 as [_ [rr A1]]. exists (ztake o2 info), rr. split; [|split; [|exact Q3]].
        + rewrite <- A1. symmetry. apply ztake_zdrop.
        + rewrite zlen_ztake by lia. lia.
      - replace (zlen a1 + 1) with (zlen (a1 ++ [(n, formOfA v, im)])) by (rewrite zlen_app; reflexivity).
        apply (IH (o2 + zlen (encodeA f v)) rest2 ltac:(lia) ltac:(lia) A2 S2 _ (w1 ++ [valueOf o2 v])).
        + rewrite !zlen_app, Z. reflexivity.
        + rewrite <- app_assoc. exact Ea.
        + rewrite <- app_assoc. exact Ev. }
    apply (Gen _ _ V (off + zlen (uleb c)) _ ltac:(lia) Hlen A SH [] [] eq_refl eq_refl eq_refl). }
  destruct (Permutation_Forall2 (sortP_perm _) F) as (attrs & P & F'). exists attrs.
  set (g := fun ni : Z * Z => match znth (snd ni) (eAttrs e), znth (snd ni) (eVals e) with
      | Some (_, form, _), Some v => let* x := dumpAttr info str lineStr alt sx sc ue e (fst ni) form v in Ok (attrKey (fst ni), x)
      | _, _ => UB end).
  assert (G : forall l a, Forall2 R l a -> exists js ms, Forall2 (attrDoc info str lineStr alt sx f base) a ms /\ dumpAll g l = Ok js /\ meanM js ms).
  { induction 1 as [|[n i] [[n' o] v] l a HR _ IH]; [exists [], []; repeat split; constructor|]. destruct IH as (js & ms & I1 & I2 & I3).
    unfold R in HR. cbn [fst snd] in HR. destruct HR as (-> & (im & Z1) & Z2 & Q3 & Q4 & Q5 & Q6 & (ka & S1) & (fs & S2) & (x & S3)).
    destruct (value_ok info str lineStr alt sx sc ue f e n' o v x Uf Q3 S3 Q4 Q5 Q6) as (j & J1 & J2).
    exists ((ka, VObj [(txt "form", VStr fs); (txt "value", j)]) :: js), ((ka, XObj [(lit "form", XStr fs); (lit "value", x)]) :: ms). split; [|split].
    - constructor; [|exact I1]. unfold attrDoc. cbn [fst snd]. split; [exact S1|]. exists fs, x. auto.
    - assert (Eg : g (n', i) = Ok (ka, VObj [(txt "form", VStr fs); (txt "value", j)])).
      { unfold g. cbn [fst snd]. rewrite Z1, Z2. unfold dumpAttr. rewrite J1. cbn [bind]. now rewrite (attr_std _ _ S1), (form_std _ _ S2). }
      cbn [dumpAll]. rewrite Eg. cbn [bind]. rewrite I2. reflexivity.
    - apply mmCons; [eapply attrs_plain; exact S1| |exact I3]. apply mObj. apply mmCons; [lits|apply mStr; eapply forms_plain; exact S2|]. apply mmCons; [lits|exact J2|constructor]. }
  destruct (G _ _ F') as (js & ms & G1 & G2 & G3). exists ms, (VMap js). split; [symmetry; exact P|]. split; [exact G1|]. split; [|now apply mMap].
  unfold dumpAttrs. fold g. rewrite G2. reflexivity.
Qed.

(** ** Entries *)
Lemma tree_sub o x : inTree f ds root t o x -> sub (toNode f ds o x) rt.
Proof. intros I. apply sub_toNode. eauto. Qed.
Lemma entry_raw st o x : Inv dec rt st -> inTree f ds root t o x -> stored st (toNode f ds o x) ->
  exists r d rest nx first, st o = Some r /\ declOf ds (tCode x) = Some d /\ rAbbrev r = abbrevOf d /\
    entryOf u r = entryOf u (mkRaw (abbrevOf d) (valsAt f (o + zlen (uleb (tCode x))) (tVals x)) 0 first nx) /\
    wfT f ds base o x /\ at_ info o (encodeT f ds x ++ rest).
Proof.
  intros I Hx St. pose proof U as [Uf Ud Ub Ul Ubs Ufn Ut Us _].
  destruct (unit_at f base fin root ds t info U _ (le_n _)) as [post A].
  destruct (at_in f ds base root t o x info post Ut Hx A) as [rest A'].
  assert (S : Forall (offsetSmall f) (tVals x)).
  { assert (S : allVals (offsetSmall f) x); [|now inversion S]. clear -Us Hx. induction Hx as [off t|off t ko k o x K _ IH]; [exact Us|]. apply IH.
    inversion K as [? ? l1 ? l2 E]; subst. inversion Us as [? ? ? _ F]; subst. cbn [tKids] in E. subst. rewrite Forall_forall in F. apply F. apply in_or_app. right. now left. }
  pose proof (wfT_in _ _ _ _ _ _ _ Hx Ut) as WT.
  destruct (decode_at info Ub Ul f base fin root Uf ds Ud o x rest ltac:(lia) WT S A') as (d & nx & D & E & _).
  unfold stored in St. rewrite noff_toNode in St. destruct (st o) as [r|] eqn:Er; [|congruence].
  destruct (proj1 I _ _ Er) as (m & r0 & _ & _ & D0 & R1 & R2 & _). fold u in E. fold dec in E. rewrite E in D0. injection D0 as <-. cbn [rAbbrev rVals] in *.
  exists r, d, rest, nx, (if hasKids ds (tCode x) then o + headLen f x else 0). split; [reflexivity|]. split; [exact D|]. split; [exact R1|]. split; [|auto].
  unfold entryOf. rewrite R1, R2. reflexivity.
Qed.
Lemma parent_ok g st o x par : Inv dec rt st -> inTree f ds root t o x -> stored st (toNode f ds o x) ->
  (o = root /\ par = 0) \/ (exists px, inTree f ds root t par px /\ kidAt f ds par px o x /\ parentField st o <> 0) ->
  getParent u dec g st o = (st, Ok par).
Proof.
  intros I Hx St P. unfold getParent. destruct P as [[-> ->]|(px & Hp & K & NZ)].
  - change (dRoot u) with root. rewrite Z.eqb_refl, andb_false_r. f_equal. f_equal.
    assert (toNode f ds root x = rt) as Ex. { apply (uniq u dec rt _ _ W); [now apply tree_sub|constructor|]. unfold rt. now rewrite !noff_toNode. }
    rewrite Ex in St. pose proof (root_no_parent u dec rt W st I St) as Q. unfold rt in Q. now rewrite noff_toNode in Q.
  - replace (parentField st o =? 0) with false by lia. cbn [andb]. f_equal. f_equal.
    pose proof (parent_true u dec rt W st (toNode f ds o x) I (tree_sub _ _ Hx) St) as Q. rewrite noff_toNode in Q. destruct (Q NZ) as (q & Sq & Kq & ->).
    destruct (kid_node f ds par px o x K) as (l1 & l2 & N).
    rewrite (parent_uniq u dec rt (toNode f ds o x) q (toNode f ds par px) W Sq (tree_sub _ _ Hp) Kq); [now rewrite noff_toNode|].
    rewrite N. apply in_or_app. right. now left.
Qed.

Definition PD (fuel : nat) : Prop := forall st o x par, Inv dec rt st -> inTree f ds root t o x -> stored st (toNode f ds o x) ->
  (o = root /\ par = 0) \/ (exists px, inTree f ds root t par px /\ kidAt f ds par px o x /\ parentField st o <> 0) ->
  (3 * nsize (toNode f ds o x) <= fuel)%nat ->
  exists st' v d, dump fuel st o = (st', Ok v) /\ means v d /\ treeDoc info str lineStr alt sx ents f ds base par o x d /\ Inv dec rt st' /\ grows st st'.
Definition PDK (fuel : nat) : Prop := forall st p x l1 l2 off, Inv dec rt st -> inTree f ds root t p x -> tKids x = l1 ++ l2 ->
  off = p + headLen f x + zlen (flat_map (encodeT f ds) l1) -> stored st (toNode f ds p x) ->
  (forall y r, toNodes f ds off l2 = y :: r -> known st y) -> (3 * lsize (toNodes f ds off l2) + 1 <= fuel)%nat ->
  exists st' vs xs, kids fuel st p (hdo (toNodes f ds off l2)) = (st', Ok vs) /\ meanL vs xs /\ kidsDoc info str lineStr alt sx ents f ds base p off l2 xs /\ Inv dec rt st' /\ grows st st'.
Lemma toNodes_app a : forall b o, toNodes f ds o (a ++ b) = toNodes f ds o a ++ toNodes f ds (o + zlen (flat_map (encodeT f ds) a)) b.
Proof.
  induction a as [|k a IH]; intros b o; cbn [app toNodes flat_map].
  - change (zlen (@nil Z)) with 0. now rewrite Z.add_0_r.
  - rewrite IH, zlen_app, Z.add_assoc. reflexivity.
Qed.
Lemma tree_ok fuel : PD fuel /\ PDK fuel.
Proof.
  induction fuel as [|g [HD HK]].
  - split.
    + intros st o x par _ _ _ _ Hf. rewrite nsize_eq in Hf. lia.
    + intros st p x l1 l2 off _ _ _ _ _ _ Hf. lia.
  - split.
    + intros st o x par I Hx St P Hf. rewrite dumpDie_S.
      destruct (entry_raw st o x I Hx St) as (r & d & rest & nx & first & Er & D & Ra & Ee & WT & A). rewrite Er. cbv zeta.
      destruct (follow_ok st o I) as [I1 G1]. set (st1 := follow u dec ents nf st o) in *.
      destruct (HN o x Hx) as (nm & nt & N1 & N2 & N3). rewrite N3. cbn [sbind].
      assert (St1 : stored st1 (toNode f ds o x)) by (apply G1, St).
      assert (P1 : (o = root /\ par = 0) \/ (exists px, inTree f ds root t par px /\ kidAt f ds par px o x /\ parentField st1 o <> 0)).
      { destruct P as [P|(px & P1 & P2 & P3)]; [now left|right]. exists px. rewrite (proj2 G1) by exact P3. auto. }
      rewrite (parent_ok g st1 o x par I1 Hx St1 P1). cbn [sbind].
      pose proof (tree_sub o x Hx) as Sx. destruct (sub_range u dec _ _ Sx W) as [R1 R2]. unfold rt in R1, R2. rewrite !noff_toNode in R1. rewrite !nfin_toNode in R2.
      destruct (HS o x Hx) as (d' & D' & (tg & T) & SH & _). assert (d' = d) by congruence. subst d'.
      pose proof U as [Uf Ud Ub Ul Ubs Ufn Ut Us _].
      destruct x as [c vs ks]. cbn [tCode tVals] in *.
      destruct (attrs_ok c vs ks d o rest nx first D WT A SH) as (attrs & ms & j & A1 & A2 & A3 & A4). rewrite Ee, A3. cbn [sbind].
      change (eTag (entryOf u _)) with (sdTag d). pose proof (tag_shown _ _ T) as Tm.
      assert (Hin : o + zlen (encodeT f ds (DT c vs ks)) <= zlen info).
      { apply at_app in A as [A _]. apply at_len in A; [exact A|]. cbn [encodeT]. pose proof (uleb_ne c). destruct (uleb c); [congruence|discriminate]. }
      pose proof (zlenT_pos f ds (DT c vs ks)) as Zp. unfold W64 in Ul.
      assert (Pb : 0 <= par < 2 ^ 64).
      { destruct P as [[_ ->]|(px & Hp & _)]; [lia|]. destruct (sub_range u dec _ _ (tree_sub _ _ Hp) W) as [Q1 Q2]. unfold rt in Q1, Q2. rewrite !noff_toNode in Q1. rewrite !nfin_toNode in Q2.
        destruct (unit_at f base fin root ds t info U _ (le_n _)) as [post At]. apply at_app in At as [At _]. pose proof (zlenT_pos f ds px).
        apply at_len in At; [lia|]. pose proof (zlenT_pos f ds t). destruct (encodeT f ds t); [cbn in *; lia|discriminate]. }
      assert (Mh : meanM [(txt "name", VStr nm); (txt "type", tagJ (sdTag d)); Dump.nf "cuOffset" (u64 (o - dOffset u)); Dump.nf "offset" o; Dump.nf "parent" par; (txt "attributes", j)]
         [(lit "name", XStr nt); (lit "type", tg); (lit "cuOffset", XNum (o - base)); (lit "offset", XNum o); (lit "parent", XNum par); (lit "attributes", XObj ms)]).
      { unfold Dump.nf. change (dOffset u) with base. rewrite u64_id by (unfold isU64, W64; lia).
        repeat apply mmCons; try apply mmNil; try lits; [now apply mStr|exact Tm|apply mInt; lia|apply mInt; lia|apply mInt; lia|exact A4]. }
      rewrite Ra. cbn [abbrevOf abKids]. destruct (sdKids d) eqn:SK.
      * destruct (first_ok u dec rt W st1 _ I1 Sx St1) as (st4 & E4 & F4). rewrite noff_toNode in *. rewrite E4. cbn [sbind]. cbv zeta in F4.
        rewrite nkids_toNode in *. cbn [tKids] in *. set (st5 := fixParent st4 _ o) in *. destruct F4 as (I5 & G5 & Y5 & _).
        destruct (HK st5 o (DT c vs ks) [] ks (o + headLen f (DT c vs ks)) I5 Hx eq_refl) as (st6 & vs6 & xs & E6 & M6 & K6 & I6 & G6).
        { cbn [flat_map]. change (zlen (@nil Z)) with 0. lia. } { apply G5, St1. } { intros y r' Q. exact (Y5 y r' Q). }
        { rewrite nsize_eq, nkids_toNode in Hf. cbn [tKids] in Hf. lia. }
        rewrite E6. cbn [sbind]. eexists _, _, _. split; [reflexivity|]. split; [|split; [eapply (TreeDoc _ _ _ _ _ ents f ds base par o c vs ks d nm nt tg attrs ms xs); eassumption|]].
        { rewrite SK. apply mObj. unfold Dump.nf in *. cbn [app].
          inversion Mh as [|? ? ? ? ? ? X1 X2 Mh1]; subst. inversion Mh1 as [|? ? ? ? ? ? X3 X4 Mh2]; subst. inversion Mh2 as [|? ? ? ? ? ? X5 X6 Mh3]; subst.
          inversion Mh3 as [|? ? ? ? ? ? X7 X8 Mh4]; subst. inversion Mh4 as [|? ? ? ? ? ? X9 X10 Mh5]; subst. inversion Mh5 as [|? ? ? ? ? ? X11 X12 Mh6]; subst.
          repeat (apply mmCons; [assumption|assumption|]). apply mmCons; [lits|now apply mList|constructor]. }
        { split; [exact I6|]. eapply grows_trans; [exact G1|]. eapply grows_trans; eauto. }
      * assert (ks = []) as -> by (inversion WT as [? ? ? ? d2 D2 _ K2 _]; subst; assert (d2 = d) by congruence; subst; auto).
        eexists _, _, _. split; [reflexivity|]. split; [|split; [eapply (TreeDoc _ _ _ _ _ ents f ds base par o c vs [] d nm nt tg attrs ms []); try eassumption; constructor|split; [exact I1|exact G1]]].
        rewrite SK, app_nil_r. now apply mObj.
    + intros st p x l1 l2 off I Hp K Ho St Hy Hf. rewrite dumpKids_S. destruct l2 as [|k r]; cbn [toNodes hdo].
      { exists st, [], []. split; [reflexivity|]. split; [constructor|]. split; [constructor|]. split; [exact I|apply grows_refl]. }
      pose proof (Hy _ _ eq_refl) as Kx. cbn [toNodes lsize fold_right] in Hf. fold (lsize (toNodes f ds (off + zlen (encodeT f ds k)) r)) in Hf.
      assert (Kid : kidAt f ds p x off k) by (rewrite Ho; now apply (kidAt_mid f ds p x l1 k r)).
      pose proof (inTree_kid _ _ _ _ _ _ _ _ Hp Kid) as Hk. rewrite noff_toNode.
      destruct (HD st off k p I Hk (proj1 Kx)) as (st1 & v & d & E1 & M1 & T1 & I1 & G1).
      { right. exists x. split; [exact Hp|]. split; [exact Kid|]. pose proof (proj2 Kx) as Q. now rewrite noff_toNode in Q. } { lia. }
      rewrite E1. cbn [sbind].
      assert (N : nkids (toNode f ds p x) = toNodes f ds (p + headLen f x) l1 ++ toNode f ds off k :: toNodes f ds (off + zlen (encodeT f ds k)) r).
      { rewrite nkids_toNode, K, toNodes_app, <- Ho. reflexivity. }
      pose proof (tree_sub p x Hp) as Sp.
      destruct (proj1 (nav_ok u dec rt W g) st1 _ _ _ _ I1 Sp N) as (st2 & E2 & I2 & G2 & Y2 & _); [apply G1, Kx|apply G1, St|lia|].
      rewrite !noff_toNode in E2. rewrite E2. cbn [sbind].
      set (rn := toNodes f ds (off + zlen (encodeT f ds k)) r) in *.
      assert (X3 : let st3 := fixParent st2 (hdo rn) p in Inv dec rt st3 /\ grows st2 st3 /\ (forall y r', rn = y :: r' -> known st3 y)).
      { destruct rn as [|y r']; cbn [hdo].
        - cbn. split; [exact I2|]. split; [apply grows_refl|discriminate].
        - destruct (fixParent_ok u dec rt W st2 (toNode f ds p x) y I2 Sp) as (J1 & J2 & J3 & J4).
          + rewrite N. apply in_or_app. right. right. now left.
          + now apply (Y2 y r').
          + cbv zeta in *. rewrite noff_toNode in *. split; [exact J1|]. split; [exact J2|]. intros y0 r0 X. injection X as <- <-. split; [|exact J4]. apply J2. now apply (Y2 y r'). }
      cbv zeta in X3. destruct X3 as (I3 & G3 & Y3).
      assert (G03 : grows st (fixParent st2 (hdo rn) p)) by (eapply grows_trans; [exact G1|]; eapply grows_trans; eauto).
      destruct (HK (fixParent st2 (hdo rn) p) p x (l1 ++ [k]) r (off + zlen (encodeT f ds k)) I3 Hp) as (st4 & vs4 & xs & E4 & M4 & K4 & I4 & G4).
      { rewrite <- app_assoc. exact K. } { rewrite flat_map_app, zlen_app, Ho. cbn [flat_map]. rewrite app_nil_r. lia. } { apply G03, St. } { exact Y3. } { fold rn. assert (1 <= nsize (toNode f ds off k))%nat by (rewrite nsize_eq; lia). lia. }
      fold rn in E4. rewrite E4. cbn [sbind]. exists st4, (v :: vs4), (d :: xs). split; [reflexivity|]. split; [now constructor|]. split; [now constructor|]. split; [exact I4|].
      eapply grows_trans; eauto.
Qed.
Lemma dumpTree_ok fuel st : Inv dec rt st -> (3 * List.length info <= fuel)%nat ->
  exists v d, snd (dumpTree info str lineStr alt sx sc ue u dec ents nf fuel st) = Ok v /\ means v d /\ treeDoc info str lineStr alt sx ents f ds base 0 root t d.
Proof.
  intros I Hf. unfold dumpTree. assert (Hr : inTree f ds root t root t) by constructor. pose proof (tree_sub _ _ Hr) as S.
  destruct (offToDie_node u dec rt W st None _ I S (or_introl eq_refl)) as (st1 & E1 & I1 & _ & S1 & _). rewrite noff_toNode in E1. change (dRoot u) with root. rewrite E1. cbn [sbind].
  destruct (proj1 (tree_ok fuel) st1 root t 0 I1 Hr S1 (or_introl (conj eq_refl eq_refl))) as (st2 & v & d & E2 & M & T & _).
  { apply (rt_fuel f base fin root ds t info U fuel Hf). exact S. }
  exists v, d. rewrite E2. auto.
Qed.
End Dump.
