(** Properties C25-C28, C59, C60: debugging information entries. *)
From Verif Require Import Base DwarfReader CfiSpec CfiProofs LinesSpec Die DieSpec DieProofs DieNav DieTree DieHist DieAttr DieAttrSpec DieAttrProofs.
From Coq Require Import Permutation.

(** ** C59: decoding *)
Lemma at_in f ds base off t o x data rest : wfT f ds base off t -> inTree f ds off t o x -> at_ data off (encodeT f ds t ++ rest) -> exists rest', at_ data o (encodeT f ds x ++ rest').
Proof.
  intros W H. revert rest W. induction H as [off t|off t ko k o x K _ IH]; intros rest W A; [eauto|].
  inversion K as [? ? l1 ? l2 E]; subst.
  assert (Q : hasKids ds (tCode t) = true).
  { destruct (hasKids ds (tCode t)) eqn:Q; [reflexivity|]. rewrite (wfT_kids _ _ _ _ _ W Q) in E. destruct l1; discriminate. }
  rewrite encodeT_split, Q, E, flat_map_app in A. cbn [flat_map] in A. rewrite <- app_assoc in A. apply at_app in A as [_ A].
  rewrite <- !app_assoc in A. apply at_app in A as [_ A].
  eapply (IH _ (wfT_in _ _ _ _ _ _ _ (InKid _ _ _ _ _ _ _ _ K (InHere _ _ _ _)) W)). exact A.
Qed.
(** [adata] holds the declarations [ds] at [zlen apre]; [data] holds the unit's tree [t] at [root].
    The table loaded from the declarations lets every entry of the tree be decoded: its values are
    those encoded, its first child is where its attributes end, and what follows it is at the end of
    its encoding, if it has no children, or else is not known or there.
    Partial: section offsets (strp, sec_offset, ...) below half their range, see
    [C59_large_offset_refuted], and the forms of [wfA], see [C59_form_refuted]. *)
Theorem C59_entries_decoded_partial : forall f base fin root ds t data adata apre apost fuel o x,
  unitAt f base fin root ds t data ->
  adata = apre ++ encodeDecls ds ++ apost -> zlen adata + 32 < W64 -> (length adata < fuel)%nat ->
  inTree f ds root t o x ->
  exists table d nx,
    loadAbbrevs fuel adata (zlen apre) [] = Ok table /\
    declOf ds (tCode x) = Some d /\
    decode data (unitOf f base fin root) table o =
      Ok (DRaw (mkRaw (mkAbbrev (sdTag d) (sdKids d) (sdAttrs d)) (valsAt f (o + zlen (uleb (tCode x))) (tVals x)) 0
                      (if sdKids d then o + headLen f x else 0) nx)) /\
    (if sdKids d then nx = 0 \/ nx = o + zlen (encodeT f ds x) else nx = o + zlen (encodeT f ds x)).
Proof.
  intros f base fin root ds t data adata apre apost fuel o x U Ea Hl Hf Hx.
  assert (L : loadAbbrevs fuel adata (zlen apre) [] = Ok (tableOf ds)).
  { change (tableOf ds) with ([] ++ tableOf ds). apply (loadAbbrevs_at adata Hl ds fuel (zlen apre) apost []); [|apply U|].
    - rewrite Ea, !app_length in Hf. lia.
    - rewrite Ea. apply at_pre. }
  assert (A : exists post, at_ data root (encodeT f ds t ++ post)) by (destruct (uData _ _ _ _ _ _ _ U) as (pre & post & -> & <-); exists post; apply at_pre). destruct A as [post A]. pose proof U as [Uf Ud Ub Ul Ubs Ufn Ut Us _].
  destruct (at_in _ _ base _ _ _ _ _ _ Ut Hx A) as [rest A'].
  assert (S : Forall (offsetSmall f) (tVals x)).
  { assert (S : allVals (offsetSmall f) x); [|now inversion S]. clear -Us Hx. induction Hx as [off t|off t ko k o x K _ IH]; [exact Us|]. apply IH.
    inversion K as [? ? l1 ? l2 E]; subst. inversion Us as [? ? ? _ F]; subst. cbn [tKids] in E. subst. rewrite Forall_forall in F. apply F. apply in_or_app. right. now left. }
  destruct (decode_at data Ub Ul f base fin root Uf ds Ud o x rest ltac:(lia) (wfT_in _ _ _ _ _ _ _ Hx Ut) S A') as (d & nx & D & E & N).
  exists (tableOf ds), d, nx. split; [exact L|]. split; [exact D|]. unfold hasKids in E, N. rewrite D in E, N. split; [exact E|exact N].
Qed.
Print Assumptions C59_entries_decoded_partial.

(** A 32-bit DWARF 4 unit: declarations of a unit, a subprogram with a sibling attribute, a variable. *)
Definition C59_fmt : fmt := mkFmt 4 4 8.
Definition C59_decls : list sdecl :=
  [mkDecl 1 0x11 true [(0x03, 0x08, 0); (0x11, 0x01, 0)]; mkDecl 2 0x2e true [(0x01, 0x13, 0); (0x03, 0x0e, 0)];
   mkDecl 3 0x34 false [(0x02, 0x18, 0); (0x1c, 0x21, -5)]].
Definition C59_var (b : Z) : dtree := DT 3 [ABlock 0x18 [0x91; b]; AImplicit (-5)] [].
Definition C59_tree : dtree :=
  DT 1 [AString [97]; AAddr 4096] [DT 2 [AFixed 0x13 4 40; AOffset 0x0e 77] [C59_var 1; C59_var 2]; C59_var 3; DT 2 [AFixed 0x13 4 54; AOffset 0x0e 78] []].
Definition C59_data : list Z := repeat 0 11 ++ encodeT C59_fmt C59_decls C59_tree ++ [9; 9].
Lemma C59_unit : unitAt C59_fmt 0 61 11 C59_decls C59_tree C59_data.
Proof.
  split.
  - unfold wfFmt. cbn. lia.
  - repeat constructor; cbn; lia.
  - assert (F : forallb (fun b => (0 <=? b) && (b <? 256)) C59_data = true) by reflexivity. rewrite forallb_forall in F. apply Forall_forall.
    intros b Hb. specialize (F b Hb). unfold isByte. lia.
  - reflexivity.
  - lia.
  - vm_compute. discriminate.
  - assert (V : forall off b, isByte b -> wfT C59_fmt C59_decls 0 off (C59_var b)).
    { intros off b _. econstructor; [reflexivity| |auto|constructor]. cbn [sdAttrs].
      constructor; [|constructor; [|constructor]]; (split; [reflexivity|]); (split; [intros y Hy; try discriminate Hy; injection Hy as <-; reflexivity|]); (split; [cbn; lia|intros X; discriminate X]). }
    econstructor; [reflexivity| |discriminate|].
    + constructor; [|constructor; [|constructor]]; (split; [reflexivity|]); (split; [intros y Hy; discriminate Hy|]); (split; [|intros X; discriminate X]).
      * repeat constructor; lia.
      * cbn. lia.
    + assert (S2 : forall off x w ks, 0 <= x < 256 ^ 4 -> 0 <= w < 256 ^ 4 -> off + zlen (encodeT C59_fmt C59_decls (DT 2 [AFixed 0x13 4 x; AOffset 0x0e w] ks)) = x ->
          wfL C59_fmt C59_decls 0 (off + 9) ks -> wfT C59_fmt C59_decls 0 off (DT 2 [AFixed 0x13 4 x; AOffset 0x0e w] ks)).
      { intros off x w ks Hx Hw E K. econstructor; [reflexivity| |discriminate|exact K].
        constructor; [|constructor; [|constructor]]; (split; [reflexivity|]); (split; [intros y Hy; discriminate Hy|]).
        - split; [cbn [wfA]; split; [cbn [In fixedForms]; tauto|exact Hx]|]. intros _. split; [cbn; tauto|]. rewrite E. split; [intros n y Hy; injection Hy as <- <-; lia|intros y Hy; discriminate Hy].
        - split; [cbn [wfA]; split; [cbn; tauto|split; [exact Hw|cbn; lia]]|]. intros X; discriminate X. }
      constructor; [apply S2; [lia|lia|reflexivity|]|].
      * constructor; [apply V; unfold isByte; lia|]. constructor; [apply V; unfold isByte; lia|constructor].
      * constructor; [apply V; unfold isByte; lia|]. constructor; [|constructor]. apply S2; [lia|lia|reflexivity|constructor].
  - repeat constructor; cbn; lia.
  - exists (repeat 0 11), [9; 9]. split; reflexivity.
Qed.
Example C59_nonvacuous :
  match loadAbbrevs 100 (1 :: encodeDecls C59_decls) 1 [] with
  | Ok table => decode C59_data (unitOf C59_fmt 0 61 11) table 35 =
      Ok (DRaw (mkRaw (mkAbbrev 0x34 false [(0x02, 0x18, 0); (0x1c, 0x21, -5)]) [VBlock 37 2; VWord (W64 - 5)] 0 0 39))
  | _ => False
  end.
Proof. vm_compute. reflexivity. Qed.

(** Refuted: a section offset in the upper half of its range is sign extended. *)
Theorem C59_large_offset_refuted : exists v,
  wfA C59_fmt v /\ readForm (encodeA C59_fmt v) (unitOf C59_fmt 0 61 11) 0 (formOfA v) 0 = Ok (VWord (2 ^ 64 - 2 ^ 31), 4) /\
  v = AOffset 0x17 (2 ^ 31).
Proof. eexists. split; [|split; [|reflexivity]]; [cbn; lia|reflexivity]. Qed.
Print Assumptions C59_large_offset_refuted.
(** Refuted: DW_FORM_data16, indirect, strp_sup, ref_sup4 and ref_sup8 are not read at all. *)
Theorem C59_form_refuted : forall data u off impl form, In form [0x1e; 0x16; 0x1d; 0x1c; 0x24] -> readForm data u off form impl = Throw.
Proof. intros data u off impl form H. cbn [In] in H. repeat (destruct H as [<-|H]; [reflexivity|]). destruct H. Qed.
Print Assumptions C59_form_refuted.
(** Refuted: an entry whose abbreviation code is not declared is followed through a null pointer. *)
Theorem C59_undeclared_refuted : forall data u table off code o, getuleb data off = Ok (code, o) -> code <> 0 -> findAbbrev table code = None ->
  decode data u table off = UB.
Proof. intros data u table off code o E N F. unfold decode. rewrite E. cbn [bind]. replace (code =? 0) with false by lia. now rewrite F. Qed.
Print Assumptions C59_undeclared_refuted.
(** Refuted: in a version 2 unit of 4-byte addresses, DW_FORM_ref_addr occupies 4 bytes and 8 are read. *)
Theorem C59_v2_ref_refuted : exists data, data = encodeA (mkFmt 2 4 4) (ARefAddr 0x10 100) ++ [1; 0; 0; 0] /\
  readForm data (unitOf (mkFmt 2 4 4) 0 61 11) 0 0x10 0 = Ok (VWord (100 + 2 ^ 32), 8) /\ zlen (encodeA (mkFmt 2 4 4) (ARefAddr 0x10 100)) = 4.
Proof. eexists. split; [reflexivity|]. split; reflexivity. Qed.
Print Assumptions C59_v2_ref_refuted.

(** ** C60: navigation *)
(** After any history of operations on entries of the tree, getting an entry, iterating its children
    (all at once, or step by step, nested or interrupted), and asking for its parent give the
    entries encoded as such.
    Partial: the tree is as in C59. *)
Theorem C60_navigation_partial : forall f base fin root ds t data fuel h op,
  unitAt f base fin root ds t data -> (3 * length data <= fuel)%nat ->
  Forall (validOp f ds root t) h -> validOp f ds root t op ->
  let run := runOp (unitOf f base fin root) (decode data (unitOf f base fin root) (tableOf ds)) fuel in
  let runs := runOps (unitOf f base fin root) (decode data (unitOf f base fin root) (tableOf ds)) fuel in
  exists a, snd (run (runs (fun _ => None) h) op) = Ok a /\ rightAnswer f ds root t op a.
Proof. intros. now apply nav_answers. Qed.
Print Assumptions C60_navigation_partial.
Example C60_nonvacuous :
  let u := unitOf C59_fmt 0 61 11 in let dec := decode C59_data u (tableOf C59_decls) in
  let st := runOps u dec 300 (fun _ => None) [OpAt 35; OpParent 31; OpNext 11 22] in
  validOp C59_fmt C59_decls 11 C59_tree (OpChildren 11) /\
  map (fun op => snd (runOp u dec 300 st op)) [OpChildren 11; OpChildren 22; OpChildren 40; OpParent 35; OpParent 31; OpParent 11; OpNext 22 31; OpNext 22 35; OpFirst 22]
  = [Ok (AnsList [22; 40; 44]); Ok (AnsList [31; 35]); Ok (AnsList []); Ok (AnsDie (Some 22)); Ok (AnsDie (Some 22)); Ok (AnsDie None); Ok (AnsDie (Some 35)); Ok (AnsDie None); Ok (AnsDie (Some 31))].
Proof. split; [exists C59_tree; constructor|]. vm_compute. reflexivity. Qed.

(** ** C26: attribute lookup *)
(** The lookup gives the entry's own attribute, else the one found through its abstract origin or
    specification, else nothing, whatever chain of references has to be followed.
    Partial: no entry has both kinds of reference, see [C26_second_reference_refuted]; and the chain
    ends (that is in [Lookup]), see [C26_cycle_refuted]. *)
Theorem C26_lookup_partial : forall ents name o r,
  (forall x e, ents x = Some e -> wfEntry e /\ 0 <= eUnit e) ->
  (forall x e, ents x = Some e -> hasNo e 0x31 \/ hasNo e 0x47) ->
  Lookup ents name o r ->
  exists n, forall fuel, (n <= fuel)%nat -> attribute ents fuel o name false = Ok r.
Proof. intros ents name o r W One L. exact (lookup_ok ents W name o r One L). Qed.
Print Assumptions C26_lookup_partial.
(** A local lookup does not follow references. *)
Theorem C26_local_lookup : forall ents name o e fuel,
  ents o = Some e -> wfEntry e ->
  (forall form v, has e name form v -> attribute ents (S fuel) o name true = Ok (Some (o, form, v))) /\
  (hasNo e name -> attribute ents (S fuel) o name true = Ok None).
Proof.
  intros ents name o e fuel E W. split.
  - intros form v H. cbn [attribute]. now rewrite E, (own_has _ _ _ _ W H).
  - intros H. cbn [attribute orb]. now rewrite E, (own_hasNo _ _ W H).
Qed.
Print Assumptions C26_local_lookup.
(** The order in which the abbreviation declares the attributes does not matter. *)
Theorem C26_order_independent : forall ents ents' name o e e' fuel loc,
  ents o = Some e -> ents' o = Some e' -> wfEntry e -> wfEntry e' ->
  Permutation (combine (eAttrs e) (eVals e)) (combine (eAttrs e') (eVals e')) -> eUnit e = eUnit e' ->
  (forall x, x <> o -> ents' x = ents x) ->
  attribute ents' fuel o name loc = attribute ents fuel o name loc.
Proof.
  intros ents ents' name o e e' fuel loc E E' W W' P U Same.
  assert (A : forall a, asDie ents' e' a = asDie ents e a).
  { assert (D : forall x, (match ents' x with Some _ => Ok (Some x) | None => @Throw (option Z) end) = (match ents x with Some _ => Ok (Some x) | None => Throw end)).
    { intros x. destruct (Z.eq_dec x o) as [->|N]; [now rewrite E, E'|now rewrite (Same x N)]. }
    intros [[form [w|b|b n]]|]; cbn [asDie]; try reflexivity. rewrite <- U. now rewrite !D. }
  assert (O : forall n, ownAttr e' n = ownAttr e n) by (intros n; now apply own_perm; [|apply W'|]).
  assert (G : forall fuel x loc, attribute ents' fuel x name loc = attribute ents fuel x name loc).
  { clear fuel loc. induction fuel as [|f IH]; intros x loc; [reflexivity|]. cbn [attribute]. destruct (Z.eq_dec x o) as [->|N].
    - rewrite E, E', !O, !A. destruct (ownAttr e name) as [[form v]|]; [reflexivity|]. destruct (loc || (name =? 60) || (name =? 49) || (name =? 71)); [reflexivity|].
      destruct (asDie ents e (ownAttr e 49)) as [[p|]| | |]; cbn [bind]; try reflexivity.
      + destruct (p =? o); [|apply IH]. destruct (asDie ents e (ownAttr e 71)) as [[q|]| | |]; cbn [bind]; try reflexivity. destruct (q =? o); [reflexivity|apply IH].
      + destruct (asDie ents e (ownAttr e 71)) as [[q|]| | |]; cbn [bind]; try reflexivity. destruct (q =? o); [reflexivity|apply IH].
    - rewrite (Same x N). destruct (ents x) as [ex|]; [|reflexivity]. destruct (ownAttr ex name) as [[form v]|]; [reflexivity|].
      assert (A' : forall a, asDie ents' ex a = asDie ents ex a).
      { assert (D : forall x, (match ents' x with Some _ => Ok (Some x) | None => @Throw (option Z) end) = (match ents x with Some _ => Ok (Some x) | None => Throw end)).
        { intros y. destruct (Z.eq_dec y o) as [->|Ny]; [now rewrite E, E'|now rewrite (Same y Ny)]. }
        intros [[form [w|b|b n]]|]; cbn [asDie]; try reflexivity. now rewrite !D. }
      rewrite !A'. destruct (loc || (name =? 60) || (name =? 49) || (name =? 71)); [reflexivity|].
      destruct (asDie ents ex (ownAttr ex 49)) as [[p|]| | |]; cbn [bind]; try reflexivity.
      + destruct (p =? x); [|apply IH]. destruct (asDie ents ex (ownAttr ex 71)) as [[q|]| | |]; cbn [bind]; try reflexivity. destruct (q =? x); [reflexivity|apply IH].
      + destruct (asDie ents ex (ownAttr ex 71)) as [[q|]| | |]; cbn [bind]; try reflexivity. destruct (q =? x); [reflexivity|apply IH]. }
  apply G.
Qed.
Print Assumptions C26_order_independent.

(** Three entries: 30 refers to 40 as its abstract origin, which refers to 50 as its specification. *)
Definition C26_ents (o : Z) : option entry :=
  if o =? 30 then Some (mkEntry 10 0x2e [(0x12, 0x0f, 0); (0x31, 0x13, 0); (0x11, 0x01, 0)] [VWord 5; VWord 30; VWord 4096])
  else if o =? 40 then Some (mkEntry 10 0x2e [(0x47, 0x10, 0); (0x3b, 0x0b, 0)] [VWord 50; VWord 7])
  else if o =? 50 then Some (mkEntry 45 0x2e [(0x3b, 0x0b, 0); (0x03, 0x08, 0)] [VWord 9; VWord 99])
  else None.
Lemma C26_wf : forall x e, C26_ents x = Some e -> (wfEntry e /\ 0 <= eUnit e) /\ (hasNo e 0x31 \/ hasNo e 0x47).
Proof.
  intros x e. unfold C26_ents. destruct (x =? 30); [|destruct (x =? 40); [|destruct (x =? 50); [|discriminate]]]; intros E; apply ExprProofs.Some_inj in E; subst e;
  (split; [split; [split; [reflexivity|cbn; repeat (constructor; [cbn; lia|]); constructor]|cbn; lia]|unfold hasNo; cbn; lia]).
Qed.
Example C26_nonvacuous : Lookup C26_ents 0x03 30 (Some (50, 0x08, VWord 99)) /\ Lookup C26_ents 0x49 30 None /\
  attribute C26_ents 9 30 0x3b false = Ok (Some (40, 0x0b, VWord 7)) /\ attribute C26_ents 9 30 0x11 true = Ok (Some (30, 0x01, VWord 4096)).
Proof.
  assert (R1 : refersTo C26_ents 30 0x31 40).
  { do 3 eexists. split; [reflexivity|]. split; [exists 1%nat, 0; split; reflexivity|]. split; [right; split; [cbn; tauto|reflexivity]|]. unfold W64. repeat split; try lia. discriminate. }
  assert (R2 : refersTo C26_ents 40 0x47 50).
  { do 3 eexists. split; [reflexivity|]. split; [exists 0%nat, 0; split; reflexivity|]. split; [left; split; reflexivity|]. unfold W64. repeat split; try lia. discriminate. }
  split; [|split; [|split; reflexivity]].
  - eapply LOrigin; [reflexivity|unfold hasNo; cbn; lia|unfold ownOnly; lia|exact R1|].
    eapply LSpec; [reflexivity|unfold hasNo; cbn; lia|unfold ownOnly; lia|unfold hasNo; cbn; lia|exact R2|].
    eapply LOwn; [reflexivity|]. exists 1%nat, 0. split; reflexivity.
  - eapply LOriginNone; [reflexivity|unfold hasNo; cbn; lia|unfold ownOnly; lia|exact R1|unfold hasNo; cbn; lia|].
    eapply LSpec; [reflexivity|unfold hasNo; cbn; lia|unfold ownOnly; lia|unfold hasNo; cbn; lia|exact R2|].
    eapply LNone; [reflexivity|unfold hasNo; cbn; lia|unfold ownOnly; lia|unfold hasNo; cbn; lia|unfold hasNo; cbn; lia].
Qed.
(** Refuted: where the abstract origin has no such attribute, the specification is not consulted. *)
Definition C26_both (o : Z) : option entry :=
  if o =? 30 then Some (mkEntry 10 0x2e [(0x31, 0x13, 0); (0x47, 0x13, 0)] [VWord 30; VWord 40])
  else if o =? 40 then Some (mkEntry 10 0x2e [] [])
  else if o =? 50 then Some (mkEntry 10 0x2e [(0x03, 0x08, 0)] [VWord 99]) else None.
Theorem C26_second_reference_refuted :
  Lookup C26_both 0x03 30 (Some (50, 0x08, VWord 99)) /\ forall fuel, attribute C26_both (S (S fuel)) 30 0x03 false = Ok None.
Proof.
  assert (R1 : refersTo C26_both 30 0x31 40).
  { do 3 eexists. split; [reflexivity|]. split; [exists 0%nat, 0; split; reflexivity|]. split; [right; split; [cbn; tauto|reflexivity]|]. unfold W64. repeat split; try lia. discriminate. }
  assert (R2 : refersTo C26_both 30 0x47 50).
  { do 3 eexists. split; [reflexivity|]. split; [exists 1%nat, 0; split; reflexivity|]. split; [right; split; [cbn; tauto|reflexivity]|]. unfold W64. repeat split; try lia. discriminate. }
  split; [|reflexivity].
  eapply LBoth; [reflexivity|unfold hasNo; cbn; lia|unfold ownOnly; lia|exact R1|exact R2| |].
  - eapply LNone; [reflexivity|unfold hasNo; cbn; lia|unfold ownOnly; lia|unfold hasNo; cbn; lia|unfold hasNo; cbn; lia].
  - eapply LOwn; [reflexivity|]. exists 0%nat, 0. split; reflexivity.
Qed.
Print Assumptions C26_second_reference_refuted.
(** Refuted: entries whose abstract origins refer to each other make the lookup of any attribute
    they do not have go on for ever. *)
Definition C26_loop (o : Z) : option entry :=
  if o =? 30 then Some (mkEntry 10 0x2e [(0x31, 0x13, 0)] [VWord 30])
  else if o =? 40 then Some (mkEntry 10 0x2e [(0x31, 0x13, 0)] [VWord 20]) else None.
Theorem C26_cycle_refuted : forall fuel, attribute C26_loop fuel 30 0x03 false = OutOfFuel.
Proof.
  assert (G : forall fuel, attribute C26_loop fuel 30 0x03 false = OutOfFuel /\ attribute C26_loop fuel 40 0x03 false = OutOfFuel).
  { induction fuel as [|f [A B]]; [split; reflexivity|]. split; [exact B|exact A]. }
  intros fuel. apply G.
Qed.
Print Assumptions C26_cycle_refuted.

(** ** C25: the addresses of an entry *)
(** With low_pc and high_pc, after any history, the answer is yes exactly for low <= a < high, where
    high is an address or, for a constant, a size. *)
Theorem C25_low_high : forall ents units s fuel h o e addrs lf lv hf hv start fin a,
  ents o = Some e -> wfEntry e -> unitTable s (units (eUnit e)) addrs ->
  has e 0x11 lf lv -> has e 0x12 hf hv -> addrIs addrs lf lv start -> endIs addrs start hf hv fin -> 0 <= start -> fin < W64 ->
  snd (containsAddress ents units s fuel (caHistory ents units s fuel (fun _ => None) h) o a) = Ok (if (start <=? a) && (a <? fin) then YES else NO).
Proof.
  intros. rewrite (contains_low_high ents units s fuel _ o e addrs lf lv hf hv start fin a); auto.
Qed.
Print Assumptions C25_low_high.
(** With a range list [rs], found by any lookup of DW_AT_ranges, after any history: the answer is yes
    for the addresses of the half-open ranges and no for the others.
    Partial: except where the address is the end of a range, see [C25_range_end_refuted]; DW_AT_ranges
    of form sec_offset on an entry without low_pc. *)
Theorem C25_ranges_partial : forall ents units s h o e addrs o' off rs a,
  (forall x y, ents x = Some y -> wfEntry y /\ 0 <= eUnit y) -> ents o = Some e -> (hasNo e 0x12 /\ hasNo e 0x11) ->
  (forall x y, ents x = Some y -> hasNo y 0x31 \/ hasNo y 0x47) ->
  Lookup ents 0x55 o (Some (o', 0x17, VWord off)) -> ents o' <> None ->
  unitTable s (units (eUnit e)) addrs -> rangesAre s (units (eUnit e)) addrs off (unitBase (units (eUnit e))) rs ->
  Forall (fun r => snd r <> a) rs ->
  exists n, forall fuel, (n <= fuel)%nat ->
  exists b, snd (containsAddress ents units s fuel (caHistory ents units s fuel (fun _ => None) h) o a) = Ok b /\
    b <> UNKNOWN /\ (b = YES <-> exists r, In r rs /\ fst r <= a < snd r).
Proof.
  intros ents units s h o e addrs o' off rs a W E N One L E' T R Ends.
  destruct (lookup_ok ents W 0x55 o _ One L) as [n A]. destruct (ents o') as [e'|] eqn:Eo; [|congruence].
  exists (S (Nat.max n (Nat.max (length (sRanges s)) (length (sRnglists s))))). intros fuel Hf.
  eexists. split; [apply (contains_ranges_ok ents units s fuel h o e a addrs o' e' off rs); auto; try lia; apply A; lia|].
  destruct (existsb (fun r => (fst r <=? a) && (a <=? snd r)) rs) eqn:X; (split; [discriminate|]).
  - split; [intros _|reflexivity]. apply existsb_exists in X as (r & I & Q). exists r. split; [exact I|]. rewrite Forall_forall in Ends. specialize (Ends r I). lia.
  - split; [discriminate|]. intros (r & I & Q). exfalso. assert (X' : existsb (fun r => (fst r <=? a) && (a <=? snd r)) rs = true); [|congruence].
    apply existsb_exists. exists r. split; [exact I|lia].
Qed.
Print Assumptions C25_ranges_partial.
(** Neither low_pc and high_pc nor ranges: unknown. *)
Theorem C25_unknown : forall ents units s h o e a,
  (forall x y, ents x = Some y -> wfEntry y /\ 0 <= eUnit y) -> ents o = Some e -> (hasNo e 0x12 \/ hasNo e 0x11) ->
  (forall x y, ents x = Some y -> hasNo y 0x31 \/ hasNo y 0x47) -> Lookup ents 0x55 o None ->
  exists n, forall fuel, (n <= fuel)%nat -> snd (containsAddress ents units s fuel (caHistory ents units s fuel (fun _ => None) h) o a) = Ok UNKNOWN.
Proof.
  intros ents units s h o e a W E N One L. destruct (lookup_ok ents W 0x55 o _ One L) as [n A]. exists n. intros fuel Hf.
  rewrite (contains_ranges ents units s fuel _ o e a); [now rewrite (A fuel Hf)|apply caHistory_ok; intros ? ? X; discriminate X|exact E|eapply W; eauto|tauto].
Qed.
Print Assumptions C25_unknown.

(** A version 5 unit with an address table and a range list at offset 20; entries with constant,
    address and indexed bounds, and one with the range list through its abstract origin. *)
Definition C25_addr : list Z := leBytes 4 28 ++ [5; 0; 8; 0] ++ flat_map (leBytes 8) [4096; 8192; 12288].
Definition C25_list : list rl5 := [R5Offset 0 16; R5Basex 1; R5Offset 0 32; R5StartxLen 2 8; R5StartEnd 100 200].
Definition C25_rl : list Z := repeat 0 20 ++ encodeRanges5 8 C25_list.
Definition C25_secs : secs := mkSecs (Some C25_addr) [] C25_rl.
Definition C25_units (o : Z) : uenv := mkUenv 5 8 8 12 (Some 65536).
Definition C25_ents (o : Z) : option entry :=
  if o =? 30 then Some (mkEntry 10 0x2e [(0x11, 0x01, 0); (0x12, 0x06, 0)] [VWord 4096; VWord 16])
  else if o =? 40 then Some (mkEntry 10 0x2e [(0x12, 0x29, 0); (0x11, 0x1b, 0)] [VWord 1; VWord 0])
  else if o =? 50 then Some (mkEntry 10 0x2e [(0x31, 0x13, 0)] [VWord 50])
  else if o =? 60 then Some (mkEntry 10 0x2e [(0x55, 0x17, 0)] [VWord 20])
  else if o =? 70 then Some (mkEntry 10 0x11 [] []) else None.
Example C25_nonvacuous :
  unitTable C25_secs (C25_units 10) [4096; 8192; 12288] /\
  rangesAre C25_secs (C25_units 10) [4096; 8192; 12288] 20 65536 [(65536, 65552); (8192, 8224); (12288, 12296); (100, 200)] /\
  Lookup C25_ents 0x55 50 (Some (60, 0x17, VWord 20)) /\ Lookup C25_ents 0x55 70 None /\
  map (fun q => snd (containsAddress C25_ents C25_units C25_secs 99 (fun _ => None) (fst q) (snd q))) [(30, 4095); (30, 4096); (30, 4111); (30, 4112); (40, 8191); (40, 8192); (50, 8223); (50, 65551); (50, 99); (70, 5)] =
  [Ok NO; Ok YES; Ok YES; Ok NO; Ok YES; Ok NO; Ok YES; Ok YES; Ok NO; Ok UNKNOWN].
Proof.
  assert (By : forall l, forallb (fun b => (0 <=? b) && (b <? 256)) l = true -> Forall isByte l).
  { intros l F. rewrite forallb_forall in F. apply Forall_forall. intros b Hb. specialize (F b Hb). unfold isByte. lia. }
  split; [|split; [|split; [|split]]].
  - split; [apply By; reflexivity|]. split; [reflexivity|]. exists (leBytes 4 28 ++ [5; 0]), []. split; [reflexivity|]. split; [reflexivity|]. split; [vm_compute; discriminate|].
    repeat constructor; unfold W64; lia.
  - split; [lia|]. split; [repeat constructor; cbn; unfold W64; lia|]. change (uVer (C25_units 10) <? 5) with false. cbv iota. split; [apply By; reflexivity|]. split; [reflexivity|].
    exists 8%nat, (repeat 0 20), C25_list, []. split; [reflexivity|]. split; [lia|]. split; [reflexivity|]. split; [reflexivity|].
    split; [repeat constructor; cbn; unfold isIdx, W64; cbn; lia|]. split; [repeat constructor|reflexivity].
  - eapply (LOrigin _ _ 50 _ 60); [reflexivity|unfold hasNo; cbn; lia|unfold ownOnly; lia| |].
    + do 3 eexists. split; [reflexivity|]. split; [exists 0%nat, 0; split; reflexivity|]. split; [right; split; [cbn; tauto|reflexivity]|]. unfold W64. repeat split; try lia. discriminate.
    + eapply LOwn; [reflexivity|]. exists 0%nat, 0. split; reflexivity.
  - eapply LNone; [reflexivity|unfold hasNo; cbn; lia|unfold ownOnly; lia|unfold hasNo; cbn; lia|unfold hasNo; cbn; lia].
  - vm_compute. reflexivity.
Qed.
(** Refuted: the end of a range is said to be in it (unlike that of low_pc..high_pc). *)
Theorem C25_range_end_refuted :
  rangesAre C25_secs (C25_units 10) [4096; 8192; 12288] 20 65536 [(65536, 65552); (8192, 8224); (12288, 12296); (100, 200)] /\
  snd (containsAddress C25_ents C25_units C25_secs 99 (fun _ => None) 60 8224) = Ok YES.
Proof. split; [apply C25_nonvacuous|vm_compute; reflexivity]. Qed.
Print Assumptions C25_range_end_refuted.
(** Refuted: a high_pc of a constant form other than data1-8 and udata is an error. *)
Theorem C25_constant_form_refuted : forall units s fuel form n a, In form [0x0d; 0x21; 0x1e] -> 0 <= n ->
  snd (containsAddress (fun _ => Some (mkEntry 0 0x2e [(0x11, 0x01, 0); (0x12, form, n)] [VWord 4096; VWord n])) units s fuel (fun _ => None) 30 a) = Throw.
Proof. intros units s fuel form n a F _. cbn [In] in F. destruct F as [<-|[<-|[<-|[]]]]; reflexivity. Qed.
Print Assumptions C25_constant_form_refuted.

(** ** C27: the search for the entry of an address *)
(** The search from [t] finds the first entry, in document order, of the wanted tag that covers the
    address and has no ancestor (from the start of the search) excluding it; with skipStart, the
    starting entry itself is not a candidate. *)
Theorem C27_first_enclosing : forall ents units s fuel h a want t cov (skip : bool),
  (forall o, inF o t -> snd (containsAddress ents units s fuel (fun _ => None) o a) = Ok (cov o)) ->
  snd (findEntry ents units s fuel a want (caHistory ents units s fuel (fun _ => None) h) t skip) =
    Ok (option_map snd (find (hit cov (tagOf ents) want) (if skip then tl (preorder [] t) else preorder [] t))).
Proof.
  intros ents units s fuel h a want t cov skip H.
  assert (C : cacheOk ents units s fuel (caHistory ents units s fuel (fun _ => None) h)) by (apply caHistory_ok; intros o r X; discriminate X).
  rewrite (proj1 (findEntry_search ents units s fuel a want cov t H _ skip C)).
  f_equal. destruct skip; [apply search_skip|now apply search_ok].
Qed.
Print Assumptions C27_first_enclosing.
Example C27_nonvacuous : let t := FT 70 [FT 40 [FT 60 []]; FT 60 [FT 30 []; FT 50 []]] in
  (forall o, inF o t -> exists c, snd (containsAddress C25_ents C25_units C25_secs 99 (fun _ => None) o 8200) = Ok c) /\
  snd (findEntry C25_ents C25_units C25_secs 99 8200 0x2e (fun _ => None) t false) = Ok (Some 60) /\
  snd (findEntry C25_ents C25_units C25_secs 99 8200 0x2e (fun _ => None) (FT 60 [FT 30 []; FT 50 []]) true) = Ok (Some 50) /\
  snd (findEntry C25_ents C25_units C25_secs 99 5000 0x2e (fun _ => None) t false) = Ok (Some 40).
Proof.
  cbv zeta. split.
  - intros o H. assert (I : In o [70; 40; 60; 30; 50]).
    { repeat match goal with
      | H : inF _ (FT _ _) |- _ => inversion H; subst; clear H; [cbn; tauto|]
      | H : In _ (_ :: _) |- _ => destruct H as [<-|H]
      | H : In _ [] |- _ => destruct H
      end. }
    cbn [In] in I. repeat (destruct I as [<-|I]; [eexists; vm_compute; reflexivity|]). destruct I.
  - vm_compute. repeat split; reflexivity.
Qed.

(** ** C28: range lists *)
(** The decoded list is the one DWARF defines: offsets relative to the base in force, base selection
    entries, indexed addresses, up to the end of list entry.
    Partial: version 4 lists with 8-byte addresses, see [C28_addr4_refuted]; version 5 lists without
    DW_RLE_startx_endx, see [C28_startx_endx_refuted]. *)
Theorem C28_ranges_partial : forall s u addrs off base rs fuel,
  unitTable s u addrs -> rangesAre s u addrs off base rs ->
  (length (sRanges s) < fuel)%nat -> (length (sRnglists s) < fuel)%nat ->
  ranges fuel s u off base = Ok rs.
Proof. intros s u addrs off base rs fuel T R. now apply ranges_ok with (addrs := addrs). Qed.
Print Assumptions C28_ranges_partial.
Example C28_nonvacuous :
  rangesAre (mkSecs None ([7] ++ encodeRanges4 [R4Pair 16 32; R4Base 4096; R4Pair 0 8]) []) (mkUenv 4 8 0 0 None) [] 1 256 [(272, 288); (4096, 4104)] /\
  ranges 99 (mkSecs None ([7] ++ encodeRanges4 [R4Pair 16 32; R4Base 4096; R4Pair 0 8]) []) (mkUenv 4 8 0 0 None) 1 256 = Ok [(272, 288); (4096, 4104)] /\
  ranges 99 C25_secs (C25_units 10) 20 65536 = Ok [(65536, 65552); (8192, 8224); (12288, 12296); (100, 200)].
Proof.
  split; [|split; vm_compute; reflexivity].
  split; [lia|]. split; [repeat constructor; cbn; unfold W64; lia|]. cbv zeta. change (uVer (mkUenv 4 8 0 0 None) <? 5) with true. cbv iota.
  split; [|split; [reflexivity|]].
  - match goal with |- Forall isByte ?l => assert (F : forallb (fun b => (0 <=? b) && (b <? 256)) l = true) by reflexivity; rewrite forallb_forall in F; apply Forall_forall; intros b Hb; specialize (F b Hb); unfold isByte; lia end.
  - exists [7], [R4Pair 16 32; R4Base 4096; R4Pair 0 8], []. split; [reflexivity|]. split; [reflexivity|]. split; [repeat constructor; unfold wfR4, W64; lia|reflexivity].
Qed.
(** Refuted: a version 4 list of 4-byte addresses is read as one of 8-byte addresses. *)
Theorem C28_addr4_refuted : let d := leBytes 4 16 ++ leBytes 4 32 ++ leBytes 4 0 ++ leBytes 4 0 ++ repeat 0 16 in
  ranges 99 (mkSecs None d []) (mkUenv 4 4 0 0 None) 0 256 = Ok [(256 + 16 + 32 * 2 ^ 32, 256)].
Proof. vm_compute. reflexivity. Qed.
Print Assumptions C28_addr4_refuted.
(** Refuted: a list with a DW_RLE_startx_endx entry is not decoded. *)
Theorem C28_startx_endx_refuted : forall s u base i j rest fuel, uVer u = 5 ->
  0 <= i < W64 -> 0 <= j < W64 -> sRnglists s = encodeR5 8 (R5StartxEndx i j) ++ rest -> zlen (sRnglists s) + 32 < W64 ->
  ranges (S fuel) s u 0 base = Throw.
Proof.
  intros s u base i j rest fuel V Hi Hj E Hl. unfold ranges. rewrite V. cbn [Z.ltb Z.compare Pos.compare Pos.compare_cont ranges5].
  assert (A : at_ (sRnglists s) 0 (2 :: uleb i ++ uleb j ++ rest)).
  { split; [lia|]. exists []. rewrite zdrop_neg by lia. rewrite E. cbn [encodeR5 app]. now rewrite <- app_assoc, app_nil_r. }
  apply (Cursor.rd_u8 _ Hl) in A as [E1 A]. rewrite E1. cbn [bind Z.eqb Pos.eqb].
  apply (Cursor.rd_uleb _) in A as [E2 A]; [|exact Hi]. rewrite E2. cbn [bind]. apply (Cursor.rd_uleb _) in A as [E3 A]; [|exact Hj]. rewrite E3. reflexivity.
Qed.
Print Assumptions C28_startx_endx_refuted.
