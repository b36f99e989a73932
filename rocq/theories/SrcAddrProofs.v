(** Proofs about the source of an address. *)
From Coq Require Import Ascii String.
From Verif Require Import Base DwarfReader Lines LinesSpec LinesProofs Aranges ArangesSpec ArangesProofs Die DieAttr DieAttrSpec DieAttrProofs Dump DumpUnit Props_Lines Props_Units SrcAddr SrcAddrSpec.
Open Scope Z_scope.

Section Src.
Context (arsec : option (list Z)) (aunits : list rootUnit) (roots : Z -> option Z) (ents : Z -> option entry) (units : Z -> uenv) (sc : secs).
Context (dline : option (list Z)) (se : Z -> strEnv) (verbose : bool) (nf fuel : nat).
Notation IS := (infoSource arsec aunits roots ents units sc dline se verbose nf fuel).
Notation US := (unitSource roots ents units sc dline se verbose nf fuel).
Notation SH := (srcHistory arsec aunits roots ents units sc dline se verbose nf fuel).
Lemma us_ok c u a : cacheOk ents units sc nf c ->
  snd (US c u a) = snd (US (fun _ => None) u a) /\ cacheOk ents units sc nf (fst (US c u a)).
Proof.
  intros C. unfold unitSource. destruct (roots u) as [o|]; [|split; [reflexivity|exact C]].
  pose proof (contains_pure ents units sc nf c o a C) as [P Q].
  destruct (containsAddress ents units sc nf c o a) as [c1 r1] eqn:E1. destruct (containsAddress ents units sc nf (fun _ => None) o a) as [c2 r2] eqn:E2.
  cbn [fst snd] in *. rewrite P. split; [reflexivity|exact Q].
Qed.
Lemma step_src st a : cacheOk ents units sc nf (ssRanges st) ->
  ssAr (fst (IS st a)) = fst (lookupUnit fuel arsec aunits (ssAr st) a) /\ cacheOk ents units sc nf (ssRanges (fst (IS st a))).
Proof.
  intros C. unfold infoSource. destruct (lookupUnit fuel arsec aunits (ssAr st) a) as [ar [[u|]| | |]]; cbn [fst snd ssAr ssRanges]; auto.
  pose proof (us_ok (ssRanges st) u a C) as [_ Q]. destruct (US (ssRanges st) u a) as [c r]. cbn [fst snd ssAr ssRanges] in *. auto.
Qed.
Lemma hist_src h : forall st, cacheOk ents units sc nf (ssRanges st) ->
  ssAr (SH st h) = arHistory fuel arsec aunits (ssAr st) h /\ cacheOk ents units sc nf (ssRanges (SH st h)).
Proof.
  induction h as [|a h IH]; intros st C; cbn [srcHistory arHistory]; [auto|].
  destruct (step_src st a C) as [E C1]. destruct (IH _ C1) as [E1 C2]. rewrite E1, E. auto.
Qed.
Lemma src_none h a : snd (lookupUnit fuel arsec aunits (arHistory fuel arsec aunits arState0 h) a) = Ok None ->
  snd (IS (SH srcState0 h) a) = Ok [].
Proof.
  intros L. assert (C0 : cacheOk ents units sc nf (ssRanges srcState0)) by (intros ? ? X; discriminate X).
  destruct (hist_src h srcState0 C0) as [E _]. unfold infoSource. rewrite E. cbn [srcState0 ssAr].
  destruct (lookupUnit fuel arsec aunits (arHistory fuel arsec aunits arState0 h) a) as [ar r]. cbn [snd] in L. now subst r.
Qed.
Lemma src_unit h a u : snd (lookupUnit fuel arsec aunits (arHistory fuel arsec aunits arState0 h) a) = Ok (Some u) ->
  snd (IS (SH srcState0 h) a) = snd (US (fun _ => None) u a).
Proof.
  intros L. assert (C0 : cacheOk ents units sc nf (ssRanges srcState0)) by (intros ? ? X; discriminate X).
  destruct (hist_src h srcState0 C0) as [E C]. unfold infoSource. rewrite E. cbn [srcState0 ssAr].
  destruct (lookupUnit fuel arsec aunits (arHistory fuel arsec aunits arState0 h) a) as [ar r]. cbn [snd] in L. subst r.
  pose proof (us_ok (ssRanges (SH srcState0 h)) u a C) as [P _]. destruct (US (ssRanges (SH srcState0 h)) u a) as [c r]. exact P.
Qed.
End Src.

(** ** the rows *)
Lemma matrix_last p prog : forall r, prog = [] \/ (exists q, prog = q ++ [LEndSequence]) ->
  matrix p r prog = [] \/ exists l x, matrix p r prog = l ++ [x] /\ rEnd x = true.
Proof.
  induction prog as [|i prog IH]; intros r H; [now left|]. right. destruct H as [H|(q & H)]; [discriminate|].
  destruct q as [|j q]; cbn [app] in H; injection H as -> ->.
  - cbn [matrix]. destruct r. cbn [stepLn]. exists []. eexists. split; reflexivity.
  - cbn [matrix]. destruct (stepLn p r j) as [r' row]. destruct (IH r' (or_intror (ex_intro _ q eq_refl))) as [E|(l & x & E & X)].
    + exfalso. clear -E. revert r' E. induction q as [|k q IHq]; intros r' E; cbn [app matrix] in E.
      * destruct r'. discriminate.
      * destruct (stepLn p r' k) as [r2 [o|]]; [discriminate|]. now apply IHq in E.
    + rewrite E. destruct row as [o|]; [exists (o :: l), x|exists l, x]; auto.
Qed.
Lemma agree_term m s : Forall2 agree m s -> (s = [] \/ exists l x, s = l ++ [x] /\ rEnd x = true) -> terminated m.
Proof.
  intros F [->|(l & x & -> & E)]; [inversion F; now left|]. apply Forall2_app_inv_r in F as (m1 & m2 & F1 & F2 & ->). inversion F2 as [|y ? m2' ? A F3]; subst. inversion F3; subst.
  right. exists m1, y. split; [reflexivity|]. destruct A as (_ & _ & _ & _ & _ & _ & A & _). congruence.
Qed.

Lemma attr_own (ents : Z -> option entry) nf o e name form v : ents o = Some e -> wfEntry e -> has e name form v -> (1 <= nf)%nat -> attribute ents nf o name false = Ok (Some (o, form, v)).
Proof. intros E W H Hf. destruct nf as [|f]; [lia|]. cbn [attribute]. now rewrite E, (own_has e name form v W H). Qed.
Lemma attr_none (ents : Z -> option entry) nf o e name : ents o = Some e -> wfEntry e -> hasNo e name -> hasNo e 0x31 -> hasNo e 0x47 -> (1 <= nf)%nat -> attribute ents nf o name false = Ok None.
Proof.
  intros E W H H1 H2 Hf. destruct nf as [|f]; [lia|]. cbn [attribute]. rewrite E, (own_hasNo e name W H), (own_hasNo e 0x31 W H1), (own_hasNo e 0x47 W H2). cbn [asDie bind].
  destruct (false || (name =? 60) || (name =? 49) || (name =? 71)); reflexivity.
Qed.
(** ** the root entry *)
Section Root.
Context (ents : Z -> option entry) (units : Z -> uenv) (sc : secs) (nf : nat).
Lemma base_ok o e addrs base : ents o = Some e -> wfEntry e -> unitTable sc (units (eUnit e)) addrs -> listBase (units (eUnit e)) addrs e base ->
  exists b, callBase units sc e = Ok b /\ realBase units e b = base.
Proof.
  intros E W T [[N ->]|(lf & lv & H & A & L)].
  - exists 0. unfold callBase. rewrite (own_hasNo _ _ W N). split; [reflexivity|]. unfold realBase, unitBase. cbn [Z.eqb]. now destruct (uLow _).
  - exists base. unfold callBase. rewrite (own_has _ _ _ _ W H). destruct (addr_form ents units sc nf addrs _ _ _ _ T A) as [_ ->]. split; [reflexivity|].
    unfold realBase. rewrite L. now destruct (base =? 0).
Qed.
Lemma listValue_ok u form v off : listValue sc u form v off -> toU sc u form v = Ok off.
Proof.
  intros [(I & ->)|(-> & slot & w & -> & (long & n & vs & Hd & Hw & HB & HN & H1 & H2 & HI & H0 & HV & HV2) & ->)].
  - unfold offsetForm in I. cbn [In] in I. repeat (destruct I as [<-|I]; [reflexivity|]); destruct I.
  - change (toU sc u 35 (VWord slot)) with (rnglistx (sRnglists sc) (uRngBase u) slot). apply (C111_rnglistx_partial _ long n _ vs slot w); auto; destruct long; auto.
Qed.
Lemma listAt_ok u e off : listAt sc u e off -> exists form v, has e 0x55 form v /\ toU sc u form v = Ok off.
Proof. intros (form & v & H & L). exists form, v. split; [exact H|now apply listValue_ok]. Qed.
Lemma list_ok o e addrs off base rs a : ents o = Some e -> wfEntry e -> unitTable sc (units (eUnit e)) addrs -> listAt sc (units (eUnit e)) e off -> hasNo e 0x12 ->
  listBase (units (eUnit e)) addrs e base -> rangesAre sc (units (eUnit e)) addrs off base rs ->
  (length (sRanges sc) < nf)%nat -> (length (sRnglists sc) < nf)%nat ->
  snd (containsAddress ents units sc nf (fun _ => None) o a) = Ok (if existsb (fun r => (fst r <=? a) && (a <=? snd r)) rs then YES else NO).
Proof.
  intros E W T H N L R F4 F5. assert (C0 : cacheOk ents units sc nf (fun _ => None)) by (intros ? ? X; discriminate X).
  destruct (listAt_ok _ _ _ H) as (form & v & H' & TU).
  rewrite (contains_ranges ents units sc nf _ o e a C0 E W (or_intror N)). rewrite (attr_own ents nf o e _ _ _ E W H') by lia.
  destruct (base_ok o e addrs base E W T L) as (b & B1 & B2). rewrite B1. cbn [bind]. rewrite B2.
  assert (X : rangesOf ents units sc nf o base = Ok rs).
  { unfold rangesOf. rewrite E, (attr_own ents nf o e _ _ _ E W H') by lia. cbn [bind]. rewrite E, TU. cbn [bind].
    apply ranges_ok with (addrs := addrs); auto. }
  now rewrite X.
Qed.
Lemma admits_ok o e addrs a : ents o = Some e -> wfEntry e -> unitTable sc (units (eUnit e)) addrs -> admits sc (units (eUnit e)) addrs e a ->
  (length (sRanges sc) < nf)%nat -> (length (sRnglists sc) < nf)%nat ->
  exists k, snd (containsAddress ents units sc nf (fun _ => None) o a) = Ok k /\ k <> NO.
Proof.
  intros E W T A F4 F5. destruct A as [lf lv hf hv start fin H1 H2 A1 A2 S0 F0 I|off rs base H N L R (r & I & Q)|N N1 N2 NN].
  - rewrite (contains_low_high ents units sc nf _ o e addrs lf lv hf hv start fin a E W T H1 H2 A1 A2 S0 F0). cbn [snd]. replace ((start <=? a) && (a <? fin)) with true by lia. exists YES. split; [reflexivity|discriminate].
  - rewrite (list_ok o e addrs off base rs a E W T H N L R F4 F5). assert (X : existsb (fun r => (fst r <=? a) && (a <=? snd r)) rs = true) by (apply existsb_exists; exists r; split; [exact I|lia]).
    rewrite X. exists YES. split; [reflexivity|discriminate].
  - assert (C0 : cacheOk ents units sc nf (fun _ => None)) by (intros ? ? X; discriminate X).
    rewrite (contains_ranges ents units sc nf _ o e a C0 E W NN), (attr_none ents nf o e 85 E W N N1 N2) by lia. exists UNKNOWN. split; [reflexivity|discriminate].
Qed.
Lemma excludes_ok o e addrs a : ents o = Some e -> wfEntry e -> unitTable sc (units (eUnit e)) addrs -> excludes sc (units (eUnit e)) addrs e a ->
  (length (sRanges sc) < nf)%nat -> (length (sRnglists sc) < nf)%nat ->
  snd (containsAddress ents units sc nf (fun _ => None) o a) = Ok NO.
Proof.
  intros E W T A F4 F5. destruct A as [lf lv hf hv start fin H1 H2 A1 A2 S0 F0 I|off rs base H N L R Q].
  - rewrite (contains_low_high ents units sc nf _ o e addrs lf lv hf hv start fin a E W T H1 H2 A1 A2 S0 F0). cbn [snd]. now replace ((start <=? a) && (a <? fin)) with false by lia.
  - rewrite (list_ok o e addrs off base rs a E W T H N L R F4 F5). destruct (existsb _ rs) eqn:X; [|reflexivity].
    apply existsb_exists in X as (r & I & X). exfalso. apply (Q r I). lia.
Qed.
End Root.

(** ** the unit's table *)
Section UnitLines.
Context (roots : Z -> option Z) (ents : Z -> option entry) (units : Z -> uenv) (sc : secs).
Context (data : list Z) (se : Z -> strEnv) (verbose : bool) (nf fuel : nat).
Notation US := (unitSource roots ents units sc (Some data) se verbose nf fuel).
Lemma unit_excluded u o e addrs a : roots u = Some o -> ents o = Some e -> wfEntry e -> unitTable sc (units (eUnit e)) addrs -> excludes sc (units (eUnit e)) addrs e a ->
  (length (sRanges sc) < nf)%nat -> (length (sRnglists sc) < nf)%nat -> snd (US (fun _ => None) u a) = Ok [].
Proof.
  intros Ro E W T A F4 F5. unfold unitSource. rewrite Ro. pose proof (excludes_ok ents units sc nf o e addrs a E W T A F4 F5) as X.
  destruct (containsAddress ents units sc nf (fun _ => None) o a) as [c r]. cbn [snd] in *. now subst r.
Qed.
Lemma unit_lines u o e addrs a off li p prog : roots u = Some o -> ents o = Some e -> wfEntry e -> unitTable sc (units (eUnit e)) addrs -> admits sc (units (eUnit e)) addrs e a ->
  (length (sRanges sc) < nf)%nat -> (length (sRnglists sc) < nf)%nat ->
  (eTag e = 0x11 \/ eTag e = 0x3c) -> (exists form, offsetForm form /\ has e 0x10 form (VWord off)) -> 0 <= off < 2 ^ 64 ->
  lineBuild fuel data (se u) off = Ok li -> Forall2 agree (liMatrix li) (matrix p (sreg0 p) prog) -> closed prog -> refsOk li ->
  Forall (fun r => 0 <= rAddr r < 2 ^ 64 /\ 0 <= rLine r < 2 ^ 31) (matrix p (sreg0 p) prog) ->
  exists l, snd (US (fun _ => None) u a) = Ok l /\
  ((exists r f d, l = [(if verbose then d ++ [47] ++ fName f else fName f, rLine r)] /\ covered rAddr rEnd (matrix p (sreg0 p) prog) a r /\
      znth (rFile r) (liFiles li) = Some f /\ znth (fDir f) (liDirs li) = Some d) \/
   (l = [] /\ forall r, ~ covered rAddr rEnd (matrix p (sreg0 p) prog) a r)).
Proof.
  intros Ro E W T A F4 F5 Tg (form & I & Hs) Hoff HB F C Rf Hb. pose proof (agree_term _ _ F (matrix_last p prog (sreg0 p) C)) as Ht.
  destruct (admits_ok ents units sc nf o e addrs a E W T A F4 F5) as (k & K & Kn).
  assert (G : getLines ents nf (Some data) (se u) fuel o = Ok (Some li)).
  { unfold getLines. rewrite E. replace (negb (eTag e =? 60) && negb (eTag e =? 17)) with false by (destruct Tg as [-> | ->]; reflexivity).
    rewrite (attr_own ents nf o e _ _ _ E W Hs) by lia. cbn [bind]. replace (toI form (VWord off)) with (@Ok Z (s64 off)) by (unfold offsetForm in I; cbn [In] in I; repeat (destruct I as [<-|I]; [reflexivity|]); destruct I). cbn [bind].
    replace (u64 (s64 off)) with off; [now rewrite HB|]. unfold s64, sgn, u64. change (2 ^ 64) with W64 in Hoff. rewrite (Z.mod_small off) by lia. destruct (off <? W64 / 2); [now rewrite Z.mod_small by lia|].
    replace (off - W64) with (off + (-1) * W64) by lia. rewrite Z.mod_add by (unfold W64; lia). now rewrite Z.mod_small by lia. }
  assert (U : snd (US (fun _ => None) u a) = let* x := sourceFromAddr true verbose li a in Ok (match x with Some y => [y] | None => [] end)).
  { unfold unitSource. rewrite Ro. destruct (containsAddress ents units sc nf (fun _ => None) o a) as [c r]. cbn [snd] in *. subst r. cbn [bind]. rewrite G. destruct k; [congruence| |]; reflexivity. }
  rewrite U. pose proof (C22_source_lookup_partial verbose li a Ht Rf) as S. destruct (sourceFromAddr true verbose li a) as [[[name line]|]| | |] eqn:Q; try contradiction; cbn [bind].
  - destruct (C22_source_of_program p prog li verbose a name line F Ht Rf Hb Q) as (r & f & d & Cv & -> & Ef & Ed & ->). eexists. split; [reflexivity|]. left. exists r, f, d. auto.
  - eexists. split; [reflexivity|]. right. split; [reflexivity|]. intros r (l1 & y & l2 & Em & En & Ha). rewrite Em in F, Hb.
    apply Forall2_app_inv_r in F as (m1 & m2 & F1 & F2 & Eq). inversion F2 as [|m ? ? ? A1 F3]; subst. inversion F3 as [|m' ? ? ? A2 F5']; subst.
    apply (S m). exists m1, m', l0. split; [exact Eq|]. apply Forall_app in Hb as [_ Hb]. inversion Hb as [|? ? [B1 _] Hb2]; subst. inversion Hb2 as [|? ? [B2 _] _]; subst.
    destruct A1 as (A11 & _ & _ & _ & _ & _ & A17 & _). destruct A2 as (A21 & _). rewrite Z.mod_small in A11, A21 by tauto. split; [congruence|]. rewrite A11, A21. lia.
Qed.
End UnitLines.
Lemma F2_nth {A B} (R : A -> B -> Prop) l1 l2 : Forall2 R l1 l2 -> forall k x, nth_error l1 k = Some x -> exists y, nth_error l2 k = Some y /\ R x y.
Proof. intros F. induction F as [|x y l1 l2 H F IH]; intros [|k] z E; cbn [nth_error] in *; try discriminate; [injection E as <-; eauto|eauto]. Qed.
