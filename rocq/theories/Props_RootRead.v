(** Property C24, from the root entries of the units. *)
From Verif Require Import Base DwarfReader CfiSpec LinesSpec Aranges ArangesSpec ArangesProofs Die DieAttr DieAttrSpec DieAttrProofs Props_Aranges Props_Die SrcAddrSpec SrcAddrProofs RootRead.
Open Scope Z_scope.

(** ** Specification *)
(** The root entry [e] of the unit says [su]: its low_pc and high_pc, an address or a constant; and its range list, with that low_pc (or the unit's)
    for base.  It refers to no other entry. *)
Definition saysPc (addrs : list Z) (e : entry) (pc : option (Z * high)) : Prop :=
  match pc with
  | Some (l, h) => exists lf lv, has e 0x11 lf lv /\ addrIs addrs lf lv l /\
      match h with HighAddr a => has e 0x12 0x01 (VWord a) | HighSize n => exists f, In f [0x0b; 0x05; 0x06; 0x07; 0x0f] /\ has e 0x12 f (VWord n) end
  | None => hasNo e 0x12 \/ hasNo e 0x11
  end.
Definition saysRanges (sc : secs) (u : uenv) (addrs : list Z) (e : entry) (rs : list (Z * Z)) : Prop :=
  (hasNo e 0x55 /\ rs = []) \/ (exists off base, listAt sc u e off /\ listBase u addrs e base /\ rangesAre sc u addrs off base rs).
Definition says (ents : Z -> option entry) (units : Z -> uenv) (sc : secs) (uo : Z * Z) (su : sunit) : Prop :=
  exists e addrs, ents (snd uo) = Some e /\ wfEntry e /\ unitTable sc (units (eUnit e)) addrs /\ hasNo e 0x31 /\ hasNo e 0x47 /\ suOff su = fst uo /\
    saysPc addrs e (suPc su) /\ saysRanges sc (units (eUnit e)) addrs e (suRanges su).

(** ** Proofs *)
Section R.
Context (ents : Z -> option entry) (units : Z -> uenv) (sc : secs) (nf : nat).
Context (F4 : (length (sRanges sc) < nf)%nat) (F5 : (length (sRnglists sc) < nf)%nat).
Lemma hasAttr_ok o e name : ents o = Some e -> wfEntry e -> hasNo e 0x31 -> hasNo e 0x47 ->
  (forall form v, has e name form v -> hasAttr ents nf o name = Ok true) /\ (hasNo e name -> hasAttr ents nf o name = Ok false).
Proof using All.
  intros E W N1 N2. split.
  - intros form v H. unfold hasAttr. rewrite (attr_own ents nf o e _ _ _ E W H) by lia. reflexivity.
  - intros H. unfold hasAttr. rewrite (attr_none ents nf o e name E W H N1 N2) by lia. reflexivity.
Qed.
Lemma attrU_ok o e name form v : ents o = Some e -> wfEntry e -> has e name form v ->
  attrU ents units sc nf o name = let* w := toU sc (units (eUnit e)) form v in Ok (Some (form, w)).
Proof using All. intros E W H. unfold attrU. rewrite (attr_own ents nf o e _ _ _ E W H) by lia. cbn [bind]. now rewrite E. Qed.
Lemma pc_read o e addrs pc : ents o = Some e -> wfEntry e -> hasNo e 0x31 -> hasNo e 0x47 -> unitTable sc (units (eUnit e)) addrs -> saysPc addrs e pc ->
  exists low h, readPc ents units sc nf o = Ok (low, h) /\
  match pc with Some (l, sh) => low = Some l /\ exists x, h = Some x /\ highRel x sh | None => h = None end.
Proof using All.
  intros E W N1 N2 T P. unfold readPc. destruct (hasAttr_ok o e 0x11 E W N1 N2) as [A11 B11]. destruct (hasAttr_ok o e 0x12 E W N1 N2) as [A12 B12].
  destruct pc as [[l h]|]; cbn [saysPc] in P.
  - destruct P as (lf & lv & H & A & Hh). rewrite (A11 _ _ H). destruct (addr_form ents units sc nf addrs _ _ _ _ T A) as [_ TU].
    rewrite (attrU_ok o e 0x11 lf lv E W H), TU. destruct h as [a|n].
    + rewrite (A12 _ _ Hh), (attrU_ok o e 0x12 _ _ E W Hh). change (toU sc (units (eUnit e)) 1 (VWord a)) with (@Ok Z a). cbn [bind andb option_map snd].
      eexists _, _. split; [reflexivity|]. split; [reflexivity|]. eexists. split; [reflexivity|constructor].
    + destruct Hh as (f & I & Hh). rewrite (A12 _ _ Hh), (attrU_ok o e 0x12 _ _ E W Hh).
      assert (X : toU sc (units (eUnit e)) f (VWord n) = Ok n) by (cbn [In] in I; repeat (destruct I as [<-|I]; [reflexivity|]); destruct I).
      rewrite X. cbn [bind andb option_map snd]. eexists _, _. split; [reflexivity|]. split; [reflexivity|]. eexists. split; [reflexivity|constructor; unfold constForms; cbn [In] in *; tauto].
  - assert (G : forall name, (exists b, hasAttr ents nf o name = Ok b)).
    { intros name. destruct (ownAttr e name) as [[f v]|] eqn:O.
      - exists true. unfold hasAttr. destruct nf as [|k] eqn:K; [lia|]. cbn [attribute]. now rewrite E, O.
      - exists false. unfold hasAttr. destruct nf as [|k] eqn:K; [lia|]. cbn [attribute]. rewrite E, O, (own_hasNo e 0x31 W N1), (own_hasNo e 0x47 W N2). cbn [asDie bind]. now destruct (false || (name =? 60) || (name =? 49) || (name =? 71)). }
    destruct (G 0x11) as [b1 E1], (G 0x12) as [b2 E2]. rewrite E1, E2. cbn [bind].
    replace (b1 && b2) with false by (destruct P as [P|P]; [rewrite (B12 P) in E2; injection E2 as <-; now rewrite andb_false_r|rewrite (B11 P) in E1; injection E1 as <-; reflexivity]).
    eexists _, _. split; reflexivity.
Qed.
Lemma ranges_read c o e addrs rs : cacheOk ents units sc nf c -> ents o = Some e -> wfEntry e -> hasNo e 0x31 -> hasNo e 0x47 -> unitTable sc (units (eUnit e)) addrs ->
  saysRanges sc (units (eUnit e)) addrs e rs ->
  exists c' x, RootRead.getRanges ents units sc nf c o = (c', Ok x) /\ cacheOk ents units sc nf c' /\ (x = Some rs \/ (x = None /\ rs = [])).
Proof using All.
  intros C E W N1 N2 T P. unfold RootRead.getRanges. destruct (hasAttr_ok o e 0x55 E W N1 N2) as [A55 B55]. destruct P as [[N ->]|(off & base & H & L & R)].
  - rewrite (B55 N). exists c, None. auto.
  - destruct (listAt_ok sc _ _ _ H) as (form & v & H' & TU'). rewrite (A55 _ _ H'). assert (X : exists low, attrU ents units sc nf o 0x11 = Ok low /\ callBase units sc e = Ok (match low with Some (_, l) => l | None => 0 end)).
    { destruct L as [[N ->]|(lf & lv & HL & A & _)].
      - exists None. split; [unfold attrU; rewrite (attr_none ents nf o e 0x11 E W N N1 N2) by lia; reflexivity|]. unfold callBase. now rewrite (own_hasNo _ _ W N).
      - destruct (addr_form ents units sc nf addrs _ _ _ _ T A) as [_ TU]. exists (Some (lf, base)). split; [rewrite (attrU_ok o e 0x11 lf lv E W HL), TU; reflexivity|]. unfold callBase. now rewrite (own_has _ _ _ _ W HL), TU. }
    destruct X as (low & -> & CB). destruct (base_ok ents units sc nf o e addrs base E W T L) as (b & B1 & B2). rewrite CB in B1. injection B1 as B1. rewrite <- B1 in B2.
    destruct (unitRanges_ok ents units sc nf c o e _ C E CB) as [U1 U2]. rewrite B2 in U1.
    assert (X : rangesOf ents units sc nf o base = Ok rs).
    { unfold rangesOf. rewrite E, (attr_own ents nf o e _ _ _ E W H') by lia. cbn [bind]. rewrite E, TU'. cbn [bind].
      apply DieAttrProofs.ranges_ok with (addrs := addrs); auto. }
    rewrite X in U1. destruct (unitRanges ents units sc nf c o _) as [c' r]. cbn [fst snd] in *. subst r. cbn [bind]. exists c', (Some rs). auto.
Qed.
Lemma root_read c uo su : cacheOk ents units sc nf c -> says ents units sc uo su ->
  exists c' ru, readRoot ents units sc nf c (fst uo) (snd uo) = (c', Ok ru) /\ cacheOk ents units sc nf c' /\ unitRel ru su.
Proof using All.
  intros C (e & addrs & E & W & T & N1 & N2 & So & P & R). destruct su as [so pc rs]. cbn [suOff suPc suRanges] in *.
  destruct (pc_read _ e addrs pc E W N1 N2 T P) as (low & h & RP & X). destruct (ranges_read c _ e addrs rs C E W N1 N2 T R) as (c' & x & RR & C' & Y).
  unfold readRoot. rewrite RP, RR. cbn [bind]. exists c'. eexists. split; [reflexivity|]. split; [exact C'|]. subst so.
  destruct pc as [[l sh]|]; [destruct X as (-> & y & -> & Hr)|subst h]; (destruct Y as [-> | [-> ->]]); now constructor.
Qed.
End R.

(** What is read of the units' root entries is what they say, after any earlier questions about entries ([h]). *)
Theorem C24_units_read : forall ents units sc nf h l sus, (length (sRanges sc) < nf)%nat -> (length (sRnglists sc) < nf)%nat ->
  Forall2 (says ents units sc) l sus ->
  exists us, snd (readRoots ents units sc nf (caHistory ents units sc nf (fun _ => None) h) l) = Ok us /\ Forall2 unitRel us sus.
Proof.
  intros ents units sc nf h l sus F4 F5 F. assert (C : cacheOk ents units sc nf (caHistory ents units sc nf (fun _ => None) h)) by (apply caHistory_ok; intros ? ? X; discriminate X).
  revert C. generalize (caHistory ents units sc nf (fun _ => None) h). induction F as [|uo su l sus S F IH]; intros c C; cbn [readRoots].
  - exists []. split; [reflexivity|constructor].
  - destruct uo as [u o]. destruct (root_read ents units sc nf F4 F5 c (u, o) su C S) as (c' & ru & E & C' & R). cbn [fst snd] in E. rewrite E.
    destruct (IH c' C') as (us & Q & FR). destruct (readRoots ents units sc nf c' l) as [c2 y]. cbn [snd] in *. subst y. cbn [bind]. exists (ru :: us). split; [reflexivity|now constructor].
Qed.
Print Assumptions C24_units_read.
(** So the lookup, with the units' entries in place of what was read of them: an address in a tuple of .debug_aranges, between the low_pc and high_pc of
    a unit, or in its range list (given by its offset or its number), has that unit.  Partial: as [C24_covering_unit_found_partial]. *)
Theorem C24_covering_from_entries_partial : forall ents units sc nf fuel sec sets l sus h h' a i, (length (sRanges sc) < nf)%nat -> (length (sRnglists sc) < nf)%nat ->
  Forall2 (says ents units sc) l sus ->
  match sec with
  | Some d => d = flat_map encodeSet sets /\ Forall isByte d /\ zlen d + 32 < W64 /\ (length d < fuel)%nat
  | None => sets = []
  end ->
  Forall wfSet sets -> consistent (flat_map setIvals sets ++ flat_map pcIval sus ++ flat_map rangeIvals sus) ->
  Forall (fun r => iEnd r - iStart r <= iStart r) (flat_map rangeIvals sus) ->
  In i (flat_map setIvals sets ++ flat_map pcIval sus ++ flat_map rangeIvals sus) -> ivCovers i a ->
  exists us, snd (readRoots ents units sc nf (caHistory ents units sc nf (fun _ => None) h') l) = Ok us /\
    snd (lookupUnit fuel sec us (arHistory fuel sec us arState0 h) a) = Ok (Some (iUnit i)).
Proof.
  intros ents units sc nf fuel sec sets l sus h h' a i F4 F5 F M1 M2 M4 M5 Hi Ha. destruct (C24_units_read ents units sc nf h' l sus F4 F5 F) as (us & E & R).
  exists us. split; [exact E|]. now apply (C24_covering_unit_found_partial fuel sec us sets sus h a i M1 M2 R M4 M5 Hi Ha).
Qed.
Print Assumptions C24_covering_from_entries_partial.
(** And an address in none of them, nor within the s addresses before the end of a range from s ([C24_uncovered_lists_partial]), has no unit. *)
Theorem C24_uncovered_from_entries_partial : forall ents units sc nf fuel sec sets l sus h h' a, (length (sRanges sc) < nf)%nat -> (length (sRnglists sc) < nf)%nat ->
  Forall2 (says ents units sc) l sus ->
  match sec with
  | Some d => d = flat_map encodeSet sets /\ Forall isByte d /\ zlen d + 32 < W64 /\ (length d < fuel)%nat
  | None => sets = []
  end ->
  Forall wfSet sets -> consistent (flat_map setIvals sets ++ flat_map pcIval sus ++ flat_map rangeIvals sus) ->
  (forall i, In i (flat_map rangeIvals sus) -> ~ (iEnd i - iStart i <= a < iEnd i)) -> 0 <= a ->
  (forall i, In i (flat_map setIvals sets ++ flat_map pcIval sus) -> ~ ivCovers i a) ->
  exists us, snd (readRoots ents units sc nf (caHistory ents units sc nf (fun _ => None) h') l) = Ok us /\
    snd (lookupUnit fuel sec us (arHistory fuel sec us arState0 h) a) = Ok None.
Proof.
  intros ents units sc nf fuel sec sets l sus h h' a F4 F5 F M1 M2 M4 NR Ha N. destruct (C24_units_read ents units sc nf h' l sus F4 F5 F) as (us & E & R).
  exists us. split; [exact E|]. now apply (C24_uncovered_lists_partial fuel sec us sets sus h a M1 M2 R M4 NR Ha N).
Qed.
Print Assumptions C24_uncovered_from_entries_partial.
(** Two units: one with low_pc and a size, one with low_pc and the range list of C25's example. *)
Definition C24_rootEnts (o : Z) : option entry :=
  if o =? 11 then Some (mkEntry 0 0x11 [(0x11, 0x01, 0); (0x12, 0x06, 0)] [VWord 4096; VWord 150])
  else if o =? 211 then Some (mkEntry 200 0x11 [(0x11, 0x01, 0); (0x55, 0x17, 0)] [VWord 65536; VWord 20]) else None.
Definition C24_rootSus : list sunit := [mkSU 0 (Some (4096, HighSize 150)) []; mkSU 200 None [(65536, 65552); (8192, 8224); (12288, 12296); (100, 200)]].
Example C24_entries_nonvacuous :
  Forall2 (says C24_rootEnts C25_units C25_secs) [(0, 11); (200, 211)] C24_rootSus /\
  consistent (flat_map setIvals [] ++ flat_map pcIval C24_rootSus ++ flat_map rangeIvals C24_rootSus) /\
  Forall (fun r => iEnd r - iStart r <= iStart r) (flat_map rangeIvals C24_rootSus) /\
  match snd (readRoots C24_rootEnts C25_units C25_secs 99 (fun _ => None) [(0, 11); (200, 211)]) with
  | Ok us => map (fun a => snd (lookupUnit 99 None us arState0 a)) [4096; 4245; 8200; 65551; 150; 65552] = [Ok (Some 0); Ok (Some 0); Ok (Some 200); Ok (Some 200); Ok (Some 200); Ok None]
  | _ => False
  end.
Proof.
  pose proof C25_nonvacuous as (T & R & _). split; [|split; [|split; [|vm_compute; reflexivity]]].
  - constructor; [|constructor; [|constructor]].
    + exists (mkEntry 0 0x11 [(0x11, 0x01, 0); (0x12, 0x06, 0)] [VWord 4096; VWord 150]), [4096; 8192; 12288]. split; [reflexivity|]. split; [split; [reflexivity|repeat constructor; cbn; lia]|]. split; [exact T|].
      split; [unfold hasNo; cbn; lia|]. split; [unfold hasNo; cbn; lia|]. split; [reflexivity|]. split.
      * exists 0x01, (VWord 4096). split; [exists 0%nat, 0; split; reflexivity|]. split; [left; split; reflexivity|]. exists 0x06. split; [cbn; tauto|exists 1%nat, 0; split; reflexivity].
      * left. split; [unfold hasNo; cbn; lia|reflexivity].
    + exists (mkEntry 200 0x11 [(0x11, 0x01, 0); (0x55, 0x17, 0)] [VWord 65536; VWord 20]), [4096; 8192; 12288]. split; [reflexivity|]. split; [split; [reflexivity|repeat constructor; cbn; lia]|]. split; [exact T|].
      split; [unfold hasNo; cbn; lia|]. split; [unfold hasNo; cbn; lia|]. split; [reflexivity|]. split; [left; unfold hasNo; cbn; lia|].
      right. exists 20, 65536. split; [exists 0x17, (VWord 20); split; [exists 1%nat, 0; split; reflexivity|left; split; [cbn; tauto|reflexivity]]|]. split; [|exact R].
      right. exists 0x01, (VWord 65536). split; [exists 0%nat, 0; split; reflexivity|split; [left; split; reflexivity|reflexivity]].
  - split.
    + apply Forall_forall. intros i Hi. cbn in Hi. repeat (destruct Hi as [<-|Hi]; [unfold ivOk; cbn; unfold W64; lia|]). destruct Hi.
    + intros i j Hi Hj. cbn in Hi, Hj. repeat (destruct Hi as [<-|Hi]; [repeat (destruct Hj as [<-|Hj]; [first [now left|right; unfold ivDisjoint; cbn; lia]|]); destruct Hj|]). destruct Hi.
  - repeat constructor; cbn; lia.
Qed.
(** Refuted: a unit whose high_pc is a constant of form sdata makes the reading of the units, and so the lookup, fail. *)
Theorem C24_high_sdata_refuted : forall units sc nf c u n, 
  snd (readRoots (fun _ => Some (mkEntry 0 0x11 [(0x11, 0x01, 0); (0x12, 0x0d, 0)] [VWord 4096; VWord n])) units sc (S nf) c [(u, 11)]) = Throw.
Proof. intros. reflexivity. Qed.
Print Assumptions C24_high_sdata_refuted.
