From Verif Require Import Base Leb LebSpec LebProofs DwarfReader DwarfReaderProofs Regs RegsProofs Cfi CfiSpec CfiProofs CfiProofs2
  Expr ExprSpec ExprProofs Unwind UnwindSpec UnwindProofs.

(** ** Register maps have one entry per register *)
Definition nodup (f : frame) : Prop := NoDup (map fst (registers f)).
Lemma dropReg_in k r l : In k (map fst (dropReg r l)) -> k <> r /\ In k (map fst l).
Proof.
  unfold dropReg. induction l as [|[x v] l IH]; cbn [filter map fst]; [easy|].
  destruct (x =? r) eqn:E; cbn [negb map fst In].
  - intros H. destruct (IH H). auto.
  - intros [<-|H]; [split; [lia|auto]|]. destruct (IH H); auto.
Qed.
Lemma dropReg_nodup r l : NoDup (map fst l) -> NoDup (map fst (dropReg r l)).
Proof.
  induction l as [|[x v] l IH]; cbn [dropReg filter map fst]; [easy|]. intros H; inversion H; subst.
  unfold dropReg in *. cbn [filter]. destruct (x =? r) eqn:E; cbn [negb map fst]; [auto|]. constructor; [|auto].
  intros Hi. apply (dropReg_in x r l) in Hi. tauto.
Qed.
Lemma setReg_nodup f r v : nodup f -> nodup (setReg f r v).
Proof.
  unfold nodup, setReg, putReg. cbn [registers map fst]. intros H. constructor; [|now apply dropReg_nodup].
  intros Hi. apply dropReg_in in Hi. tauto.
Qed.
Lemma execInsn_nodup c d s i s' : nodup d -> nodup (fr s) -> Forall nodup (stk s) -> execInsn c d s i = Ok s' ->
  nodup (fr s') /\ Forall nodup (stk s').
Proof.
  intros Hd Hf Hs H. destruct i; cbn [execInsn] in H;
    try (destruct (smul _ _); cbn [bind] in H; try discriminate);
    try (inversion H; subst; cbn [fr stk]; split; [first [now apply setReg_nodup|exact Hf]|exact Hs]).
  - inversion H; subst; cbn [fr stk]. split; [exact Hf|]. now constructor.
  - destruct (stk s) eqn:E; [discriminate|]. inversion H; subst; cbn [fr stk]. inversion Hs; subst. auto.
Qed.
Lemma execLoop_nodup data c d stop end_ : nodup d -> forall fuel off s f,
  nodup (fr s) -> Forall nodup (stk s) -> execLoop fuel data c d stop end_ off s = Ok f -> nodup f.
Proof.
  intros Hd. induction fuel as [|fuel IH]; intros off s f Hf Hs H; cbn [execLoop] in H; [discriminate|].
  destruct (stop (loc s) || (off =? end_)); [inversion H; subst; exact Hf|].
  destruct (decodeInsn data off) as [[i o]| | |]; cbn [bind] in H; try discriminate.
  destruct (execInsn c d s i) as [s'| | |] eqn:E; cbn [bind] in H; try discriminate.
  destruct (execInsn_nodup c d s i s' Hd Hf Hs E). eapply IH; eassumption.
Qed.
Lemma fdeExec_nodup fuel data c a b x y il pc f : fdeExec fuel data c a b x y il pc = Ok f -> nodup f.
Proof.
  unfold fdeExec, defaultFrame. intros H.
  destruct (execLoop fuel data c frame0 (fun _ => false) b a (mkSt 0 frame0 [])) as [d| | |] eqn:E; cbn [bind] in H; try discriminate.
  assert (N0 : nodup frame0) by constructor.
  assert (nodup d) by (eapply execLoop_nodup; [exact N0| | |exact E]; [exact N0|constructor]).
  eapply execLoop_nodup; [eassumption| | |exact H]; [assumption|constructor].
Qed.

Lemma encodeP_length p : (length p <= length (encodeP p))%nat.
Proof.
  induction p as [|o p IH]; [cbn; lia|]. cbn [encodeP flat_map]. fold (encodeP p). rewrite app_length. cbn [length].
  pose proof (encodeI_nonempty o). unfold zlen in H. lia.
Qed.
Lemma at_length data off l : at_ data off l -> (length l <= length data)%nat.
Proof. intros H. destruct l as [|x l]; [cbn; lia|]. pose proof (at_len _ _ _ H ltac:(discriminate)). destruct H. unfold zlen in *. lia. Qed.

(** ** One whole step, from the bytes of the call frame information *)
Lemma unwindFrame_correct p f ci cieP fdeP ct rows w se C fuel :
  pInfo p (scopeIP p f) = Some ci ->
  let data := ciData ci in let pc := u64 (scopeIP p f - ciReloc ci) in
  let ca := codeAlign (ciParams ci) in let da := dataAlign (ciParams ci) in
  Forall isByte data -> zlen data + 32 < W64 -> (2 * length data + 2 < fuel)%nat -> 0 <= ca ->
  at_ data (ciCieInsns ci) (encodeP cieP) -> ciCieEnd ci = ciCieInsns ci + zlen (encodeP cieP) ->
  at_ data (ciFdeInsns ci) (encodeP fdeP) -> ciFdeEnd ci = ciFdeInsns ci + zlen (encodeP fdeP) ->
  forallb (wfI ca da) cieP = true -> forallb (wfI ca da) fdeP = true ->
  runS ca da noRules (emptyRow, []) cieP = Some ct -> rowLoc (fst ct) < W64 ->
  table ca da (rowRule (fst ct)) (mkRow (ciIloc ci) (rowRule (fst ct)) (rowCfa (fst ct)), []) fdeP = Some rows ->
  locsFit rows -> ciIloc ci <= pc -> rowAt pc rows = Some w ->
  envRel (mkEnv (fRegs f) (fCfa f) (pMem p) (ciReloc ci) None) se -> sFrameBase se = 0 ->
  cfaValue se (rowCfa w) C ->
  (forall r, ~ gp r -> otherRule (rowRule w) r) ->
  (forall r, gp r -> rowRule w r = RuleUndefined \/ exists v, ruleValue (withCfa se C) r (rowRule w r) v) ->
  gp (ciRar ci) ->
  exists f' o, unwindFrame fuel p f = (f', Ok o) /\ fCfa f' = C /\ fRegs f' = fRegs f /\
    match o with
    | None => rowRule w (ciRar ci) = RuleUndefined \/ C = 0
    | Some out => rowRule w (ciRar ci) <> RuleUndefined /\ C <> 0 /\
        (forall r v, 0 <= r <= 15 -> ruleValue (withCfa se C) r (rowRule w r) v -> gpGet out r = Ok v) /\
        (forall v, ruleValue (withCfa se C) (ciRar ci) (rowRule w (ciRar ci)) v -> gpGet out 16 = Ok v) /\
        (forall r n, saveWidth r = Some n -> match rowRule w r with
           | RuleOffset off => forall bs, memread (pMem p) (u64 (C + off)) n = Some bs -> exists k, getDwarf out r = Ok (k, leValue bs)
           | _ => getDwarf out r = getDwarf (fRegs f) r end)
    end.
Proof.
  intros Hci data pc ca da Hd Hw Hfuel Hca Hc1 Hc2 Hf1 Hf2 Hwf1 Hwf2 Hrun Hl Ht Hfit Hpc Hrow He Hs0 HC Hdom Hval Hrar.
  unfold unwindFrame. rewrite Hci. fold data pc.
  destruct (fdeExec_table data ca da (ciCieInsns ci) cieP (ciFdeInsns ci) fdeP (ciIloc ci) pc fuel ct rows Hd Hw Hca Hc1 Hf1
              Hwf1 Hwf2 Hrun Hl Ht Hfit Hpc) as (dcf & w' & E1 & E2 & E3).
  { pose proof (encodeP_length cieP). pose proof (encodeP_length fdeP). pose proof (at_length _ _ _ Hc1). pose proof (at_length _ _ _ Hf1). lia. }
  assert (w' = w) by congruence. subst w'.
  rewrite Hc2, Hf2. assert (EP : ciParams ci = mkCie ca da) by (unfold ca, da; destruct (ciParams ci); reflexivity).
  rewrite EP, E1. cbn [bind].
  destruct (unwindRegs_correct data dcf (rowRule w) (rowCfa w) (ciRar ci) _ se C fuel Hd Hw ltac:(lia) He eq_refl Hs0 E3
             (fdeExec_nodup _ _ _ _ _ _ _ _ _ _ E1) HC Hdom Hval Hrar) as (o & Eo & Ho).
  rewrite Eo. eexists _, o. split; [reflexivity|]. split; [reflexivity|]. split; [reflexivity|]. exact Ho.
Qed.

(** ** The walk *)
Lemma walk_length fuel p : forall count done prev l b, walk count fuel p done prev = Ok (l, b) ->
  (length done + 1 <= length l <= length done + count + 1)%nat.
Proof.
  induction count as [|k IH]; intros done prev l b H; cbn [walk] in H.
  - inversion H; subst. cbn [rev]. rewrite app_length, rev_length. cbn [length]. lia.
  - destruct (unwindFrame fuel p prev) as [prev' [[regs|]| | |]]; try discriminate.
    + apply IH in H. cbn [length] in H. lia.
    + inversion H; subst. cbn [rev]. rewrite app_length, rev_length. cbn [length]. lia.
    + destruct (fallbackStep p prev') as [f prev''| |].
      * apply IH in H. cbn [length] in H. lia.
      * inversion H; subst. cbn [rev]. rewrite app_length, rev_length. cbn [length]. lia.
      * inversion H; subst. cbn [rev]. rewrite app_length, rev_length. cbn [length]. lia.
Qed.

Lemma walk_terminates fuel p : (forall f, snd (unwindFrame fuel p f) <> OutOfFuel) ->
  forall count done prev, walk count fuel p done prev <> OutOfFuel.
Proof.
  intros Hu. induction count as [|k IH]; intros done prev; cbn [walk]; [discriminate|].
  specialize (Hu prev). destruct (unwindFrame fuel p prev) as [prev' [[regs|]| | |]]; cbn [snd] in Hu; try discriminate.
  - apply IH.
  - destruct (fallbackStep p prev'); [apply IH|discriminate|discriminate].
  - congruence.
Qed.

(** Frame sections in which no block length makes the cursor go backwards. *)
Definition forward (data : list Z) : Prop := forall off i o, 0 <= off -> decodeInsn data off = Ok (i, o) -> off < o.
Lemma decodeInsn_fuel data off : decodeInsn data off <> OutOfFuel.
Proof.
  unfold decodeInsn. apply bind_fuel; [apply getu8_fuel|]. intros [raw o1].
  repeat match goal with
  | |- (if ?b then _ else _) <> _ => destruct b
  | |- bind _ _ <> OutOfFuel => apply bind_fuel; [|intros [? ?]]
  | |- getuleb _ _ <> _ => apply getuleb_fuel
  | |- getsleb _ _ <> _ => apply getsleb_fuel
  | |- getu8 _ _ <> _ => apply getu8_fuel
  | |- getu16 _ _ <> _ => apply getu16_fuel
  | |- getu32 _ _ <> _ => apply getu32_fuel
  | |- getuint _ _ _ <> _ => apply getuint_fuel
  end; try discriminate.
Qed.
Lemma execInsn_fuel c d s i : execInsn c d s i <> OutOfFuel.
Proof.
  assert (Hs : forall a b, smul a b <> OutOfFuel) by (intros; unfold smul; destruct (inS64 _); discriminate).
  destruct i; cbn [execInsn]; try discriminate; try (apply bind_fuel; [apply Hs|discriminate]).
  destruct (stk s); discriminate.
Qed.
Lemma decodeInsn_in data off i o : decodeInsn data off = Ok (i, o) -> off < zlen data.
Proof.
  unfold decodeInsn. destruct (getu8 data off) as [[raw o1]| | |] eqn:E; cbn [bind]; try discriminate.
  intros _. apply getu8_adv in E. tauto.
Qed.
Lemma execLoop_terminates data c d stop end_ : forward data -> forall fuel off s, 0 <= off ->
  Z.max 0 (zlen data - off) < Z.of_nat fuel -> execLoop fuel data c d stop end_ off s <> OutOfFuel.
Proof.
  intros Hfw. induction fuel as [|fuel IH]; intros off s H0 Hf; [lia|]. cbn [execLoop].
  destruct (stop (loc s) || (off =? end_)); [discriminate|].
  destruct (decodeInsn data off) as [[i o]| | |] eqn:E; cbn [bind]; try discriminate; [|now apply decodeInsn_fuel in E].
  pose proof (Hfw _ _ _ H0 E). pose proof (decodeInsn_in _ _ _ _ E).
  destruct (execInsn c d s i) as [s'| | |] eqn:Ex; cbn [bind]; try discriminate; [|now apply execInsn_fuel in Ex].
  apply IH; lia.
Qed.
Lemma evalE_fuel' data e stk0 off end_ fuel : eFb e = None -> 0 <= off -> (length data < fuel)%nat -> evalE fuel data e stk0 off end_ <> OutOfFuel.
Proof.
  intros H1 H2 H3. unfold evalE. apply bind_fuel; [|intros [? ?]; discriminate].
  apply evalLoop_terminates; [exact H1|]. unfold zlen. lia.
Qed.
Lemma setDwarf_fuel r n v : setDwarf r n v <> OutOfFuel.
Proof. unfold setDwarf. destruct (opReg n); [destruct (kind_eqb _ _)|destruct (kind_eqb _ _)|]; discriminate. Qed.
Lemma getDwarf_fuel r n : getDwarf r n <> OutOfFuel.
Proof. unfold getDwarf. destruct (opReg n); discriminate. Qed.
Lemma caught_fuel A (x : res A) old k : x <> OutOfFuel -> old <> OutOfFuel -> (forall a, k a <> OutOfFuel) -> caught x old k <> OutOfFuel.
Proof. destruct x; cbn; auto; congruence. Qed.
Lemma readAddr_fuel m a : readAddr m a <> OutOfFuel.
Proof. unfold readAddr. destruct (memread m a 8); discriminate. Qed.

(** where expression blocks start *)
Definition ruleOffOk (u : rule) : Prop := match u with Expression o _ | ValExpression o _ => 0 <= o | _ => True end.
Definition frameOffOk (f : frame) : Prop := Forall (fun kv => ruleOffOk (snd kv)) (registers f) /\ (cfaT f = CExpr -> 0 <= cfaWord f).

Definition insnOffOk (i : insn) : Prop :=
  match i with IExpression _ o _ | IValExpression _ o _ | IDefCfaExpression o _ => 0 <= o | _ => True end.
Lemma decodeInsn_off data off i o : 0 <= off -> decodeInsn data off = Ok (i, o) -> insnOffOk i.
Proof.
  unfold decodeInsn. destruct (getu8 data off) as [[raw o1]| | |] eqn:E0; cbn [bind]; try discriminate.
  apply getu8_adv in E0. destruct E0 as [E0 ->]. intros Ho H.
  repeat match type of H with
  | (if ?b then _ else _) = _ => destruct b
  end; try discriminate H; binds H; inversion H; subst; cbn [insnOffOk]; try exact I;
  repeat match goal with
  | E : getuleb _ _ = Ok _ |- _ => apply getuleb_adv in E
  end; lia.
Qed.
Lemma setReg_off f r v : frameOffOk f -> ruleOffOk v -> frameOffOk (setReg f r v).
Proof.
  intros [H1 H2] Hv. split; [|exact H2]. unfold setReg, putReg. cbn [registers]. constructor; [exact Hv|].
  unfold dropReg. apply Forall_forall. intros x Hx. apply filter_In in Hx. rewrite Forall_forall in H1. now apply H1.
Qed.
Lemma restoreRule_off d r : frameOffOk d -> ruleOffOk (restoreRule d r).
Proof.
  intros [H _]. unfold restoreRule. induction (registers d) as [|[k v] l IH]; cbn [findReg]; [exact I|].
  inversion H; subst. destruct (k =? s32 r); [assumption|auto].
Qed.
Lemma execInsn_off c d s i s' : insnOffOk i -> frameOffOk d -> frameOffOk (fr s) -> Forall frameOffOk (stk s) ->
  execInsn c d s i = Ok s' -> frameOffOk (fr s') /\ Forall frameOffOk (stk s').
Proof.
  intros Hi Hd Hf Hs H. destruct i; cbn [execInsn insnOffOk] in *;
    try (destruct (smul _ _); cbn [bind] in H; try discriminate);
    try (inversion H; subst; cbn [fr stk]; split;
         [first [exact Hf | apply setReg_off; [exact Hf|first [exact I|exact Hi|now apply restoreRule_off]]
                | split; [exact (proj1 Hf)|cbn; first [discriminate|intros _; exact Hi]]]|exact Hs]).
  - inversion H; subst; cbn [fr stk]. split; [exact Hf|]. now constructor.
  - destruct (stk s) eqn:E; [discriminate|]. inversion H; subst; cbn [fr stk]. inversion Hs; subst. auto.
Qed.
Lemma execLoop_off data c d stop end_ : forward data -> frameOffOk d -> forall fuel off s f, 0 <= off ->
  frameOffOk (fr s) -> Forall frameOffOk (stk s) -> execLoop fuel data c d stop end_ off s = Ok f -> frameOffOk f.
Proof.
  intros Hfw Hd. induction fuel as [|fuel IH]; intros off s f Ho Hf Hs H; cbn [execLoop] in H; [discriminate|].
  destruct (stop (loc s) || (off =? end_)); [inversion H; subst; exact Hf|].
  destruct (decodeInsn data off) as [[i o]| | |] eqn:Ed; cbn [bind] in H; try discriminate.
  destruct (execInsn c d s i) as [s'| | |] eqn:E; cbn [bind] in H; try discriminate.
  pose proof (Hfw _ _ _ Ho Ed). destruct (execInsn_off c d s i s' (decodeInsn_off _ _ _ _ Ho Ed) Hd Hf Hs E). eapply IH; [|eassumption..]. lia.
Qed.
Lemma frame0_off : frameOffOk frame0. Proof. split; [constructor|discriminate]. Qed.

Lemma applyRule_fuel fuel data e cfa out kv : eFb e = None -> (length data < fuel)%nat -> ruleOffOk (snd kv) ->
  applyRule fuel data e cfa out kv <> OutOfFuel.
Proof.
  intros H1 H2 H3. destruct kv as [k u]. unfold applyRule. destruct u; cbn [snd ruleOffOk] in H3; try discriminate.
  - apply bind_fuel; [apply getDwarf_fuel|intros; apply setDwarf_fuel].
  - destruct (opReg k); try discriminate. apply caught_fuel; [destruct (memread _ _ _); discriminate|discriminate|intros; apply setDwarf_fuel].
  - apply caught_fuel; [|discriminate|intros; apply setDwarf_fuel]. apply bind_fuel; [now apply evalE_fuel'|intros; apply readAddr_fuel].
  - apply caught_fuel; [now apply evalE_fuel'|discriminate|intros; apply setDwarf_fuel].
  - apply bind_fuel; [apply getDwarf_fuel|intros; apply setDwarf_fuel].
Qed.
Lemma applyRules_fuel fuel data e cfa l : eFb e = None -> (length data < fuel)%nat -> Forall (fun kv => ruleOffOk (snd kv)) l ->
  forall out, applyRules fuel data e cfa l out <> OutOfFuel.
Proof.
  intros H1 H2. induction l as [|kv l IH]; intros H3 out; cbn [applyRules]; [discriminate|]. inversion H3; subst.
  apply bind_fuel; [now apply applyRule_fuel|]. intros. now apply IH.
Qed.
Lemma unwindRegs_fuel fuel data f rar e : eFb e = None -> (length data < fuel)%nat -> frameOffOk f ->
  unwindRegs fuel data f rar e <> OutOfFuel.
Proof.
  intros H1 H2 [H3 H4]. unfold unwindRegs. apply bind_fuel.
  { unfold cfaOf. destruct (cfaT f); [apply gpGet_fuel|apply bind_fuel; [apply gpGet_fuel|discriminate]|]. apply evalE_fuel'; auto. }
  intros cfa. apply bind_fuel; [apply setDwarf_fuel|]. intros out0. apply bind_fuel; [now apply applyRules_fuel|].
  intros out. destruct (_ || _); [discriminate|]. destruct (rar =? 16); [discriminate|].
  apply bind_fuel; [apply getDwarf_fuel|]. intros v. apply bind_fuel; [apply setDwarf_fuel|discriminate].
Qed.
(** A frame section usable by the unwinder: instruction cursors start inside it and never go back. *)
Definition sane (fuel : nat) (ci : codeInfo) : Prop :=
  forward (ciData ci) /\ (length (ciData ci) < fuel)%nat /\ 0 <= ciCieInsns ci /\ 0 <= ciFdeInsns ci.
Lemma fdeExec_fuel fuel ci pc : sane fuel ci ->
  fdeExec fuel (ciData ci) (ciParams ci) (ciCieInsns ci) (ciCieEnd ci) (ciFdeInsns ci) (ciFdeEnd ci) (ciIloc ci) pc <> OutOfFuel /\
  forall f, fdeExec fuel (ciData ci) (ciParams ci) (ciCieInsns ci) (ciCieEnd ci) (ciFdeInsns ci) (ciFdeEnd ci) (ciIloc ci) pc = Ok f -> frameOffOk f.
Proof.
  intros (H1 & H2 & H3 & H4). unfold fdeExec, defaultFrame.
  assert (T : forall c d stop end_ off s, 0 <= off -> execLoop fuel (ciData ci) c d stop end_ off s <> OutOfFuel).
  { intros. apply execLoop_terminates; [exact H1|assumption|]. unfold zlen. lia. }
  split.
  - apply bind_fuel; [now apply T|]. intros d. now apply T.
  - intros f H. destruct (execLoop fuel (ciData ci) (ciParams ci) frame0 (fun _ => false) (ciCieEnd ci) (ciCieInsns ci) (mkSt 0 frame0 [])) as [d| | |] eqn:E;
      cbn [bind] in H; try discriminate.
    assert (frameOffOk d) by (eapply execLoop_off; [exact H1|apply frame0_off|exact H3| | |exact E]; [apply frame0_off|constructor]).
    eapply execLoop_off; [exact H1|eassumption|exact H4| | |exact H]; [assumption|constructor].
Qed.
Lemma unwindFrame_fuel fuel p f : (forall a ci, pInfo p a = Some ci -> sane fuel ci) -> snd (unwindFrame fuel p f) <> OutOfFuel.
Proof.
  intros Hs. unfold unwindFrame. destruct (pInfo p (scopeIP p f)) as [ci|] eqn:E; [|discriminate].
  destruct (fdeExec_fuel fuel ci (u64 (scopeIP p f - ciReloc ci)) (Hs _ _ E)) as [F1 F2].
  destruct (fdeExec fuel (ciData ci) (ciParams ci) (ciCieInsns ci) (ciCieEnd ci) (ciFdeInsns ci) (ciFdeEnd ci) (ciIloc ci) (u64 (scopeIP p f - ciReloc ci))) as [dcf| | |] eqn:Ef;
    cbn [bind]; try discriminate; [|congruence].
  pose proof (unwindRegs_fuel fuel (ciData ci) dcf (ciRar ci) (mkEnv (fRegs f) (fCfa f) (pMem p) (ciReloc ci) None) eq_refl) as U.
  destruct (Hs _ _ E) as (_ & Hl & _). specialize (U Hl (F2 _ eq_refl)).
  destruct (unwindRegs _ _ _ _ _) as [[cfa o]| | |]; cbn [snd]; congruence.
Qed.

(** ** Scope addresses along a walk *)
Definition unflag (f : sframe) : sframe := mkFr (fMech f) (fRegs f) (fCfa f) false (fFromTramp f).
Definition infoSig (p : process) (a : Z) : bool := match pInfo p a with Some ci => ciSignal ci | None => false end.

Inductive chain (p : process) : list sframe -> Prop :=
| ChLast a : (fSigTramp a = true -> infoSig p (scopeIP p (unflag a)) = true) -> chain p [a]
| ChCons a b t : fSigTramp a = infoSig p (scopeIP p (unflag a)) ->
    (fMech b = Dwarf /\ fFromTramp b = fSigTramp a \/ (fMech b = FramePointer \/ fMech b = BadIpRecovery) /\ fFromTramp b = false) ->
    chain p (b :: t) -> chain p (a :: b :: t).

Lemma unwindFrame_frame fuel p f f' r : unwindFrame fuel p f = (f', r) -> fSigTramp f = false ->
  fMech f' = fMech f /\ fRegs f' = fRegs f /\ fFromTramp f' = fFromTramp f /\ fSigTramp f' = infoSig p (scopeIP p (unflag f')).
Proof.
  unfold unwindFrame, infoSig. intros H Hs.
  assert (U : forall g, fMech g = fMech f -> fRegs g = fRegs f -> fFromTramp g = fFromTramp f -> scopeIP p (unflag g) = scopeIP p f).
  { intros g E1 E2 E3. unfold scopeIP, unflag, rawIP. cbn [fMech fRegs fSigTramp fFromTramp]. rewrite E1, E2, E3, Hs. reflexivity. }
  destruct (pInfo p (scopeIP p f)) as [ci|] eqn:E.
  - match type of H with (match ?m with _ => _ end) = _ => destruct m as [[cfa o]| | |] end;
      inversion H; subst; cbn [fMech fRegs fFromTramp fSigTramp]; rewrite Hs; cbn [orb];
      (rewrite U by reflexivity); rewrite E; auto.
  - inversion H; subst. rewrite U by reflexivity. rewrite E, Hs. auto.
Qed.
Lemma fallbackStep_give p prev f prev2 : fallbackStep p prev = Give f prev2 ->
  (fMech f = FramePointer \/ fMech f = BadIpRecovery) /\ fFromTramp f = false /\ fSigTramp f = false /\
  fMech prev2 = fMech prev /\ fRegs prev2 = fRegs prev /\ fFromTramp prev2 = fFromTramp prev /\ fSigTramp prev2 = fSigTramp prev.
Proof.
  unfold fallbackStep. intros H.
  repeat match type of H with
  | match ?x with _ => _ end = _ => destruct x; try discriminate H
  end; inversion H; subst; cbn; tauto.
Qed.
Lemma scope_same p f g : fMech g = fMech f -> fRegs g = fRegs f -> fFromTramp g = fFromTramp f ->
  scopeIP p (unflag g) = scopeIP p (unflag f).
Proof. intros E1 E2 E3. unfold scopeIP, unflag, rawIP. cbn. now rewrite E1, E2, E3. Qed.

Lemma walk_chain fuel p : forall count done prev l b, fSigTramp prev = false -> walk count fuel p done prev = Ok (l, b) ->
  exists a t, l = rev done ++ a :: t /\ chain p (a :: t) /\
    fMech a = fMech prev /\ fRegs a = fRegs prev /\ fFromTramp a = fFromTramp prev.
Proof.
  induction count as [|k IH]; intros done prev l b Hs H; cbn [walk] in H.
  - inversion H; subst. exists prev, []. cbn [rev]. split; [reflexivity|]. split; [|auto]. constructor. congruence.
  - destruct (unwindFrame fuel p prev) as [prev' r] eqn:E. pose proof (unwindFrame_frame _ _ _ _ _ E Hs) as (U1 & U2 & U3 & U4).
    destruct r as [[regs|]| | |]; try discriminate.
    + apply IH in H; [|reflexivity]. destruct H as (a & t & -> & C & A1 & A2 & A3). cbn [fMech fRegs fFromTramp] in *.
      exists prev', (a :: t). cbn [rev]. rewrite <- app_assoc. cbn [app]. split; [reflexivity|]. split; [|auto].
      constructor; [exact U4| |exact C]. left. auto.
    + inversion H; subst. exists prev', []. cbn [rev]. split; [reflexivity|]. split; [|auto]. constructor. congruence.
    + destruct (fallbackStep p prev') as [f prev2| |] eqn:F.
      * apply fallbackStep_give in F. destruct F as (F1 & F2 & F3 & F4 & F5 & F6 & F7).
        apply IH in H; [|exact F3]. destruct H as (a & t & -> & C & A1 & A2 & A3).
        exists prev2, (a :: t). cbn [rev]. rewrite <- app_assoc. cbn [app]. split; [reflexivity|]. split; [|intuition congruence].
        constructor; [|right; rewrite A1, A3; auto|exact C].
        rewrite F7, U4. f_equal. symmetry. now apply scope_same.
      * inversion H; subst. exists prev', []. cbn [rev]. split; [reflexivity|]. split; [|auto]. constructor. congruence.
      * inversion H; subst. exists prev', []. cbn [rev]. split; [reflexivity|]. split; [|auto]. constructor. congruence.
Qed.
Lemma chain_split p l1 : forall l2, chain p (l1 ++ l2) -> l2 <> [] -> chain p l2.
Proof.
  induction l1 as [|a l1 IH]; intros l2 H Hne; [exact H|]. apply IH; [|exact Hne].
  cbn [app] in H. inversion H; subst; [|assumption].
  match goal with E : _ ++ _ = [] |- _ => symmetry in E || idtac; apply app_eq_nil in E; destruct E; subst; congruence | E : [] = _ ++ _ |- _ => symmetry in E; apply app_eq_nil in E; destruct E; congruence end.
Qed.

(** [forward] can be checked by computation: only offsets inside the section matter. *)
Definition forwardAt (data : list Z) (off : Z) : bool := match decodeInsn data off with Ok (_, o) => off <? o | _ => true end.
Lemma forward_check data : forallb (fun k => forwardAt data (Z.of_nat k)) (seq 0 (length data)) = true -> forward data.
Proof.
  intros H off i o H0 E. pose proof (decodeInsn_in _ _ _ _ E) as Hl. rewrite forallb_forall in H.
  assert (Hin : In (Z.to_nat off) (seq 0 (length data))) by (apply in_seq; unfold zlen in Hl; lia).
  specialize (H _ Hin). unfold forwardAt in H. rewrite Z2Nat.id, E in H by lia. lia.
Qed.
