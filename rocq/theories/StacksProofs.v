From Verif Require Import Base DwarfReader DwarfReaderProofs Regs Cfi Expr Unwind UnwindProofs2 Stacks StacksSpec.

Lemma word8_some m a v : word8 m a = Some v -> wordAt m a v.
Proof.
  unfold word8. intros H. destruct (memread m a 8) as [bs|] eqn:E; [|discriminate]. cbn [memread] in E.
  rewrite <- !Z.add_assoc in E. cbn [Z.add Pos.add Pos.succ] in E.
  repeat match type of E with context [match m ?x with _ => _ end] => let F := fresh "F" in destruct (m x) eqn:F; [|discriminate] end.
  injection E as <-. assert (V : v = leValue [z; z0; z1; z2; z3; z4; z5; z6]) by congruence. subst v. unfold wordAt.
  do 8 eexists. repeat (split; [eassumption|]). cbn [leValue]. ring.
Qed.
Lemma word8_none m a : word8 m a = None -> unreadable m a.
Proof.
  unfold word8. intros H. destruct (memread m a 8) as [bs|] eqn:E; [discriminate|]. clear H. cbn [memread] in E.
  rewrite <- !Z.add_assoc in E. cbn [Z.add Pos.add Pos.succ] in E.
  destruct (m a) eqn:F0; [|exists 0; split; [lia|now rewrite Z.add_0_r]].
  destruct (m (a + 1)) eqn:F1; [|exists 1; split; [lia|assumption]].
  destruct (m (a + 2)) eqn:F2; [|exists 2; split; [lia|assumption]].
  destruct (m (a + 3)) eqn:F3; [|exists 3; split; [lia|assumption]].
  destruct (m (a + 4)) eqn:F4; [|exists 4; split; [lia|assumption]].
  destruct (m (a + 5)) eqn:F5; [|exists 5; split; [lia|assumption]].
  destruct (m (a + 6)) eqn:F6; [|exists 6; split; [lia|assumption]].
  destruct (m (a + 7)) eqn:F7; [|exists 7; split; [lia|assumption]]. discriminate.
Qed.

(** The walk as a relation: [tr k f l b], from frame [f] with [k] more steps allowed. *)
Inductive tr (fuel : nat) (p : process) : nat -> sframe -> list sframe -> bool -> Prop :=
| trLimit f : tr fuel p 0 f [f] false
| trEnd k f f' : unwindFrame fuel p f = (f', Ok None) -> tr fuel p (S k) f [f'] false
| trDwarf k f f' regs t b : unwindFrame fuel p f = (f', Ok (Some regs)) ->
    tr fuel p k (mkFr Dwarf regs 0 false (fSigTramp f')) t b -> tr fuel p (S k) f (f' :: t) b
| trGive k f f' g f'' t b : unwindFrame fuel p f = (f', Throw) -> fallbackStep p f' = Give g f'' ->
    tr fuel p k g t b -> tr fuel p (S k) f (f'' :: t) b
| trStop k f f' : unwindFrame fuel p f = (f', Throw) -> fallbackStep p f' = Stop -> tr fuel p (S k) f [f'] false
| trEsc k f f' : unwindFrame fuel p f = (f', Throw) -> fallbackStep p f' = Escapes -> tr fuel p (S k) f [f'] true.
Lemma walk_tr fuel p : forall k done prev l b, walk k fuel p done prev = Ok (l, b) ->
  exists t, l = rev done ++ t /\ tr fuel p k prev t b.
Proof.
  induction k as [|k IH]; intros done prev l b H; cbn [walk] in H.
  - inversion H; subst. exists [prev]. cbn [rev]. split; [reflexivity|constructor].
  - destruct (unwindFrame fuel p prev) as [f' [[regs|]| | |]] eqn:E; try discriminate.
    + apply IH in H as (t & -> & T). exists (f' :: t). cbn [rev]. rewrite <- app_assoc. split; [reflexivity|econstructor; eassumption].
    + inversion H; subst. exists [f']. cbn [rev]. split; [reflexivity|now constructor].
    + destruct (fallbackStep p f') as [g f''| |] eqn:F.
      * apply IH in H as (t & -> & T). exists (f'' :: t). cbn [rev]. rewrite <- app_assoc. split; [reflexivity|econstructor; eassumption].
      * inversion H; subst. exists [f']. cbn [rev]. split; [reflexivity|now apply trStop].
      * inversion H; subst. exists [f']. cbn [rev]. split; [reflexivity|now apply trEsc].
Qed.
Lemma unwindFrame_same fuel p f f' r : unwindFrame fuel p f = (f', r) -> fMech f' = fMech f /\ fRegs f' = fRegs f /\ fFromTramp f' = fFromTramp f.
Proof.
  unfold unwindFrame. destruct (pInfo p (scopeIP p f)) as [ci|]; [|intros H; inversion H; auto].
  match goal with |- match ?x with _ => _ end = _ -> _ => destruct x as [[cfa o]| | |] end; intros H; inversion H; subst; auto.
Qed.
Lemma give_same p f g f'' : fallbackStep p f = Give g f'' -> fMech f'' = fMech f /\ fRegs f'' = fRegs f /\ fFromTramp f'' = fFromTramp f /\ fSigTramp f'' = fSigTramp f.
Proof.
  unfold fallbackStep. match goal with |- context [if ?c then word8 ?m ?a else None] => destruct (if c then word8 m a else None) as [ip|] end; [intros H; inversion H; auto|].
  destruct (rawIP f =? 0); [discriminate|]. destruct (fRegs f U_rbp =? 0); [discriminate|].
  destruct (word8 _ (u64 _)) as [ip|]; [|discriminate]. destruct (word8 _ _) as [bp|]; [|discriminate]. destruct (pExec p ip); [|discriminate].
  intros H; inversion H; subst; auto.
Qed.
Lemma tr_head fuel p k f y t b : tr fuel p k f (y :: t) b -> fMech y = fMech f /\ fRegs y = fRegs f /\ fFromTramp y = fFromTramp f.
Proof.
  intros H. inversion H; subst; auto; try (eapply unwindFrame_same; eassumption).
  pose proof (unwindFrame_same _ _ _ _ _ H4) as (-> & -> & ->) || idtac.
  match goal with U : unwindFrame _ _ _ = _, G : fallbackStep _ _ = Give _ _ |- _ => destruct (unwindFrame_same _ _ _ _ _ U) as (A1 & A2 & A3); destruct (give_same _ _ _ _ G) as (B1 & B2 & B3 & _) end.
  split; [congruence|]. split; congruence.
Qed.
Definition special (f : sframe) : Prop := fMech f = MachineRegs \/ fMech f = Trampoline \/ fFromTramp f = true.
Lemma upd_same r c v : upd r c v c = v.
Proof. unfold upd. now destruct (cell_eq_dec c c). Qed.
Lemma upd_other r c v c' : c' <> c -> upd r c v c' = r c'.
Proof. intros H. unfold upd. destruct (cell_eq_dec _ _); congruence. Qed.
(** What a fallback gives. *)
Lemma give_link p f g f'' : fallbackStep p f = Give g f'' ->
  fFromTramp g = false /\ fSigTramp g = false /\
  ((fMech g = FramePointer /\ framePointerLink p f'' g) \/ (fMech g = BadIpRecovery /\ special f /\ badCallLink p f'' g)).
Proof.
  intros H. destruct (give_same _ _ _ _ H) as (_ & Er & _). unfold framePointerLink, badCallLink. cbv zeta. rewrite Er. clear Er.
  unfold fallbackStep in H.
  match type of H with context [if ?c then word8 ?m ?a else None] => destruct (if c then word8 m a else None) as [ip|] eqn:B end.
  - inversion H; subst. cbn [fMech fRegs fFromTramp fSigTramp newFrame]. split; [reflexivity|]. split; [reflexivity|]. right. split; [reflexivity|].
    assert (X : special f'' /\ pExec p (fRegs f'' U_rip) = false /\ word8 (pMem p) (fRegs f'' U_rsp) = Some ip).
    { unfold special. destruct (fMech f''); destruct (fFromTramp f''); destruct (pExec p (fRegs f'' U_rip)); cbn [andb negb] in B; try discriminate; auto. }
    destruct X as (X1 & X2 & X3). split; [exact X1|]. split; [exact X2|].
    rewrite upd_same. rewrite (upd_other _ _ _ U_rsp) by discriminate. rewrite upd_same.
    split; [now apply word8_some|]. split; [reflexivity|]. intros c N1 N2. now rewrite !upd_other.
  - destruct (rawIP f =? 0) eqn:R; [discriminate|]. destruct (fRegs f U_rbp =? 0) eqn:BP; [discriminate|].
    destruct (word8 _ (u64 _)) as [ip|] eqn:W1; [|discriminate]. destruct (word8 _ (fRegs f U_rbp)) as [bp|] eqn:W2; [|discriminate]. destruct (pExec p ip) eqn:X; [|discriminate].
    inversion H; subst. cbn [fMech fRegs fFromTramp fSigTramp newFrame]. split; [reflexivity|]. split; [reflexivity|]. left. split; [reflexivity|].
    unfold rawIP in R. split; [lia|]. split; [lia|]. rewrite upd_same. rewrite (upd_other _ _ _ U_rip) by discriminate. rewrite upd_same.
    rewrite (upd_other _ _ _ U_rsp) by discriminate. rewrite (upd_other _ _ _ U_rsp) by discriminate. rewrite upd_same.
    split; [now apply word8_some|]. split; [now apply word8_some|]. split; [reflexivity|]. split; [exact X|]. intros c N1 N2 N3. now rewrite !upd_other.
Qed.
Lemma tr_nonempty fuel p k f b : ~ tr fuel p k f [] b.
Proof. intros H; inversion H. Qed.
Lemma framePointerLink_regs p x y y' : fRegs y = fRegs y' -> framePointerLink p x y -> framePointerLink p x y'.
Proof. unfold framePointerLink. cbv zeta. now intros ->. Qed.
Lemma badCallLink_regs p x y y' : fRegs y = fRegs y' -> badCallLink p x y -> badCallLink p x y'.
Proof. unfold badCallLink. cbv zeta. now intros ->. Qed.
Lemma tr_link fuel p : forall l1 k f x y l2 b, tr fuel p k f (l1 ++ x :: y :: l2) b ->
  fMech y = Dwarf \/ (fMech y = FramePointer /\ framePointerLink p x y) \/
  (fMech y = BadIpRecovery /\ badCallLink p x y /\ ((l1 = [] /\ special f) \/ exists l0 s, l1 = l0 ++ [s] /\ fSigTramp s = true)).
Proof.
  induction l1 as [|s l1 IH]; intros k f x y l2 b H; cbn [app] in H.
  - inversion H as [ | |? ? ? regs ? ? U T|? ? f1 g ? ? ? U G T| | ]; subst.
    + left. apply tr_head in T as (-> & _). reflexivity.
    + right. pose proof (tr_head _ _ _ _ _ _ _ T) as (M & R & _). destruct (give_link _ _ _ _ G) as (_ & _ & [[Mg L]|(Mg & Sp & L)]).
      * left. split; [congruence|]. eapply framePointerLink_regs; [symmetry; exact R|exact L].
      * right. split; [congruence|]. split; [eapply badCallLink_regs; [symmetry; exact R|exact L]|]. left. split; [reflexivity|].
        destruct (unwindFrame_same _ _ _ _ _ U) as (E1 & E2 & E3). unfold special in *. now rewrite E1, E3 in Sp.
  - assert (W : forall k' f', tr fuel p k' f' (l1 ++ x :: y :: l2) b -> (special f' -> fSigTramp s = true) -> fMech y = Dwarf \/ (fMech y = FramePointer /\ framePointerLink p x y) \/
       (fMech y = BadIpRecovery /\ badCallLink p x y /\ ((s :: l1 = [] /\ special f) \/ exists l0 s0, s :: l1 = l0 ++ [s0] /\ fSigTramp s0 = true))).
    { intros k' f' T Sp. destruct (IH _ _ _ _ _ _ T) as [Q|[Q|(Q1 & Q2 & Q3)]]; [auto|auto|]. right. right. split; [exact Q1|]. split; [exact Q2|]. right.
      destruct Q3 as [[-> Q3]|(l0 & s0 & -> & Q3)]; [exists [], s; split; [reflexivity|now apply Sp]|exists (s :: l0), s0; auto]. }
    inversion H as [ |? ? ? U|? ? ? regs ? ? U T|? ? f1 g ? ? ? U G T|? ? ? U|? ? ? U]; subst; try (destruct l1; discriminate).
    + apply (W _ _ T). intros [X|[X|X]]; cbn in X; [discriminate|discriminate|exact X].
    + apply (W _ _ T). destruct (give_link _ _ _ _ G) as (F1 & _ & [[Mg _]|(Mg & _)]); intros [X|[X|X]]; congruence.
Qed.
Lemma tr_end fuel p : forall l1 k f x b, tr fuel p k f (l1 ++ [x]) b ->
  (exists f0 k0, tr fuel p k0 f0 [x] b /\ (length l1 + k0 = k)%nat /\ (l1 = [] -> f0 = f)).
Proof.
  induction l1 as [|s l1 IH]; intros k f x b H; cbn [app] in H.
  - exists f, k. auto.
  - inversion H as [ |? ? ? U|? ? ? regs ? ? U T|? ? f1 g ? ? ? U G T|? ? ? U|? ? ? U]; subst; try (destruct l1; discriminate);
      apply IH in T as (f0 & k1 & T & L & _); exists f0, k1; (split; [exact T|]; split; [cbn [length]; lia|discriminate]).
Qed.
