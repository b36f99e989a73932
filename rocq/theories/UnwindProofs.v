From Verif Require Import Base Leb LebSpec LebProofs DwarfReader DwarfReaderProofs Regs RegsProofs Cfi CfiSpec CfiProofs CfiProofs2
  Expr ExprSpec ExprProofs Unwind UnwindSpec.

(** ** General registers *)
Definition gp (r : Z) : Prop := 0 <= r <= 16.
Lemma gpGet_ok r n v : gpGet r n = Ok v <-> getDwarf r n = Ok (KU64, v).
Proof.
  unfold gpGet. destruct (getDwarf r n) as [[k x]| | |]; cbn [bind]; try (split; discriminate).
  destruct (kind_eqb k KU64) eqn:E.
  - apply kind_eqb_eq in E. subst. split; intros H; inversion H; reflexivity.
  - split; [discriminate|]. intros H; inversion H; subst. discriminate.
Qed.
Lemma setgp out k v : gp k -> exists out', setDwarf out k (KU64, v) = Ok out' /\ gpGet out' k = Ok v /\
  forall r, gp r -> r <> k -> gpGet out' r = gpGet out r.
Proof.
  intros Hk. destruct (gp_range k Hk) as [c Hc]. destruct (set_ok out k (KU64, v) c KU64 Hc eq_refl) as [out' Ho].
  exists out'. split; [exact Ho|]. split.
  - apply gpGet_ok. eapply set_get; [exact Ho|congruence].
  - intros r Hr Hne. unfold gpGet. rewrite (set_other _ _ _ _ r Ho Hne); [reflexivity|].
    intros (j & Hj & [[? ?]|[? ?]]); unfold gp in *; lia.
Qed.

(** ** Registers saved in memory other than the general ones *)
Lemma wide_none r : r <= 16 -> saveWidth r = None.
Proof. intros H. unfold saveWidth. replace ((17 <=? r) && (r <=? 40)) with false by lia. replace (((49 <=? r) && (r <=? 55)) || (r =? 58) || (r =? 59)) with false by lia. replace (r =? 64) with false by lia. replace ((r =? 65) || (r =? 66)) with false by lia. reflexivity. Qed.
Lemma wide_not r : 41 <= r <= 48 -> saveWidth r = None.
Proof. intros H. unfold saveWidth. replace ((17 <=? r) && (r <=? 40)) with false by lia. replace (((49 <=? r) && (r <=? 55)) || (r =? 58) || (r =? 59)) with false by lia. replace (r =? 64) with false by lia. replace ((r =? 65) || (r =? 66)) with false by lia. reflexivity. Qed.
Lemma wide_place r n : saveWidth r = Some n -> exists c k, opReg r = InCell c k /\ kindSize k = n.
Proof.
  unfold saveWidth. intros H. assert (R : In r [17;18;19;20;21;22;23;24;25;26;27;28;29;30;31;32;33;34;35;36;37;38;39;40;49;50;51;52;53;54;55;58;59;64;65;66]).
  { destruct ((17 <=? r) && (r <=? 40)) eqn:E1; [cbn [In]; lia|]. destruct (((49 <=? r) && (r <=? 55)) || (r =? 58) || (r =? 59)) eqn:E2; [cbn [In]; lia|]. destruct (r =? 64) eqn:E3; [cbn [In]; lia|]. destruct ((r =? 65) || (r =? 66)) eqn:E4; [cbn [In]; lia|discriminate]. }
  cbn [In] in R. repeat (destruct R as [<-|R]; [vm_compute in H; injection H as <-; eexists _, _; split; reflexivity|]). contradiction.
Qed.
Definition withCfa (se : senv) (c : Z) : senv := mkSenv (sReg se) (sWord se) c (sFrameBase se) (sBias se).

Lemma at_of_take data o l b : 0 <= o -> l = zlen b -> ztake l (zdrop o data) = b -> at_ data o b.
Proof.
  intros H -> E. split; [exact H|]. exists (zdrop (zlen b) (zdrop o data)).
  pose proof (ztake_zdrop (zlen b) (zdrop o data)) as T. rewrite E in T. symmetry. exact T.
Qed.

Lemma encodeE_length p : (length p <= length (encodeE p))%nat.
Proof.
  induction p as [|o p IH]; [cbn; lia|]. cbn [encodeE flat_map]. fold (encodeE p). rewrite app_length. cbn [length].
  pose proof (encodeO_nonempty o). unfold zlen in H. lia.
Qed.
Lemma eval_value data e se b stk v o l fuel :
  Forall isByte data -> zlen data + 32 < W64 -> (length data + 2 < fuel)%nat ->
  envRel e se -> eFb e = None -> sFrameBase se = 0 -> Forall isWord stk ->
  exprValue se b stk v -> 0 <= o -> l = zlen b -> ztake l (zdrop o data) = b ->
  evalE fuel data e stk o (u64 (o + l)) = Ok v.
Proof.
  intros Hd Hw Hf He Hfb Hs0 Hstk (p & rest & Hne & -> & Hwf & Hno & Hsafe & Hrun) Ho Hl Ht.
  pose proof (at_of_take _ _ _ _ Ho Hl Ht) as Hat.
  assert (Hne' : encodeE p <> []).
  { intros E. pose proof (encodeE_length p). rewrite E in H. destruct p; [congruence|cbn in H; lia]. }
  pose proof (at_len _ _ _ Hat Hne') as Hlen. subst l. rewrite u64_id by (unfold isU64; pose proof (zlen_nonneg (encodeE p)); lia).
  apply (evalE_correct data e se o p 0 [] fuel stk v rest); try assumption; [left; auto|].
  pose proof (encodeE_length p). unfold zlen in Hlen. cbn [length]. lia.
Qed.
Lemma runE_words e se p : envRel e se -> forall s s', Forall isWord s -> runE se p s = Some s' -> Forall isWord s'.
Proof.
  intros He. induction p as [|o p IH]; intros s s' Hs H; cbn [runE] in H; [now inversion H; subst|].
  destruct (sem se o s) eqn:E; [|discriminate]. eapply IH; [|exact H]. eapply sem_words; eassumption.
Qed.
Lemma exprValue_word e se b stk v : envRel e se -> Forall isWord stk -> exprValue se b stk v -> isWord v.
Proof.
  intros He Hs (p & rest & _ & _ & _ & _ & _ & Hr). pose proof (runE_words e se p He _ _ Hs Hr) as H.
  now inversion H.
Qed.

Section Rules.
  Variables (data : list Z) (e : env) (se : senv) (fuel : nat).
  Hypothesis (Hd : Forall isByte data) (Hw : zlen data + 32 < W64) (Hf : (length data + 2 < fuel)%nat)
             (He : envRel e se) (Hfb : eFb e = None) (Hs0 : sFrameBase se = 0).

  Lemma apply_gp_wide out k u o1 : gp k -> applyRule fuel data e (eCfa e) out (k, u) = Ok o1 -> forall r, saveWidth r <> None -> getDwarf o1 r = getDwarf out r.
  Proof.
    intros G E r Hr. assert (Hn : r <> k) by (intros ->; apply Hr, wide_none; unfold gp in G; lia).
    assert (X : forall v o, setDwarf out k v = Ok o -> getDwarf o r = getDwarf out r).
    { intros v o Eo. apply (set_other _ _ _ _ r Eo Hn). intros (j & Hj & Q). assert (R1 : ~ (41 <= r <= 48)) by (intros Y; apply Hr; now apply wide_not). unfold gp in G. lia. }
    unfold applyRule in E. destruct u; try (injection E as <-; reflexivity).
    - destruct (getDwarf (eRegs e) k) as [v| | |]; cbn [bind] in E; try discriminate. exact (X _ _ E).
    - destruct (opReg k) as [c kd| |]; [|injection E as <-; reflexivity|discriminate]. destruct (memread _ _ _) as [bs|]; cbn [caught] in E; [exact (X _ _ E)|injection E as <-; reflexivity].
    - unfold caught in E. destruct (let* a := _ in _) as [v| | |]; try discriminate; [exact (X _ _ E)|injection E as <-; reflexivity].
    - unfold caught in E. destruct (evalE _ _ _ _ _ _) as [v| | |]; try discriminate; [exact (X _ _ E)|injection E as <-; reflexivity].
    - destruct (getDwarf (eRegs e) _) as [v| | |]; cbn [bind] in E; try discriminate. exact (X _ _ E).
  Qed.
  (** what applying the rule of register [k] must do to [out] *)
  Definition applied (out out' : coreRegs) (k : Z) (s : srule) : Prop :=
    (forall r, gp r -> r <> k -> gpGet out' r = gpGet out r) /\
    match s with
    | RuleDefault | RuleUndefined => gpGet out' k = gpGet out k
    | _ => forall v, ruleValue se k s v -> gpGet out' k = Ok v
    end.

  Lemma applied_refl out k s : s = RuleDefault \/ s = RuleUndefined -> applied out out k s.
  Proof. intros [->| ->]; split; auto. Qed.

  Lemma applyRule_ok out k u s : gp k -> ruleRel data u s ->
    (s = RuleUndefined \/ exists v, ruleValue se k s v) ->
    exists out', applyRule fuel data e (eCfa e) out (k, u) = Ok out' /\ applied out out' k s.
  Proof.
    intros Hk Hr Hv. pose proof He as (He1 & He2 & He3 & He4 & He5). unfold applyRule.
    destruct u as [| |n|o l|o l|r|], s as [| | |m|r'|b|b]; cbn [ruleRel] in Hr; try contradiction.
    - exists out. split; [reflexivity|]. apply applied_refl; auto.
    - destruct Hv as [Hv|[v Hv]]; [discriminate|]. cbn [ruleValue] in Hv. destruct (He1 _ _ Hv) as [G _].
      apply gpGet_ok in G. rewrite G. cbn [bind].
      destruct (setgp out k v Hk) as (out' & S1 & S2 & S3). exists out'. split; [exact S1|]. split; [exact S3|].
      intros v' Hv'. cbn [ruleValue] in Hv'. congruence.
    - subst m. destruct Hv as [Hv|[v Hv]]; [discriminate|]. cbn [ruleValue] in Hv. rewrite He3 in Hv.
      destruct (He2 _ _ Hv) as [G _]. destruct (gp_range k Hk) as [c ->]. cbn [kindSize].
      unfold readAddr in G. change (word (eCfa e + n)) with (u64 (eCfa e + n)) in G.
      destruct (memread (eMem e) (u64 (eCfa e + n)) 8) as [bs|]; [|discriminate]. inversion G as [G']. cbn [caught].
      destruct (setgp out k v Hk) as (out' & S1 & S2 & S3). exists out'. split; [rewrite G'; exact S1|]. split; [exact S3|].
      intros v' Hv'. cbn [ruleValue] in Hv'. rewrite He3 in Hv'. congruence.
    - destruct Hr as (Ho & Hl & Ht). destruct Hv as [Hv|[v Hv]]; [discriminate|]. cbn [ruleValue] in Hv. rewrite He3 in Hv.
      assert (HS : Forall isWord [eCfa e]) by (constructor; [exact He4|constructor]).
      destruct Hv as (a & Ha & Hav).
      rewrite (eval_value data e se b [eCfa e] a o l fuel) by assumption. cbn [bind].
      destruct (He2 _ _ Hav) as [G _]. rewrite G. cbn [caught].
      destruct (setgp out k v Hk) as (out' & S1 & S2 & S3). exists out'. split; [exact S1|]. split; [exact S3|].
      intros v' (a' & Ha' & Hav'). rewrite He3 in Ha'.
      assert (a' = a).
      { pose proof (eval_value data e se b [eCfa e] a o l fuel Hd Hw Hf He Hfb Hs0 HS Ha Ho Hl Ht) as E1.
        pose proof (eval_value data e se b [eCfa e] a' o l fuel Hd Hw Hf He Hfb Hs0 HS Ha' Ho Hl Ht) as E2. congruence. }
      subst. congruence.
    - destruct Hr as (Ho & Hl & Ht). destruct Hv as [Hv|[v Hv]]; [discriminate|]. cbn [ruleValue] in Hv. rewrite He3 in Hv.
      assert (HS : Forall isWord [eCfa e]) by (constructor; [exact He4|constructor]).
      pose proof (eval_value data e se b [eCfa e] v o l fuel Hd Hw Hf He Hfb Hs0 HS Hv Ho Hl Ht) as E1. rewrite E1. cbn [caught].
      destruct (setgp out k v Hk) as (out' & S1 & S2 & S3). exists out'. split; [exact S1|]. split; [exact S3|].
      intros v' Hv'. cbn [ruleValue] in Hv'. rewrite He3 in Hv'.
      pose proof (eval_value data e se b [eCfa e] v' o l fuel Hd Hw Hf He Hfb Hs0 HS Hv' Ho Hl Ht) as E2. congruence.
    - subst r'. destruct Hv as [Hv|[v Hv]]; [discriminate|]. cbn [ruleValue] in Hv. destruct (He1 _ _ Hv) as [G _].
      apply gpGet_ok in G. rewrite G. cbn [bind].
      destruct (setgp out k v Hk) as (out' & S1 & S2 & S3). exists out'. split; [exact S1|]. split; [exact S3|].
      intros v' Hv'. cbn [ruleValue] in Hv'. congruence.
    - exists out. split; [reflexivity|]. apply applied_refl; auto.
  Qed.

  Definition otherRule (rules : Z -> srule) (r : Z) : Prop :=
    rules r = RuleDefault \/ rules r = RuleUndefined \/ exists n off, saveWidth r = Some n /\ rules r = RuleOffset off.
  (** what applying the rules does to a register that is not a general one *)
  Definition wideDone (out out' : coreRegs) (r : Z) (s : srule) : Prop :=
    match s, saveWidth r with
    | RuleOffset off, Some n => forall bs, memread (eMem e) (u64 (eCfa e + off)) n = Some bs -> exists k, getDwarf out' r = Ok (k, leValue bs)
    | _, _ => getDwarf out' r = getDwarf out r
    end.
  Lemma applyWide out k off n : saveWidth k = Some n -> exists out', applyRule fuel data e (eCfa e) out (k, Offset off) = Ok out' /\
    (forall r, gp r -> gpGet out' r = gpGet out r) /\ (forall r, saveWidth r <> None -> r <> k -> getDwarf out' r = getDwarf out r) /\
    (forall bs, memread (eMem e) (u64 (eCfa e + off)) n = Some bs -> exists kd, getDwarf out' k = Ok (kd, leValue bs)).
  Proof.
    intros W. destruct (wide_place k n W) as (c & kd & O1 & K). unfold applyRule. rewrite O1. rewrite K. destruct (memread (eMem e) (u64 (eCfa e + off)) n) as [bs|].
    - cbn [caught]. destruct (set_ok out k (kd, leValue bs) c kd O1 eq_refl) as [out' E]. exists out'. split; [exact E|].
      assert (X : forall r, gp r \/ saveWidth r <> None -> r <> k -> getDwarf out' r = getDwarf out r).
      { intros r Hr Hn. apply (set_other _ _ _ _ r E Hn). intros (j & Hj & Q). assert (R1 : ~ (41 <= r <= 48)) by (destruct Hr as [Hr|Hr]; [unfold gp in Hr; lia|intros Y; apply Hr; now apply wide_not]). assert (R2 : ~ (41 <= k <= 48)) by (intros Y; rewrite wide_not in W by exact Y; discriminate). lia. }
      assert (Kg : ~ gp k) by (intros G; unfold gp in G; rewrite wide_none in W by lia; discriminate).
      split; [|split]. { intros r Hr. unfold gpGet. rewrite X; [reflexivity|now left|intros ->; contradiction]. } { intros r Hr Hn. apply X; [now right|exact Hn]. }
      intros b [= <-]. exists kd. eapply set_get; [exact E|rewrite O1; discriminate].
    - exists out. split; [reflexivity|]. split; [reflexivity|]. split; [reflexivity|]. discriminate.
  Qed.
  Lemma applyRules_ok rules : (forall r, ~ gp r -> otherRule rules r) ->
    (forall r, gp r -> rules r = RuleUndefined \/ exists v, ruleValue se r (rules r) v) ->
    forall l out, (forall k u, In (k, u) l -> ruleRel data u (rules k)) -> NoDup (map fst l) ->
    exists out', applyRules fuel data e (eCfa e) l out = Ok out' /\
      (forall r, gp r ->
        (In r (map fst l) -> match rules r with
           | RuleDefault | RuleUndefined => gpGet out' r = gpGet out r
           | s => forall v, ruleValue se r s v -> gpGet out' r = Ok v end) /\
        (~ In r (map fst l) -> gpGet out' r = gpGet out r)) /\
      (forall r, saveWidth r <> None -> (In r (map fst l) -> wideDone out out' r (rules r)) /\ (~ In r (map fst l) -> getDwarf out' r = getDwarf out r)).
  Proof.
    intros Hdom Hval. induction l as [|[k u] l IH]; intros out Hrel Hnd; cbn [applyRules].
    - exists out. split; [reflexivity|]. split; intros r _; (split; [intros []|reflexivity]).
    - cbn [map fst] in Hnd. inversion Hnd as [|? ? Hk Hnd']; subst.
      assert (Gd : gp k \/ ~ gp k) by (unfold gp; lia).
      assert (Hstep : exists out1, applyRule fuel data e (eCfa e) out (k, u) = Ok out1 /\
                (gp k -> applied out out1 k (rules k)) /\ (~ gp k -> forall r, gp r -> gpGet out1 r = gpGet out r) /\
                (forall r, saveWidth r <> None -> r <> k -> getDwarf out1 r = getDwarf out r) /\ (saveWidth k <> None -> wideDone out out1 k (rules k))).
      { destruct Gd as [G|G].
        - destruct (applyRule_ok out k u (rules k) G (Hrel k u (or_introl eq_refl)) (Hval k G)) as (o1 & E1 & A1).
          exists o1. split; [exact E1|]. split; [auto|]. split; [intros X; now destruct X|]. assert (W0 : saveWidth k = None) by (apply wide_none; unfold gp in G; lia). split; [|intros X; now elim X].
          intros r Hr Hn. exact (apply_gp_wide out k u o1 G E1 r Hr).
        - pose proof (Hrel k u (or_introl eq_refl)) as R. destruct (Hdom k G) as [D|[D|(n & off & W & D)]]; rewrite D in R; destruct u; cbn in R; try contradiction.
          1, 2: exists out; split; [reflexivity|]; split; [intros X; now destruct G|]; split; [auto|]; split; [auto|]; intros _; unfold wideDone; rewrite D; reflexivity.
          subst off. destruct (applyWide out k n0 n W) as (o1 & E1 & A1 & A2 & A3). exists o1. split; [exact E1|]. split; [intros X; now destruct G|]. split; [auto|]. split; [exact A2|]. intros _. unfold wideDone. rewrite D, W. exact A3. }
      destruct Hstep as (out1 & E1 & A1 & A2 & A4 & A5). rewrite E1. cbn [bind].
      destruct (IH out1 ltac:(intros; apply Hrel; now right) Hnd') as (out' & E' & P' & Q'). exists out'. split; [exact E'|]. split.
      + intros r Hr. destruct (P' r Hr) as [P1 P2]. cbn [map fst]. split.
        * intros [<-|Hin].
          -- specialize (P2 Hk). destruct (A1 Hr) as [_ A3]. destruct (rules k); try (rewrite P2; exact A3); intros v Hv; rewrite P2; auto.
          -- specialize (P1 Hin). assert (r <> k) by congruence.
             assert (gpGet out1 r = gpGet out r) by (destruct Gd as [G|G]; [destruct (A1 G) as [A3 _]; now apply A3|now apply A2]).
             destruct (rules r); try congruence; exact P1.
        * intros Hn. assert (r <> k) by (intros ->; apply Hn; now left).
          assert (gpGet out1 r = gpGet out r) by (destruct Gd as [G|G]; [destruct (A1 G) as [A3 _]; now apply A3|now apply A2]).
          rewrite P2; [assumption|]. intros Hi; apply Hn; now right.
      + intros r Hr. destruct (Q' r Hr) as [Q1 Q2]. cbn [map fst]. split.
        * intros [<-|Hin].
          -- specialize (Q2 Hk). specialize (A5 Hr). unfold wideDone in *. destruct (rules k); try congruence. destruct (saveWidth k); [|congruence]. intros bs Hb. destruct (A5 bs Hb) as (kd & X). exists kd. congruence.
          -- specialize (Q1 Hin). assert (r <> k) by congruence. pose proof (A4 r Hr ltac:(assumption)) as X. unfold wideDone in *. destruct (rules r); try congruence. destruct (saveWidth r); [exact Q1|congruence].
        * intros Hn. rewrite Q2 by (intros Hi; apply Hn; now right). apply A4; [exact Hr|]. intros ->. apply Hn. now left.
  Qed.
End Rules.

Lemma findReg_in l : NoDup (map fst l) -> forall k u, In (k, u) l -> findReg k l = Some u.
Proof.
  induction l as [|[k' u'] l IH]; intros Hnd k u Hin; [destruct Hin|]. cbn [findReg map fst] in *. inversion Hnd; subst.
  destruct Hin as [E|Hin].
  - inversion E; subst. now rewrite Z.eqb_refl.
  - destruct (k' =? k) eqn:E; [|now apply IH]. exfalso. apply H1. replace k' with k by lia.
    change k with (fst (k, u)). now apply in_map.
Qed.
Lemma findReg_notin l k : ~ In k (map fst l) -> findReg k l = None.
Proof.
  induction l as [|[k' u'] l IH]; intros H; [reflexivity|]. cbn [findReg map fst] in *.
  destruct (k' =? k) eqn:E; [exfalso; apply H; left; lia|]. apply IH. intros Hi; apply H; now right.
Qed.

Lemma unwindRegs_correct data f rules c rar e se C fuel :
  Forall isByte data -> zlen data + 32 < W64 -> (length data + 2 < fuel)%nat ->
  envRel e se -> eFb e = None -> sFrameBase se = 0 ->
  frameRel data f rules c -> NoDup (map fst (registers f)) -> cfaValue se c C ->
  (forall r, ~ gp r -> otherRule rules r) ->
  (forall r, gp r -> rules r = RuleUndefined \/ exists v, ruleValue (withCfa se C) r (rules r) v) ->
  gp rar ->
  exists o, unwindRegs fuel data f rar e = Ok (C, o) /\
    match o with
    | None => rules rar = RuleUndefined \/ C = 0
    | Some out => rules rar <> RuleUndefined /\ C <> 0 /\
        (forall r v, 0 <= r <= 15 -> ruleValue (withCfa se C) r (rules r) v -> gpGet out r = Ok v) /\
        (forall v, ruleValue (withCfa se C) rar (rules rar) v -> gpGet out 16 = Ok v) /\
        (forall r n, saveWidth r = Some n -> match rules r with
           | RuleOffset off => forall bs, memread (eMem e) (u64 (C + off)) n = Some bs -> exists k, getDwarf out r = Ok (k, leValue bs)
           | _ => getDwarf out r = getDwarf (eRegs e) r end)
    end.
Proof.
  intros Hd Hw Hf He Hfb Hs0 [Hrules Hcfa] Hnd HC Hdom Hval Hrar.
  pose proof He as (He1 & He2 & He3 & He4 & He5).
  assert (HCw : isWord C /\ cfaOf fuel data f e = Ok C).
  { unfold cfaRel in Hcfa. unfold cfaOf. destruct c as [|r n|b]; cbn [cfaValue] in HC; [contradiction| |].
    - destruct (cfaT f); try contradiction. destruct Hcfa as [-> ->]. destruct HC as (x & Hx & ->).
      destruct (He1 _ _ Hx) as [-> _]. split; [apply word_isWord|reflexivity].
    - destruct (cfaT f); try contradiction. destruct Hcfa as (Ho & Hl & Ht). split.
      + eapply exprValue_word; [exact He|constructor|exact HC].
      + rewrite Hl. eapply eval_value; try eassumption; [constructor|reflexivity|]. now rewrite Hl in Ht. }
  destruct HCw as [HCw ECfa]. unfold unwindRegs. rewrite ECfa. cbn [bind].
  destruct (setgp (eRegs e) 7 C ltac:(unfold gp; lia)) as (out0 & S1 & S2 & S3). rewrite S1. cbn [bind].
  set (e' := mkEnv (eRegs e) C (eMem e) (eReloc e) (eFb e)).
  assert (He' : envRel e' (withCfa se C)).
  { repeat split; cbn; try assumption; try (apply He1; assumption); try (apply He2; assumption); try apply HCw.
    - now apply (He1 r v).
    - now apply (He1 r v).
    - now apply (He2 a v).
    - now apply (He2 a v). }
  destruct (applyRules_ok data e' (withCfa se C) fuel Hd Hw Hf He' Hfb Hs0 rules Hdom Hval (registers f) out0) as (out & Eo & Po & Qo).
  { intros k u Hin. pose proof (Hrules k) as R. unfold ruleOf in R. now rewrite (findReg_in _ Hnd k u Hin) in R. }
  { exact Hnd. }
  change (eCfa e') with C in Eo. rewrite Eo. cbn [bind].
  (* every general register of [out] *)
  assert (Hall : forall r v, gp r -> ruleValue (withCfa se C) r (rules r) v -> gpGet out r = Ok v).
  { intros r v Hr Hv. destruct (Po r Hr) as [P1 P2]. destruct (in_dec Z.eq_dec r (map fst (registers f))) as [Hin|Hn].
    - specialize (P1 Hin). destruct (rules r) eqn:Er; try (apply P1; exact Hv); cbn [ruleValue] in Hv; [|contradiction].
      rewrite P1. destruct (r =? 7) eqn:E7.
      + replace r with 7 by lia. rewrite S2. cbn in Hv. now subst.
      + rewrite S3 by (try assumption; lia). now apply He1.
    - rewrite (P2 Hn). pose proof (Hrules r) as R. unfold ruleOf in R. rewrite (findReg_notin _ _ Hn) in R.
      destruct (rules r); cbn in R; try contradiction. cbn [ruleValue] in Hv. destruct (r =? 7) eqn:E7.
      + replace r with 7 by lia. rewrite S2. cbn in Hv. now subst.
      + rewrite S3 by (try assumption; lia). now apply He1. }
  assert (S4 : forall r, saveWidth r <> None -> getDwarf out0 r = getDwarf (eRegs e) r).
  { intros r Hr. assert (Hn : r <> 7) by (intros ->; now apply Hr). apply (set_other _ _ _ _ r S1 Hn). intros (j & Hj & Q). lia. }
  assert (Hwide : forall r n, saveWidth r = Some n -> match rules r with
           | RuleOffset off => forall bs, memread (eMem e) (u64 (C + off)) n = Some bs -> exists k, getDwarf out r = Ok (k, leValue bs)
           | _ => getDwarf out r = getDwarf (eRegs e) r end).
  { intros r n W. assert (Wn : saveWidth r <> None) by congruence. destruct (Qo r Wn) as [Q1 Q2]. destruct (in_dec Z.eq_dec r (map fst (registers f))) as [Hin|Hn].
    - specialize (Q1 Hin). unfold wideDone in Q1. rewrite W in Q1. rewrite (S4 r Wn) in Q1. destruct (rules r); exact Q1.
    - rewrite (S4 r Wn) in Q2. pose proof (Hrules r) as R. unfold ruleOf in R. rewrite (findReg_notin _ _ Hn) in R. destruct (rules r); cbn in R; try contradiction; auto. }
  assert (Hund : match findReg rar (registers f) with Some Undef => true | _ => false end = true <-> rules rar = RuleUndefined).
  { pose proof (Hrules rar) as R. unfold ruleOf in R. destruct (findReg rar (registers f)) as [u|].
    - destruct u, (rules rar); cbn in R; try contradiction; split; intros; try discriminate; reflexivity.
    - destruct (rules rar); cbn in R; try contradiction; split; discriminate. }
  destruct (match findReg rar (registers f) with Some Undef => true | _ => false end) eqn:Eu; cbn [orb].
  - exists None. split; [reflexivity|]. left. now apply Hund.
  - assert (Hnu : rules rar <> RuleUndefined) by (intros X; apply Hund in X; congruence).
    destruct (C =? 0) eqn:E0; [exists None; split; [reflexivity|right; lia]|].
    destruct (rar =? 16) eqn:E16.
    + exists (Some out). split; [reflexivity|]. split; [exact Hnu|]. split; [lia|]. replace rar with 16 in * by lia.
      split; [intros r v Hr; apply Hall; unfold gp; lia|]. split; [intros; apply Hall; [unfold gp; lia|assumption]|exact Hwide].
    + destruct (Hval rar Hrar) as [X|[v Hv]]; [contradiction|]. pose proof (Hall rar v Hrar Hv) as G.
      apply gpGet_ok in G. rewrite G. cbn [bind].
      destruct (setgp out 16 v ltac:(unfold gp; lia)) as (out' & T1 & T2 & T3). rewrite T1. cbn [bind].
      exists (Some out'). split; [reflexivity|]. split; [exact Hnu|]. split; [lia|]. split; [|split].
      * intros r v' Hr Hv'. rewrite T3 by (unfold gp; lia). apply Hall; [unfold gp; lia|assumption].
      * intros v' Hv'. rewrite T2. apply gpGet_ok in G. rewrite (Hall rar v' Hrar Hv') in G. congruence.
      * intros r n W. assert (X : getDwarf out' r = getDwarf out r).
        { assert (Hn : r <> 16) by (intros ->; discriminate W). apply (set_other _ _ _ _ r T1 Hn). intros (j & Hj & Q). lia. }
        rewrite X. exact (Hwide r n W).
Qed.
