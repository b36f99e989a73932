From Coq Require Import Sorting.Sorted.
From Verif Require Import Base Reader ReaderSpec ReaderProofs DwarfReaderProofs CfiSpec CfiProofs Regs ElfHash ElfHashProofs ElfObj ElfObjProofs Core CoreSpec CoreProofs Cfi Expr Unwind Stacks Service ServiceSpec Props_Core.

(** ** Registers *)
Lemma fieldOf_number b off w v : numberAt b off w v -> 0 <= w -> fieldOf b off w = v.
Proof.
  intros (x & y & -> & Hx & Hv) Hw. unfold fieldOf. rewrite <- Hx, zdrop_app_zlen.
  assert (L : zlen (leBytes (Z.to_nat w) v) = w) by (rewrite leBytes_len; lia).
  rewrite <- L at 1. rewrite ztake_app_zlen. apply leValue_leBytes. rewrite Z2Nat.id by lia. change 256 with (2 ^ 8). rewrite <- Z.pow_mul_r by lia. exact Hv.
Qed.
Lemma cells_saved u f reg v : savedReg u f reg v -> exists k, getDwarf (cells u f) reg = Ok (k, v).
Proof.
  intros [off Hi N|off w Hf N].
  - pose proof (fieldOf_number _ _ _ _ N ltac:(lia)) as E. unfold generalAt in Hi.
    repeat (destruct Hi as [Hi|Hi]; [inversion Hi; subst; exists KU64; unfold getDwarf; cbn; rewrite <- ?E; reflexivity|]). destruct Hi.
  - assert (W : 0 <= w) by (inversion Hf; subst; lia). pose proof (fieldOf_number _ _ _ _ N W) as E. clear N W.
    destruct Hf as [k Hk|k Hk| | | ].
    + exists KSimd128. unfold getDwarf, opReg. repeat (match goal with |- context [if ?c then _ else _] => first [replace c with false by lia|replace c with true by lia] end). replace (17 + k - 17) with k by lia. cbn [cells]. now rewrite E.
    + exists KI387. unfold getDwarf, opReg. repeat (match goal with |- context [if ?c then _ else _] => first [replace c with false by lia|replace c with true by lia] end). replace (33 + k - 33) with k by lia. cbn [cells]. now rewrite E.
    + exists KU32. unfold getDwarf. cbn. now rewrite <- E.
    + exists KU16. unfold getDwarf. cbn. now rewrite <- E.
    + exists KU16. unfold getDwarf. cbn. now rewrite <- E.
Qed.

Lemma P216 : 0 <= 216. Proof. lia. Qed.
Lemma P512 : 0 <= 512. Proof. lia. Qed.
Section Core.
Context (pre : list ndesc) (ts : list thread).
Hypothesis Hpre : Forall (fun n => ~ isStatus n) pre.
Hypothesis Hw : Forall wfThread ts.
Context (pids : list Z).
Hypothesis Hp : Forall2 (fun t p => pidIs (ndData (thStatus t)) p) ts pids.
Hypothesis Hnd : NoDup pids.

Lemma pids_map : map (fun t => prPid (ndData (thStatus t))) ts = pids.
Proof. clear Hw Hnd. induction Hp as [|t p l l' A F IH]; [reflexivity|]. cbn [map]. rewrite IH by exact F. now rewrite (pid_value _ _ A). Qed.
Lemma pid_split t p : In t ts -> pidIs (ndData (thStatus t)) p -> exists ts1 ts2, ts = ts1 ++ t :: ts2 /\
  forall t', In t' ts2 -> exists p', pidIs (ndData (thStatus t')) p' /\ p' <> p.
Proof.
  intros Hi Ht. apply in_split in Hi as (ts1 & ts2 & E). exists ts1, ts2. split; [exact E|]. intros t' I'.
  rewrite E in Hp. apply Forall2_app_inv_l in Hp as (q1 & q2 & _ & F & Eq). inversion F as [|? p0 ? q3 A F']; subst.
  pose proof (pid_value _ _ A) as V1. pose proof (pid_value _ _ Ht) as V2. assert (p0 = p) by congruence. subst p0.
  assert (X : exists p', In p' q3 /\ pidIs (ndData (thStatus t')) p').
  { clear -F' I'. induction F' as [|a b l l' A F IH]; [destruct I'|]. destruct I' as [->|I']; [exists b; split; [now left|exact A]|]. destruct (IH I') as (p' & J & K). exists p'. split; [now right|exact K]. }
  destruct X as (p' & J & K). exists p'. split; [exact K|]. intros Q. rewrite Q in J. apply NoDup_remove_2 in Hnd. apply Hnd. apply in_or_app. right. rewrite V2. exact J.
Qed.
Lemma user_regs t p u : In t ts -> pidIs (ndData (thStatus t)) p -> regsAre (ndData (thStatus t)) u ->
  getRegset (getRegs (coreNotes pre ts) p NT_PRSTATUS userSize) userSize = Ok u.
Proof.
  intros Hi Ht Hu. destruct (pid_split t p Hi Ht) as (ts1 & ts2 & E & D). rewrite E in *.
  destruct (C36_get_regs_own_thread pre ts1 t ts2 p 216 u 1 Hpre Hw Ht P216 D) as (R & _).
  destruct (regs_value _ _ Hu) as (_ & L). unfold NT_PRSTATUS, userSize, getRegset. rewrite R by exact Hu. cbn [bind]. rewrite ztake_all by lia. rewrite L. reflexivity.
Qed.
Lemma fp_regs t p f : In t ts -> pidIs (ndData (thStatus t)) p -> fpIs t f ->
  getRegset (getRegs (coreNotes pre ts) p NT_FPREGSET fpSize) fpSize = Ok f.
Proof.
  intros Hi Ht (n & rest & Hf & Ed & Lf). destruct (pid_split t p Hi Ht) as (ts1 & ts2 & E & D). rewrite E in *.
  destruct (C36_get_regs_own_thread pre ts1 t ts2 p 512 [] 2 Hpre Hw Ht P512 D) as (_ & R & _).
  unfold NT_FPREGSET, fpSize, getRegset. rewrite (R ltac:(lia) n Hf). cbn [bind]. rewrite Ed. assert (T : ztake 512 (f ++ rest) = f) by (rewrite <- Lf; apply ztake_app_zlen). rewrite T, Lf. reflexivity.
Qed.
Lemma fp_missing t p : In t ts -> pidIs (ndData (thStatus t)) p -> noFp t ->
  getRegset (getRegs (coreNotes pre ts) p NT_FPREGSET fpSize) fpSize = Throw.
Proof.
  intros Hi Ht Hn. destruct (pid_split t p Hi Ht) as (ts1 & ts2 & E & D). rewrite E in *.
  destruct (C36_get_regs_own_thread pre ts1 t ts2 p 512 [] 2 Hpre Hw Ht P512 D) as (_ & R & R0).
  unfold NT_FPREGSET, fpSize, getRegset.
  assert (X : (exists n, firstOfType 2 (threadNotes t) n) \/ forall n, ~ firstOfType 2 (threadNotes t) n).
  { clear. induction (threadNotes t) as [|n r IH]; [right; intros n F; inversion F|]. destruct (Z.eq_dec (ndType n) 2) as [e|e]; [left; exists n; now constructor|].
    destruct IH as [(x & F)|F]; [left; exists x; now constructor|right; intros x G; inversion G; subst; [congruence|]; now apply (F x)]. }
  destruct X as [(n & F)|F].
  - rewrite (R ltac:(lia) n F). cbn [bind]. specialize (Hn n F). rewrite ztake_all by lia. destruct (zlen (ndData n) =? 0); [reflexivity|]. replace (_ <? 512) with true by lia. reflexivity.
  - rewrite (R0 ltac:(lia) F). reflexivity.
Qed.
Lemma regs_absent p code size : ~ In p pids -> getRegset (getRegs (coreNotes pre ts) p code size) size = Throw.
Proof.
  intros N. unfold getRegset, getRegs, coreNotes. rewrite lwpIndex_none by exact Hpre. rewrite lwpIndex_ts by exact Hw. cbn [bind app].
  rewrite lwpFind_absent; [reflexivity|]. now rewrite pids_map.
Qed.
Lemma insKey_in k l x : In x (insKey k l) <-> x = k \/ In x l.
Proof.
  induction l as [|y l IH]; cbn [insKey In]; [intuition|]. destruct (k <? y) eqn:E1; [cbn [In]; intuition|]. destruct (k =? y) eqn:E2; cbn [In]; [|rewrite IH; intuition].
  assert (k = y) by lia. intuition subst; auto.
Qed.
Lemma insKey_sorted k l : StronglySorted Z.lt l -> StronglySorted Z.lt (insKey k l).
Proof.
  induction 1 as [|y l Hl IH Hy]; cbn [insKey]; [repeat constructor|]. destruct (k <? y) eqn:E1.
  - constructor; [now constructor|]. constructor; [lia|]. eapply Forall_impl; [|exact Hy]. cbn. intros; lia.
  - destruct (k =? y) eqn:E2; [now constructor|]. constructor; [exact IH|]. rewrite Forall_forall in *. intros x I. apply insKey_in in I as [->|I]; [lia|auto].
Qed.
Lemma keys_fold m : forall l, StronglySorted Z.lt l -> StronglySorted Z.lt (fold_left (fun l e => insKey (fst e) l) m l) /\
  forall x, In x (fold_left (fun l (e : Z * Z) => insKey (fst e) l) m l) <-> In x l \/ In x (map fst m).
Proof.
  induction m as [|e m IH]; intros l Hl; cbn [fold_left map In]; [split; [exact Hl|intuition]|].
  destruct (IH (insKey (fst e) l) (insKey_sorted _ _ Hl)) as (A & B). split; [exact A|]. intros x. rewrite B, insKey_in. intuition.
Qed.
Lemma idxOf_fst : forall ts' i, map fst (idxOf ts' i) = map (fun t => prPid (ndData (thStatus t))) ts'.
Proof. induction ts' as [|t r IH]; intros i; [reflexivity|]. cbn [idxOf map fst]. now rewrite IH. Qed.
Lemma keys_spec m : lwpIndex (coreNotes pre ts) 0 [] = Ok m -> StronglySorted Z.lt (keysOf m) /\ forall x, In x (keysOf m) <-> In x pids.
Proof.
  unfold coreNotes. rewrite lwpIndex_none by exact Hpre. rewrite lwpIndex_ts by exact Hw. cbn [app]. intros E. injection E as <-.
  destruct (keys_fold (idxOf ts (0 + zlen pre)) [] ltac:(constructor)) as (A & B). split; [exact A|]. intros x. unfold keysOf. rewrite B, idxOf_fst, pids_map. cbn [In]. intuition.
Qed.
End Core.
Lemma sorted_nodup l : StronglySorted Z.lt l -> NoDup l.
Proof. induction 1 as [|x l Hl IH Hx]; constructor; [|exact IH]. intros I. rewrite Forall_forall in Hx. specialize (Hx x I). lia. Qed.

(** ** Reads *)
Lemma holds_inMem core objs x b : (forall c, core = Some c -> loadsOk (imLoads c)) -> objsOk objs -> holds core objs x b -> inMem core objs x.
Proof.
  intros Hc Ho [(c & h & E & Hi & F & _)|_ (k & o & h & Hi & Hh & F & _)|_ _ M _]; [| |exact M].
  - left. exists c, h. split; [exact E|]. split; [exact Hi|]. apply inFile_maps; [|exact F]. eapply loadsOk_in; [exact (Hc c E)|exact Hi].
  - right. exists k, o, h. split; [exact Hi|]. split; [exact Hh|]. apply inFile_maps; [|exact F]. destruct (objs_in objs Ho k o Hi) as (_ & L & _). eapply loadsOk_in; [exact L|exact Hh].
Qed.

(** ** Threads *)
Section Ann.
Context {info frame : Type} (lid tid : info -> Z).
Notation rec := (lwpRec info frame).
Lemma setInfo_none (m : list (Z * rec)) i : ~ In (lid i) (map fst m) -> setInfo lid m i = None.
Proof. induction m as [|[k l] r IH]; intros N; [reflexivity|]. cbn [map fst In setInfo] in *. replace (k =? lid i) with false by (symmetry; apply Z.eqb_neq; tauto). now rewrite IH by tauto. Qed.
Lemma setInfo_some (m : list (Z * rec)) i : In (lid i) (map fst m) -> exists a l b, m = a ++ (lid i, l) :: b /\ ~ In (lid i) (map fst a) /\
  setInfo lid m i = Some (a ++ (lid i, mkLwp (lwStack l) (lwName l) (Some i)) :: b).
Proof.
  induction m as [|[k l] r IH]; intros I; [destruct I|]. cbn [map fst In setInfo] in *. destruct (k =? lid i) eqn:E.
  - exists [], l, r. assert (k = lid i) by lia. subst k. auto.
  - destruct I as [->|I]; [rewrite Z.eqb_refl in E; discriminate|]. destruct (IH I) as (a & l' & b & -> & N & ->). exists ((k, l) :: a), l', b. split; [reflexivity|]. split; [|reflexivity].
    cbn [map fst In]. intros [->|X]; [rewrite Z.eqb_refl in E; discriminate|now apply N].
Qed.
Lemma annotate_spec : forall ts (m : list (Z * rec)), NoDup (map fst m) -> exists m' l,
  annotate lid tid ts m = (m', map (fun i => (tid i, lid i)) l) /\ strays lid (map fst m) ts l /\
  Forall2 (fun e e' => fst e' = fst e /\ lwStack (snd e') = lwStack (snd e) /\ lwName (snd e') = lwName (snd e) /\
    ((exists i, lastOn lid ts (fst e) i /\ lwInfo (snd e') = Some i) \/
     ((forall i, In (Some i) ts -> lid i <> fst e) /\ lwInfo (snd e') = lwInfo (snd e)))) m m'.
Proof.
  induction ts as [|[i|] ts IH]; intros m ND; cbn [annotate].
  - exists m, []. split; [reflexivity|]. split; [constructor|]. clear ND. induction m as [|e m IHm]; constructor; [|exact IHm]. repeat split. right. split; [intros i []|reflexivity].
  - destruct (in_dec Z.eq_dec (lid i) (map fst m)) as [I|N].
    + destruct (setInfo_some m i I) as (a & l0 & b & E & Na & ->). set (m1 := a ++ (lid i, mkLwp (lwStack l0) (lwName l0) (Some i)) :: b).
      assert (K : map fst m1 = map fst m) by (subst m m1; rewrite !map_app; reflexivity).
      destruct (IH m1 ltac:(rewrite K; exact ND)) as (m' & l & -> & S & F). exists m', l. split; [reflexivity|]. rewrite K in S. split; [now apply StHome|].
      subst m m1. apply Forall2_app_inv_l in F as (f1 & f2 & F1 & F2 & ->). inversion F2 as [|? e0 ? f3 A F3]; subst. clear F2.
      assert (Other : forall (g g' : list (Z * rec)), ~ In (lid i) (map fst g) ->
        Forall2 (fun e e' => fst e' = fst e /\ lwStack (snd e') = lwStack (snd e) /\ lwName (snd e') = lwName (snd e) /\
          ((exists i, lastOn lid ts (fst e) i /\ lwInfo (snd e') = Some i) \/ ((forall i, In (Some i) ts -> lid i <> fst e) /\ lwInfo (snd e') = lwInfo (snd e)))) g g' ->
        Forall2 (fun e e' => fst e' = fst e /\ lwStack (snd e') = lwStack (snd e) /\ lwName (snd e') = lwName (snd e) /\
          ((exists j, lastOn lid (Some i :: ts) (fst e) j /\ lwInfo (snd e') = Some j) \/ ((forall j, In (Some j) (Some i :: ts) -> lid j <> fst e) /\ lwInfo (snd e') = lwInfo (snd e)))) g g').
      { intros g g' Ng G. induction G as [|x x' g g' P G IHg]; constructor; [|apply IHg; intros X; apply Ng; cbn [map In]; tauto].
        destruct P as (P1 & P2 & P3 & P4). repeat (split; [assumption|]). destruct P4 as [(j & (c & d & -> & J1 & J2) & J3)|(J1 & J2)].
        - left. exists j. split; [|exact J3]. exists (Some i :: c), d. auto.
        - right. split; [|exact J2]. intros j [X|X]; [inversion X; subst; intros Q; apply Ng; cbn [map In]; rewrite Q; now left|now apply J1]. }
      apply Forall2_app; [now apply Other|]. constructor.
      * destruct A as (P1 & P2 & P3 & P4). cbn [fst snd lwStack lwName lwInfo] in *. repeat (split; [assumption|]). left. destruct P4 as [(j & (c & d & -> & J1 & J2) & J3)|(J1 & J2)].
        -- exists j. split; [|exact J3]. exists (Some i :: c), d. auto.
        -- exists i. split; [|exact J2]. exists [], ts. auto.
      * apply Other; [|exact F3]. rewrite map_app in ND. cbn [map fst] in ND. apply NoDup_remove_2 in ND. intros X. apply ND, in_app_iff. now right.
    + rewrite setInfo_none by exact N. destruct (IH m ND) as (m' & l & -> & S & F). exists m', (i :: l). split; [reflexivity|]. split; [now apply StStray|].
      assert (Hm : forall e, In e m -> lid i <> fst e) by (intros e I Q; apply N; rewrite Q; now apply in_map). clear -F Hm.
      induction F as [|x x' g g' P G IHg]; constructor; [|apply IHg; intros e I; apply Hm; now right].
      destruct P as (P1 & P2 & P3 & P4). repeat (split; [assumption|]). destruct P4 as [(j & (c & d & -> & J1 & J2) & J3)|(J1 & J2)].
      * left. exists j. split; [|exact J3]. exists (Some i :: c), d. auto.
      * right. split; [|exact J2]. intros j [X|X]; [inversion X; subst; apply Hm; now left|now apply J1].
  - destruct (IH m ND) as (m' & l & -> & S & F). exists m', l. split; [reflexivity|]. split; [now constructor|].
    clear -F. induction F as [|x x' g g' P G IHg]; constructor; [|exact IHg]. destruct P as (P1 & P2 & P3 & P4). repeat (split; [assumption|]). destruct P4 as [(j & (c & d & -> & J1 & J2) & J3)|(J1 & J2)].
    + left. exists j. split; [|exact J3]. exists (None :: c), d. auto.
    + right. split; [|exact J2]. intros j [X|X]; [discriminate|now apply J1].
Qed.
End Ann.

(** ** Names *)
Lemma firstLine_no s : ~ In 10 (firstLine s).
Proof. induction s as [|c s IH]; cbn [firstLine]; [intros []|]. destruct (c =? 10) eqn:E; [intros []|]. intros [->|H]; [discriminate|contradiction]. Qed.
Lemma firstLine_app a b : ~ In 10 a -> firstLine (a ++ 10 :: b) = a.
Proof. induction a as [|c a IH]; intros N; cbn [app firstLine]; [reflexivity|]. cbn [In] in N. replace (c =? 10) with false by (symmetry; apply Z.eqb_neq; tauto). now rewrite IH by tauto. Qed.
Lemma findChar_app c a b : forall i, ~ In c a -> findChar c (a ++ c :: b) i = Some (i + zlen a).
Proof.
  induction a as [|x a IH]; intros i N; cbn [app findChar]; [rewrite Z.eqb_refl; f_equal; change (zlen (@nil Z)) with 0; lia|].
  cbn [In] in N. replace (x =? c) with false by (symmetry; apply Z.eqb_neq; tauto). rewrite IH by tauto. rewrite zlen_cons. f_equal. lia.
Qed.
Lemma findChar_range c s : forall i j, findChar c s i = Some j -> i <= j < i + zlen s.
Proof. induction s as [|x s IH]; intros i j H; cbn [findChar] in H; [discriminate|]. rewrite zlen_cons. pose proof (zlen_nonneg s). destruct (x =? c); [injection H as <-; lia|]. apply IH in H. lia. Qed.
Lemma rfindChar_none c s : forall i best, ~ In c s -> rfindChar c s i best = best.
Proof. induction s as [|x s IH]; intros i best N; cbn [rfindChar]; [reflexivity|]. cbn [In] in N. replace (x =? c) with false by (symmetry; apply Z.eqb_neq; tauto). apply IH. tauto. Qed.
Lemma rfindChar_app c a b : forall i best, ~ In c b -> rfindChar c (a ++ c :: b) i best = Some (i + zlen a).
Proof.
  induction a as [|x a IH]; intros i best N; cbn [app rfindChar].
  - rewrite Z.eqb_refl. rewrite rfindChar_none by exact N. f_equal. change (zlen (@nil Z)) with 0. lia.
  - rewrite IH by exact N. rewrite zlen_cons. f_equal. lia.
Qed.
