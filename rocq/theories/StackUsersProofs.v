From Coq Require Import Sorting.Sorted Sorting.Permutation.
From Verif Require ElfObjProofs.
From Verif Require Import Base LebSpec DwarfReader DwarfReaderProofs MapsSpec Args ArgsSpec ArgsProofs Cfi CfiSpec CfiProofs CfiProofs2 Frames FramesSpec FramesProofs FramesProofs2 FramesProofs3 ElfObj StackUsers StackUsersSpec.

(** ** One state *)
Definition uniq (f : frame) : Prop := NoDup (map fst (registers f)).
Lemma findReg_in r v l : NoDup (map fst l) -> In (r, v) l -> findReg r l = Some v.
Proof.
  induction l as [|[k u] l IH]; intros N I; [destruct I|]. cbn [map fst findReg] in *. inversion N; subst. destruct I as [I|I].
  - injection I as -> ->. now rewrite Z.eqb_refl.
  - destruct (Z.eqb_spec k r) as [->|]; [|now apply IH]. elim H1. now apply (in_map fst) in I.
Qed.
Lemma in_findReg r v l : findReg r l = Some v -> In (r, v) l.
Proof. induction l as [|[k u] l IH]; intros E; [discriminate|]. cbn [findReg] in E. destruct (Z.eqb_spec k r) as [->|]; [injection E as ->; now left|right; now apply IH]. Qed.
Lemma fold_max (l : list (Z * rule)) : forall m, let r := fold_left (fun m kv => match snd kv with Offset n => Z.max m n | _ => m end) l m in
  m <= r /\ (forall k n, In (k, Offset n) l -> n <= r) /\ (r = m \/ exists k, In (k, Offset r) l).
Proof.
  induction l as [|[k v] l IH]; intros m; cbn [fold_left snd]; [split; [lia|]; split; [intros k n []|now left]|].
  specialize (IH (match v with Offset n => Z.max m n | _ => m end)). cbv zeta in *. destruct IH as (H1 & H2 & H3). split; [destruct v; lia|]. split.
  - intros k0 n [I|I]; [injection I as -> ->; lia|now apply (H2 k0)].
  - destruct H3 as [H3|(k0 & I)]; [|right; exists k0; now right]. destruct v as [| |n| | | |]; try (left; exact H3).
    destruct (Z.max_spec m n) as [[_ E]|[_ E]]; rewrite E in *; [|left; exact H3]. right. exists k. left. now rewrite H3.
Qed.
Lemma frameMax_spec data f w m : uniq f -> frameRel data f (rowRule w) (rowCfa w) -> let r := frameMax f m in
  m <= r /\ (forall n, offsetIn w n -> n <= r) /\ (r = m \/ offsetIn w r).
Proof.
  intros U [R C]. unfold frameMax. pose proof (fold_max (registers f) m) as F. cbv zeta in *. set (r := fold_left _ (registers f) m) in *. destruct F as (F1 & F2 & F3).
  assert (A1 : forall x n, rowRule w x = RuleOffset n -> n <= r).
  { intros x n E. specialize (R x). rewrite E in R. unfold ruleOf in R. destruct (findReg x (registers f)) as [v|] eqn:EF; [|destruct R]. destruct v; cbn [ruleRel] in R; try destruct R. apply in_findReg in EF. now apply (F2 x). }
  assert (A2 : r = m \/ exists x, rowRule w x = RuleOffset r).
  { destruct F3 as [F3|(x & I)]; [now left|]. right. exists x. specialize (R x). unfold ruleOf in R. rewrite (findReg_in x _ _ U I) in R. destruct (rowRule w x); cbn [ruleRel] in R; try destruct R. reflexivity. }
  unfold cfaRel in C. destruct (cfaT f) eqn:ET; destruct (rowCfa w) as [|r0 n0|b] eqn:EC; try destruct C.
  - split; [exact F1|]. split; [intros n [(x & E)|(x & E)]; [now apply (A1 x)|congruence]|]. destruct A2 as [A2|A2]; [now left|right; now left].
  - subst r0 n0. split; [lia|]. split.
    + intros n [(x & E)|(x & E)]; [specialize (A1 x n E); lia|]. rewrite EC in E. injection E as _ <-. lia.
    + destruct (Z.max_spec r (cfaWord f)) as [[_ E]|[_ E]]; rewrite E.
      * right. right. now exists (cfaReg f).
      * destruct A2 as [A2|A2]; [now left|right; now left].
  - split; [exact F1|]. split; [intros n [(x & E)|(x & E)]; [now apply (A1 x)|congruence]|]. destruct A2 as [A2|A2]; [now left|right; now left].
Qed.

(** ** Registers occur once *)
Lemma setReg_uniq f r v : uniq f -> uniq (setReg f r v).
Proof.
  unfold uniq, setReg, putReg. cbn [registers]. intros U. cbn [map fst]. constructor.
  - intros I. apply in_map_iff in I as ([k u] & E & I). unfold dropReg in I. apply filter_In in I as [_ I]. cbn [fst] in *. subst k. rewrite Z.eqb_refl in I. discriminate.
  - unfold dropReg. induction (registers f) as [|[k u] l IH]; [constructor|]. inversion U; subst. cbn [filter fst]. destruct (negb (k =? s32 r)); [|now apply IH].
    cbn [map fst]. constructor; [|now apply IH]. intros I. apply H1. apply in_map_iff in I as ([k2 u2] & E & I). apply filter_In in I as [I _]. apply in_map_iff. now exists (k2, u2).
Qed.
Definition uniqS (s : cfst) : Prop := uniq (fr s) /\ Forall uniq (stk s).
Lemma execInsn_uniq c d s i s' : uniqS s -> execInsn c d s i = Ok s' -> uniqS s'.
Proof.
  intros [U S] E. destruct i; cbn [execInsn] in E;
    repeat match goal with
    | H : bind ?x _ = Ok _ |- _ => destruct x; cbn [bind] in H; try discriminate H
    | H : match ?x with _ => _ end = Ok _ |- _ => destruct x eqn:?; try discriminate H
    | H : Ok _ = Ok _ |- _ => injection H as <-
    end; try (split; cbn [fr stk]; [first [now apply setReg_uniq|exact U]|exact S]).
  - split; cbn [fr stk]; [exact U|now constructor].
  - inversion S; subst. now split.
Qed.
Lemma execLoop_uniq data c d stop e : forall fuel off s f, uniqS s -> execLoop fuel data c d stop e off s = Ok f -> uniq f.
Proof.
  induction fuel as [|n IH]; intros off s f U E; [discriminate|]. cbn [execLoop] in E. destruct (stop (loc s) || (off =? e)); [injection E as <-; apply U|].
  destruct (decodeInsn data off) as [[i o]| | |]; try discriminate. cbn [bind] in E. destruct (execInsn c d s i) as [s'| | |] eqn:EX; try discriminate. cbn [bind] in E. eapply IH; [|exact E]. eapply execInsn_uniq; eassumption.
Qed.

(** ** The whole program *)
Lemma runS_mono ca da ini : forall p t t', 0 <= ca -> forallb (wfI ca da) p = true -> runS ca da ini t p = Some t' -> rowLoc (fst t) <= rowLoc (fst t').
Proof.
  induction p as [|i p IH]; intros t t' Hca Hp E; cbn [runS forallb] in *; [injection E as <-; lia|]. apply andb_true_iff in Hp as [Hi Hp]. destruct (stepS ca da ini t i) as [t1|] eqn:Es; [|discriminate].
  pose proof (stepS_mono _ _ _ _ _ _ Hi Hca Es) as [Hm _]. specialize (IH t1 t' Hca Hp E). lia.
Qed.
Lemma seenLoop_spec data ca da d ini :
  Forall isByte data -> zlen data + 32 < W64 -> 0 <= ca -> (exists c, frameRel data d ini c) ->
  forall p fuel off s t t' best,
  forallb (wfI ca da) p = true -> at_ data off (encodeP p) ->
  stRel data s t -> uniqS s -> runS ca da ini t p = Some t' -> 0 <= rowLoc (fst t) -> rowLoc (fst t') < W64 ->
  (length p < fuel)%nat ->
  exists r, seenLoop fuel data (mkCie ca da) d (off + zlen (encodeP p)) off s best = Ok (r, rowLoc (fst t')) /\
    best <= r /\ (forall w n, passes ca da ini t p w -> offsetIn w n -> n <= r) /\ (r = best \/ exists w, passes ca da ini t p w /\ offsetIn w r).
Proof.
  intros Hd Hw Hca Hdf. induction p as [|i p IH]; intros fuel off s t t' best Hwf Hat Hrel U Hrun Hl0 Hl Hfuel; (destruct fuel as [|fuel]; [cbn in Hfuel; lia|]).
  - cbn [runS] in Hrun. injection Hrun as <-. cbn [seenLoop encodeP flat_map]. change (zlen (@nil Z)) with 0. replace (off =? off + 0) with true by lia.
    destruct Hrel as (HL & HF & _). destruct (frameMax_spec data (fr s) (fst t) best (proj1 U) HF) as (M1 & M2 & M3). eexists. split; [now rewrite HL|]. split; [exact M1|].
    assert (PS : passes ca da ini t [] (fst t)) by (exists [], [], (snd t); split; [reflexivity|]; cbn [runS]; now destruct t). split.
    + intros w n (p1 & p2 & st & E & RN). symmetry in E. apply app_eq_nil in E as [-> ->]. cbn [runS] in RN. injection RN as ->. apply M2.
    + destruct M3 as [M3|M3]; [now left|right]. exists (fst t). now split.
  - cbn [forallb] in Hwf. apply andb_true_iff in Hwf. destruct Hwf as [Hi Hp]. cbn [runS] in Hrun. destruct (stepS ca da ini t i) as [t1|] eqn:Es; [|discriminate].
    pose proof (stepS_mono _ _ _ _ _ _ Hi Hca Es) as [Hm1 _]. pose proof (runS_mono _ _ _ _ _ _ Hca Hp Hrun) as Hend.
    cbn [encodeP flat_map] in Hat. apply at_app in Hat. destruct Hat as [Hat1 Hat2]. pose proof (proj1 Hat1) as Hoff.
    destruct (exec_refines data ca da d ini s t i t1 off Hi Hca Hat1 Hoff (or_intror Hdf) Hrel Es Hl0 ltac:(lia)) as (s' & Hex & Hrel').
    cbn [seenLoop encodeP flat_map]. rewrite zlen_app. fold (encodeP p) in *. pose proof (encodeI_nonempty i). pose proof (zlen_nonneg (encodeP p)).
    replace (off =? off + (zlen (encodeI i) + zlen (encodeP p))) with false by lia. rewrite (decode_encode data off i ca da Hd Hw Hi Hat1). cbn [bind]. rewrite Hex. cbn [bind].
    destruct (IH fuel (off + zlen (encodeI i)) s' t1 t' (frameMax (fr s) best) Hp Hat2 Hrel' (execInsn_uniq _ _ _ _ _ U Hex) Hrun ltac:(lia) Hl ltac:(cbn in Hfuel; lia)) as (r & E & R1 & R2 & R3).
    destruct Hrel as (_ & HF & _). destruct (frameMax_spec data (fr s) (fst t) best (proj1 U) HF) as (M1 & M2 & M3).
    exists r. rewrite Z.add_assoc. split; [exact E|]. split; [lia|].
    assert (PS : passes ca da ini t (i :: p) (fst t)) by (exists [], (i :: p), (snd t); split; [reflexivity|]; cbn [runS]; now destruct t).
    assert (PI : forall w, passes ca da ini t1 p w -> passes ca da ini t (i :: p) w) by (intros w (p1 & p2 & st & -> & RN); exists (i :: p1), p2, st; split; [reflexivity|]; cbn [runS]; now rewrite Es).
    split.
    + intros w n (p1 & p2 & st & EP & RN) ON. destruct p1 as [|j p1]; cbn [runS] in RN.
      * injection RN as ->. specialize (M2 n ON). lia.
      * cbn [app] in EP. injection EP as <- ->. rewrite Es in RN. apply (R2 w n); [now exists p1, p2, st|exact ON].
    + destruct R3 as [->|(w & PW & OW)]; [|right; exists w; split; [now apply PI|exact OW]]. destruct M3 as [M3|M3]; [now left|right; exists (fst t); now split].
Qed.
Lemma deepest_unique ca da ini t p d d' : deepest ca da ini t p d -> deepest ca da ini t p d' -> d = d'.
Proof.
  intros (A1 & A2 & A3) (B1 & B2 & B3). destruct A3 as [A3|(w & P & Q)], B3 as [B3|(w' & P' & Q')]; try specialize (A2 _ _ P' Q'); try specialize (B2 _ _ P Q); lia.
Qed.

(** ** FDEs keep their CIEs *)
Lemma cieFind_app o cs x : cieFind o cs <> None -> cieFind o (cs ++ [x]) <> None.
Proof. destruct x as [a c]. unfold cieFind. induction cs as [|[b e] cs IH]; [easy|]. cbn [app find fst]. destruct (b =? o); [easy|exact IH]. Qed.
Definition keeps (cs cs' : cies) : Prop := forall o, cieFind o cs <> None -> cieFind o cs' <> None.
Lemma readFDE_cie data sa c o co e f : readFDE data sa c o co e = Ok f -> fCie f = co.
Proof.
  unfold readFDE. destruct (decodeAddress data o (cEnc c) sa sa) as [[[a i] o1]| | |]; try discriminate. cbn [bind]. destruct i; [discriminate|].
  destruct (decodeAddress data o1 _ sa sa) as [[[b i] o2]| | |]; try discriminate. cbn [bind].
  match goal with |- bind ?x _ = _ -> _ => destruct x as [[g o3]| | |]; try discriminate end. cbn [bind]. intros E. injection E as <-. reflexivity.
Qed.
Lemma putEntry_keeps data eh sa : forall fuel cs off cs' r, putEntry data eh sa fuel cs off = (cs', r) -> keeps cs cs' /\ forall f nx, r = Ok (PFde f nx) -> cieFind (fCie f) cs' <> None.
Proof.
  induction fuel as [|n IH]; intros cs off cs' r E; cbn [putEntry] in E; [injection E as <- <-; split; [intros o X; exact X|discriminate]|].
  assert (K0 : keeps cs cs) by (intros o X; exact X).
  destruct (decodeHdr data eh off) as [[[nx co] o]| | |]; try (injection E as <- <-; split; [exact K0|discriminate]).
  destruct (nx =? 0); [injection E as <- <-; split; [exact K0|discriminate]|].
  destruct (co =? W64 - 1).
  - destruct (readCIE data sa o nx) as [c| | |]; try (injection E as <- <-; split; [exact K0|discriminate]).
    injection E as <- <-. split; [|discriminate]. destruct (cieFind off cs); [exact K0|]. intros o' X. now apply cieFind_app.
  - destruct (match cieFind co cs with Some _ => (cs, Ok tt) | None => match putEntry data eh sa n cs co with (c', Ok (PCie _)) => (c', Ok tt) | (c', Ok _) => (c', UB) | (c', Throw) => (c', Throw) | (c', UB) => (c', UB) | (c', OutOfFuel) => (c', OutOfFuel) end end) as [cs1 q] eqn:EQ.
    assert (K1 : keeps cs cs1).
    { destruct (cieFind co cs); [injection EQ as <- _; exact K0|]. destruct (putEntry data eh sa n cs co) as [c2 r2] eqn:EP. apply IH in EP as [EP _]. destruct r2 as [[| |]| | |]; injection EQ as <- _; exact EP. }
    destruct q; try (injection E as <- <-; split; [exact K1|discriminate]).
    destruct (cieFind co cs1) as [c|] eqn:CF; [|injection E as <- <-; split; [exact K1|discriminate]].
    injection E as <- <-. split; [exact K1|]. intros f nx' RF. destruct (readFDE data sa c o co nx) as [f0| | |] eqn:ER; try discriminate. cbn [bind] in RF. injection RF as <- _. rewrite (readFDE_cie _ _ _ _ _ _ _ ER), CF. discriminate.
Qed.
Definition Held (k : cfi) : Prop := forall i f, znth i (kFdes k) = Some (Some f) -> cieFind (fCie f) (kCies k) <> None.
Lemma znth_setNth {A} (l : list A) i x j y : znth j (setNth l i x) = Some y -> y = x \/ znth j l = Some y.
Proof.
  revert i j; induction l as [|a l IH]; intros i j E; [discriminate|]. destruct i as [|i]; cbn [setNth znth] in *.
  - destruct (j =? 0); [injection E as <-; now left|now right].
  - destruct (j =? 0); [now right|]. destruct (j <? 0); [discriminate|]. eapply IH, E.
Qed.
Lemma ensure_held data eh sa fuel k i k' f : Held k -> ensure data eh sa fuel k i = (k', Ok f) -> Held k' /\ cieFind (fCie f) (kCies k') <> None.
Proof.
  intros HK E. unfold ensure in E. destruct (znth i (kFdes k)) as [[f0|]|] eqn:ZK; [injection E as <- <-; split; [exact HK|now apply (HK i)]| |discriminate].
  destruct (kTable k) as [T|]; [|discriminate]. match type of E with match ?x with _ => _ end = _ => destruct x as [[a p]| | |]; try discriminate end.
  destruct (putEntry data eh sa fuel (kCies k) (u64 (p - sa))) as [cs r] eqn:EP. apply putEntry_keeps in EP as [KP PF]. destruct r as [[| |f1 nx]| | |]; try discriminate.
  destruct (a =? fLoc f1); [|discriminate]. injection E as <- <-. pose proof (PF f1 nx eq_refl) as PC. split; [|exact PC].
  intros j g ZJ. cbn [kFdes kCies] in *. apply znth_setNth in ZJ as [ZJ|ZJ]; [injection ZJ as ->; exact PC|]. apply KP. now apply (HK j).
Qed.
Lemma findLoop_held data eh sa fuel addr : forall n k st en k' f, Held k -> findLoop data eh sa n fuel k addr st en = (k', Ok f) -> Held k' /\ forall x, f = Some x -> cieFind (fCie x) (kCies k') <> None.
Proof.
  induction n as [|n IH]; intros k st en k' f HK E; cbn [findLoop] in E; [discriminate|]. destruct (st <? en); [|injection E as <- <-; split; [exact HK|discriminate]].
  destruct (ensure data eh sa fuel k (st + (en - st) / 2)) as [k1 [e| | |]] eqn:EE; try discriminate. destruct (ensure_held _ _ _ _ _ _ _ _ HK EE) as [HK1 CE].
  destruct (fLoc e <=? addr); [|eapply IH; eassumption]. destruct (addr <? u64 (fLoc e + fRange e)); [|eapply IH; eassumption]. injection E as <- <-. split; [exact HK1|]. intros x X. injection X as <-. exact CE.
Qed.
(** ** Offsets fit *)
Definition fitRules (f : Z -> srule) (c : scfa) : Prop := (forall r n, f r = RuleOffset n -> fits64 n = true) /\ (forall r n, c = CfaRegOff r n -> fits64 n = true).
Definition fitS (t : row * list saved) : Prop := fitRules (rowRule (fst t)) (rowCfa (fst t)) /\ Forall (fun sv => fitRules (fst sv) (snd sv)) (snd t).
Lemma upd_fit f c r v : fitRules f c -> (forall n, v = RuleOffset n -> fits64 n = true) -> fitRules (upd f r v) c.
Proof. intros [F C] V. split; [|exact C]. intros x n. unfold upd. destruct (x =? r); [apply V|apply F]. Qed.
Lemma stepS_fit ca da ini t i t' : (forall r n, ini r = RuleOffset n -> fits64 n = true) -> wfI ca da i = true -> fitS t -> stepS ca da ini t i = Some t' -> fitS t'.
Proof.
  intros HI WF [F S] E. destruct t as [w st]. cbn [fst snd] in *.
  destruct i; cbn [stepS wfI] in *; repeat match goal with
    | H : context [match ?x with _ => _ end] |- _ => destruct x eqn:?; try discriminate
    | H : Some _ = Some _ |- _ => injection H as <-
    | H : (_ && _)%bool = true |- _ => apply andb_true_iff in H as [? ?]
    end;
    (* the rules change, or the CFA does, or neither *)
    try (split; cbn [fst snd setLocR setRule setCfaR rowRule rowCfa]; [first [exact F|apply upd_fit; [exact F|first [discriminate|intros n0 E0; injection E0 as <-; assumption|intros n0; apply HI]]|split; [exact (proj1 F)|first [discriminate|intros r0 n0 E0; injection E0 as <- <-; assumption|idtac]]]|exact S]; fail).
  - split; [exact F|]. now constructor.
  - inversion S; subst. now split.
  - split; cbn [fst snd setCfaR rowRule rowCfa]; [|exact S]. split; [exact (proj1 F)|]. intros r1 n1 E1. injection E1 as <- <-. exact (proj2 F _ _ eq_refl).
  - split; cbn [fst snd setCfaR rowRule rowCfa]; [|exact S]. split; [exact (proj1 F)|]. intros r1 n1 E1. injection E1 as _ <-. assumption.
  - split; cbn [fst snd setCfaR rowRule rowCfa]; [|exact S]. split; [exact (proj1 F)|]. intros r1 n1 E1. injection E1 as _ <-. assumption.
Qed.
Lemma runS_fit ca da ini : (forall r n, ini r = RuleOffset n -> fits64 n = true) -> forall p t t', forallb (wfI ca da) p = true -> runS ca da ini t p = Some t' -> fitS t -> fitS t'.
Proof.
  intros HI. induction p as [|i p IH]; intros t t' W E F; cbn [runS forallb] in *; [injection E as <-; exact F|]. apply andb_true_iff in W as [W1 W2]. destruct (stepS ca da ini t i) as [t1|] eqn:Es; [|discriminate].
  apply (IH t1 t' W2 E). eapply stepS_fit; eassumption.
Qed.

Lemma length_encodeP p : (length p <= length (encodeP p))%nat.
Proof. induction p as [|i p IH]; [cbn; lia|]. cbn [encodeP flat_map length]. fold (encodeP p). rewrite app_length. pose proof (encodeI_nonempty i) as N. unfold zlen in N. lia. Qed.
Lemma lies_length data o l : lies data o l -> (length l <= length data)%nat.
Proof.
  intros [H0 [rest E]]. pose proof (zlen_zdrop o data H0) as L. rewrite E, zlen_app in L. unfold zlen in L. lia.
Qed.
Lemma decText_big s v : 0 <= v < 2 ^ 64 -> decimal s v -> intText v = s.
Proof.
  intros R [[H C]|[H _]]; [|lia]. unfold intText. replace (v <? 0) with false by lia. rewrite decText_num by lia. apply numText_canon; [lia|lia|exact C|]. change (10 ^ Z.of_nat 20) with 100000000000000000000. lia.
Qed.

Section U.
Context (data : list Z) (eh : bool) (sa : Z) (es : list (Z * entry)) (Hsec : section eh data es).
Context (fs : list (Z * sfde)) (Hfs : forall x, In x fs -> In (fst x, EFde (snd x)) es).
(** The frame information finds the FDEs [fs] (in some order) and has the CIEs of those it has read. *)
Definition Right (k : cfi) : Prop := exists fs' te ha tab T,
  Permutation fs fs' /\ Forall (fun x => 0 < sfRange (snd x) /\ startOf sa es x + sfRange (snd x) < 2 ^ 64) fs' /\
  ForallOrdPairs (fun x y => startOf sa es x + sfRange (snd x) <= startOf sa es y) fs' /\
  In (fst te) [FUdata2; FUdata4; FUdata8; FSdata2; FSdata4; FSdata8] /\ (snd te = AAbs \/ snd te = ADatarel) /\
  TInv data sa es fs' te ha tab T k /\ Held k.
Lemma ord_unique l x y a : ForallOrdPairs (fun x y => startOf sa es x + sfRange (snd x) <= startOf sa es y) l -> In x l -> In y l -> FramesSpec.covers sa es x a -> FramesSpec.covers sa es y a -> x = y.
Proof.
  clear. intros F. induction F as [|z l F1 F2 IH]; intros Ix Iy Cx Cy; [destruct Ix|]. rewrite Forall_forall in F1. unfold FramesSpec.covers in *.
  destruct Ix as [->|Ix], Iy as [->|Iy]; [reflexivity| | |now apply IH]; [specialize (F1 y Iy)|specialize (F1 x Ix)]; lia.
Qed.
Lemma right_find fuel k a x c : Right k -> (1 < fuel)%nat -> 0 <= a -> In x fs -> FramesSpec.covers sa es x a -> cieOf es (sfCie (snd x)) = Some c ->
  exists k' f c', find_fde data eh sa fuel k a = (k', Ok (Some f)) /\ Right k' /\ isFde data sa es f x /\ cieFind (fCie f) (kCies k') = Some c' /\ isCie data c' c.
Proof.
  intros (fs' & te & ha & tab & T & P & FIT & ORD & TE & TA & TI & HE) Hf Ha I C CO.
  assert (Hfs' : forall x, In x fs' -> In (fst x, EFde (snd x)) es) by (intros z Iz; apply Hfs; now rewrite P).
  destruct (find_fde_spec data eh sa es Hsec fs' Hfs' FIT ORD te ha tab T TE TA fuel k a TI Hf Ha) as (k' & r & E & TI' & AN).
  unfold find_fde in E. destruct (findLoop_held _ _ _ _ _ _ _ _ _ _ _ HE E) as [HE' CF]. fold (find_fde data eh sa fuel k a) in E.
  assert (I' : In x fs') by now rewrite <- P. destruct r as [f|]; cbn [answer] in AN; [|now elim (AN x I')].
  destruct AN as (y & Iy & Cy & Q). pose proof (ord_unique fs' x y a ORD I' Iy C Cy) as ->. specialize (CF f eq_refl). destruct (cieFind (fCie f) (kCies k')) as [c'|] eqn:EC; [|now elim CF].
  exists k', f, c'. split; [exact E|]. split; [exists fs', te, ha, tab, T; repeat (split; [assumption|]); exact HE'|]. split; [exact Q|]. split; [exact EC|].
  pose proof Q as (c1 & CO1 & _ & _ & _ & FC & _). rewrite FC in EC. destruct TI' as (CI & _). destruct (CI _ _ EC) as (c2 & CO2 & Q2). rewrite CO in CO2. injection CO2 as <-. exact Q2.
Qed.
Lemma userOf_spec fuel k y x c d last deep extent size : Right k -> (1 < fuel)%nat -> (length data < fuel)%nat -> 0 <= uValue y -> 0 <= uSize y < 2 ^ 64 ->
  In x fs -> FramesSpec.covers sa es x (uValue y) -> cieOf es (sfCie (snd x)) = Some c -> describes (uValue y) c (snd x) d last ->
  decimal deep d -> decimal extent (last - uValue y + 1) -> decimal size (uSize y) ->
  exists k', userOf data eh sa fuel k y = (k', Ok (functionLine (mkFn (uValue y) (uSize y) (uName y)) deep extent size)) /\ Right k'.
Proof.
  intros RK Hf Hl Hv Hs I C CO (cieP & fdeP & ct & t & EC & EF & WC & WF & RC & LC & (RF & LT & LB & DP)) D1 D2 D3.
  destruct (right_find fuel k (uValue y) x c RK Hf Hv I C CO) as (k' & f & c' & E & RK' & QF & CF & QC). exists k'. split; [|exact RK'].
  unfold userOf. rewrite E, CF. f_equal. pose proof Hsec as (Hd & Hw & HO & _).
  assert (OC : scOk eh c). { unfold cieOf in CO. destruct (find (fun e => fst e =? sfCie (snd x)) es) as [[o [c0|f0]]|] eqn:EFI; try discriminate. injection CO as ->. apply find_some in EFI as [EFI _]. rewrite Forall_forall in HO. apply (HO _ EFI). }
  destruct OC as (_ & (CA0 & CA1) & _). assert (Hw2 : zlen data + 32 < W64) by (unfold W64; lia).
  destruct QC as (_ & _ & _ & QC1 & QC2 & _ & _ & _ & QC3 & QC4). destruct QF as (c1 & CO1 & _ & _ & _ & _ & QF1 & QF2 & _). rewrite CO in CO1. injection CO1 as <-.
  rewrite QC1, QC2, QC4, QF2. rewrite EC in *. rewrite EF in *. pose proof (lies_length _ _ _ QC3) as L1. pose proof (lies_length _ _ _ QF1) as L2.
  pose proof (length_encodeP cieP) as L3. pose proof (length_encodeP fdeP) as L4. apply lies_at in QC3. apply lies_at in QF1.
  unfold defaultFrame.
  destruct (execLoop_run data (scCode c) (scData c) frame0 noRules Hd Hw2 ltac:(lia) (ex_intro _ _ (frameRel0 data)) cieP fuel (cInsns c') (mkSt 0 frame0 []) (emptyRow, []) ct WC QC3) as (dfr & He & Hdf); try assumption; try lia.
  { split; [reflexivity|]. split; [apply frameRel0|constructor]. }
  { cbn. lia. }
  rewrite He. cbn [bind].
  assert (UD : uniq dfr). { eapply execLoop_uniq; [|exact He]. split; [constructor|constructor]. }
  destruct (seenLoop_spec data (scCode c) (scData c) dfr (rowRule (fst ct)) Hd Hw2 ltac:(lia) (ex_intro _ _ Hdf) fdeP fuel (fInsns f)
     (mkSt (uValue y) dfr []) (mkRow (uValue y) (rowRule (fst ct)) (rowCfa (fst ct)), []) t 0 WF QF1) as (r & Es & R1 & R2 & R3); try assumption; try lia.
  { split; [reflexivity|]. split; [exact Hdf|constructor]. }
  { split; [exact UD|constructor]. }
  { change (2 ^ 64) with W64 in LB. lia. }
  rewrite Es. cbn [bind]. f_equal. unfold userLine, functionLine. cbn [fnName].
  assert (ED : r = d) by (eapply deepest_unique; [|exact DP]; repeat split; assumption). subst r.
  assert (MO : uValue y <= last). { rewrite <- LT. apply (runS_mono (scCode c) (scData c) _ fdeP _ _ ltac:(lia) WF RF). }
  rewrite LT. rewrite u64_id by (unfold isU64; change W64 with (2 ^ 64); lia).
  rewrite (decText_big extent (last - uValue y + 1)) by (try assumption; lia). rewrite (decText_big size (uSize y)) by assumption.
  assert (DB : d < 2 ^ 63 /\ 0 <= d).
  { destruct (runS_fit (scCode c) (scData c) noRules (fun _ _ E0 => ltac:(discriminate E0)) cieP _ _ WC RC) as [FC1 _].
    { repeat split; try (intros; discriminate). constructor. }
    split; [|apply DP]. destruct DP as (_ & _ & [->|(w & (p1 & p2 & st & EP & RN) & OW)]); [lia|].
    assert (WP : forallb (wfI (scCode c) (scData c)) p1 = true) by (rewrite EP, forallb_app in WF; now apply andb_true_iff in WF as [WF _]).
    destruct (runS_fit (scCode c) (scData c) (rowRule (fst ct)) (proj1 FC1) p1 _ _ WP RN) as [FW _]; [split; [exact FC1|constructor]|].
    assert (F64 : fits64 d = true) by (destruct OW as [(z & OW)|(z & OW)]; [now apply (proj1 FW z)|now apply (proj2 FW z)]). unfold fits64 in F64. lia. }
  rewrite (decText_big deep d) by (try assumption; lia). cbn [app]. rewrite <- ?app_assoc. reflexivity.
Qed.

Context (loads : list phdr) (isExec : phdr -> bool).
Context (Lok : Forall ElfObjProofs.segOk loads) (Lsort : StronglySorted (fun x y => p_vaddr x <= p_vaddr y) loads) (Lnd : NoDup loads)
  (Ldis : forall x y, In x loads -> In y loads -> x = y \/ ElfObjProofs.segDisjoint x y).
Definition inSegment (h : phdr) (a : Z) : Prop := In h loads /\ p_vaddr h <= a < p_vaddr h + p_memsz h.
Lemma asked_test names y : asked names (mkFn (uValue y) (uSize y) (uName y)) <-> negb (match names with [] => true | _ => false end) && negb (existsb (fun n => if list_eq_dec Z.eq_dec n (uName y) then true else false) names) = false.
Proof.
  clear. unfold asked. cbn [fnName]. split.
  - intros [->|I]; [reflexivity|]. apply andb_false_iff. right. apply negb_false_iff, existsb_exists. exists (uName y). split; [exact I|]. destruct (list_eq_dec Z.eq_dec (uName y) (uName y)); [reflexivity|contradiction].
  - intros E. apply andb_false_iff in E as [E|E]; apply negb_false_iff in E; [left; now destruct names|right]. apply existsb_exists in E as (n & I & E). destruct (list_eq_dec Z.eq_dec n (uName y)); [now subst n|discriminate].
Qed.
Lemma usersLoop_spec fuel names : (1 < fuel)%nat -> (length data < fuel)%nat -> forall syms t k sc,
  Forall (fun y => 0 <= uValue y < 2 ^ 64 /\ 0 <= uSize y < 2 ^ 64) syms ->
  Report sa es fs (fun a => exists h, inSegment h a) (fun a => exists h, inSegment h a /\ isExec h = true) names (map (fun y => mkFn (uValue y) (uSize y) (uName y)) syms) t ->
  Right k -> ElfObjProofs.cacheOk loads sc -> usersLoop data eh sa loads isExec fuel names syms k sc = Ok t.
Proof.
  intros Hf Hl. induction syms as [|y syms IH]; intros t k sc RG RP RK CK; cbn [map] in RP; [inversion RP; reflexivity|].
  apply Forall_cons_iff in RG as [[RV RS] RG]. cbn [usersLoop].
  assert (SEG : forall h, inSegment h (uValue y) -> exists sc', getSegment loads sc (uValue y) = (sc', Some h) /\ ElfObjProofs.cacheOk loads sc').
  { intros h [Ih Ch]. destruct (ElfObjProofs.getSegment_spec loads Lok Lsort Lnd Ldis sc (uValue y) CK RV) as [G1 G2]. destruct (getSegment loads sc (uValue y)) as [sc' [h'|]]; cbn [fst snd] in *; [|now elim (G2 h Ih)].
    destruct G2 as [Ih' Ch']. exists sc'. split; [|exact G1]. do 2 f_equal. now apply (ElfObjProofs.cover_unique loads Ldis (uValue y)). }
  inversion RP as [|y0 r0 t0 Z0 R0|y0 r0 t0 Z0 S0 C0 R0|y0 r0 t0 Z0 S0 A0 R0|y0 r0 t0 x c d last deep extent size Z0 C0 A0 I0 V0 O0 D0 T1 T2 T3 R0]; subst; cbn [fnSize fnStart] in *.
  - rewrite Z0. cbn [Z.eqb]. now apply IH.
  - replace (uSize y =? 0) with false by lia. destruct S0 as (h & Sh). destruct (SEG h Sh) as (sc' & -> & CK'). destruct (isExec h) eqn:EX; [elim C0; now exists h|]. cbn [negb]. now apply IH.
  - replace (uSize y =? 0) with false by lia. destruct S0 as (h & Sh). destruct (SEG h Sh) as (sc' & -> & CK'). destruct (isExec h); cbn [negb]; [|now apply IH].
    rewrite asked_test in A0. apply not_false_iff_true in A0. rewrite A0. now apply IH.
  - replace (uSize y =? 0) with false by lia. destruct C0 as (h & Sh & EX). destruct (SEG h Sh) as (sc' & -> & CK'). rewrite EX. cbn [negb]. apply asked_test in A0. rewrite A0.
    destruct (userOf_spec fuel k y x c d last deep extent size RK Hf Hl ltac:(lia) RS I0 V0 O0 D0 T1 T2 T3) as (k' & E & RK'). rewrite E. rewrite (IH t0 k' sc' RG R0 RK' CK'). reflexivity.
Qed.
End U.

Lemma full_Right data eh sa es fuel hdr : section eh data es -> 0 <= sa < 2 ^ 64 -> disjointFdes sa es (fdesOf es) -> (length es + 2 <= fuel)%nat -> eh = false \/ hdr = None ->
  exists k, makeCfi data eh sa fuel hdr = Ok k /\ Right data sa es (fdesOf es) k.
Proof.
  intros SEC SA DJ Hf HH. destruct (full_spec data eh sa es fuel SEC SA DJ ltac:(lia)) as (cs & l & fs & E & P & F2 & OR & CI & ALL).
  eexists. split; [unfold makeCfi; rewrite E; cbn [bind]; destruct HH as [-> | ->]; [reflexivity|]; destruct eh; reflexivity|].
  exists fs, (FUdata4, AAbs), 0, [], []. split; [exact P|]. split; [rewrite <- P; apply DJ|]. split; [exact OR|]. split; [cbn [fst In]; auto|]. split; [now left|]. split; [now apply full_TInv|].
  intros i f ZI. cbn [kFdes kCies] in *. apply map_some_znth in ZI as (g & EG & ZI). injection EG as <-. destruct (Forall2_znth_l _ _ _ F2 i f ZI) as ([o x] & ZX & (c & CO & _ & _ & _ & FC & _)). cbn [fst snd] in *. rewrite FC.
  unfold cieOf in CO. destruct (find (fun e => fst e =? sfCie x) es) as [[o1 [c0|f0]]|] eqn:EF; try discriminate. apply find_some in EF as [EF EO]. cbn [fst] in EO. apply Z.eqb_eq in EO. subst o1. now apply (ALL _ c0).
Qed.
Lemma hdr_Right data sa es fuel h H rest ha fs : section true data es -> 0 <= sa < 2 ^ 64 -> (1 < fuel)%nat ->
  H = hdrBytes h ++ rest -> Forall isByte H -> zlen H < 2 ^ 63 -> 0 <= ha < 2 ^ 64 ->
  (forall x, In x fs -> In (fst x, EFde (snd x)) es) -> disjointFdes sa es fs -> hdrOk sa es ha h fs ->
  exists k, makeCfi data true sa fuel (Some (H, ha)) = Ok k /\ Right data sa es fs k.
Proof.
  intros SEC SA Hf EH HB HW HA SUB DJ OK. destruct (hdr_TInv data sa es fuel h H rest ha fs SEC SA Hf EH HB HW HA SUB DJ OK) as (k & T & E & KC & (n & KF) & TI). exists k. split; [exact E|].
  destruct DJ as [FIT DJ]. destruct OK as (PO & CO & TF & TA & F2 & OR). exists fs, (shTabEnc h), ha, (shTab h), T. split; [apply Permutation_refl|]. split; [exact FIT|]. split; [now apply in_order|]. split; [exact TF|]. split; [exact TA|]. split; [exact TI|].
  intros i f ZI. rewrite KF in ZI. apply znth_repeat in ZI. discriminate.
Qed.
