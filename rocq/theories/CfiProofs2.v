From Verif Require Import Base Leb LebSpec LebProofs DwarfReader DwarfReaderProofs Cfi CfiSpec CfiProofs.

(** ** FDE lookup *)
Lemma findFDEloop_spec (sorted : Prop) fdes addr :
  (sorted -> forall i j a b, znth i fdes = Some a -> znth j fdes = Some b -> i < j ->
     iloc a + irange a <= iloc b) ->
  (forall e, In e fdes -> 0 <= iloc e /\ 0 <= irange e /\ iloc e + irange e < W64) ->
  forall fuel start end_, 0 <= start <= end_ -> end_ <= zlen fdes -> end_ - start < Z.of_nat fuel ->
  (sorted -> forall i a, znth i fdes = Some a -> iloc a <= addr < iloc a + irange a -> start <= i < end_) ->
  (exists e, findFDEloop fuel fdes addr start end_ = Ok (Some e) /\ In e fdes /\ iloc e <= addr < iloc e + irange e) \/
  (findFDEloop fuel fdes addr start end_ = Ok None /\
   (sorted -> forall e, In e fdes -> ~ iloc e <= addr < iloc e + irange e)).
Proof.
  intros Hs Hr. induction fuel as [|fuel IH]; intros start end_ H0 H1 Hf Hin; cbn [findFDEloop].
  { exfalso; lia. }
  destruct (start <? end_) eqn:E.
  - set (mid := start + (end_ - start) / 2). assert (Hm : start <= mid < end_) by (unfold mid; lia).
    destruct (znth_lt mid fdes) as [e He]; [lia|]. rewrite He.
    assert (Hie : In e fdes).
    { rewrite znth_nth_error in He by lia. eapply nth_error_In; exact He. }
    pose proof (Hr e Hie) as (He1 & He2 & He3).
    destruct (iloc e <=? addr) eqn:E1.
    + rewrite u64_id by (unfold isU64; lia). destruct (addr <? iloc e + irange e) eqn:E2.
      * left. exists e. split; [reflexivity|]. split; [exact Hie|]. lia.
      * apply IH; try lia. intros S i a Ha Hc. specialize (Hin S i a Ha Hc).
        destruct (Z_lt_dec i mid) as [L|L].
        -- specialize (Hs S i mid a e Ha He L). lia.
        -- destruct (Z.eq_dec i mid) as [->|]; [|lia]. rewrite He in Ha. inversion Ha; subst. lia.
    + apply IH; try lia. intros S i a Ha Hc. specialize (Hin S i a Ha Hc).
      destruct (Z_lt_dec i mid) as [L|L]; [lia|].
      destruct (Z.eq_dec i mid) as [->|]; [rewrite He in Ha; inversion Ha; subst; lia|].
      specialize (Hs S mid i e a He Ha ltac:(lia)). lia.
  - right. split; [reflexivity|]. intros S e He Hc. apply In_nth_error in He. destruct He as [n Hn].
    specialize (Hin S (Z.of_nat n) e). rewrite znth_nth_error in Hin by lia. rewrite Nat2Z.id in Hin.
    specialize (Hin Hn Hc). lia.
Qed.

(** Pairwise order, as a list predicate. *)
Lemma ordPairs_znth (R : fde -> fde -> Prop) l : ForallOrdPairs R l ->
  forall i j a b, znth i l = Some a -> znth j l = Some b -> i < j -> R a b.
Proof.
  induction 1 as [|x l Hx Hl IH]; intros i j a b Ha Hb Hij; [discriminate|].
  pose proof (znth_some _ _ _ Ha). cbn [znth] in Ha, Hb.
  destruct (j =? 0) eqn:Ej; [lia|]. destruct (j <? 0) eqn:?; [lia|].
  destruct (i =? 0) eqn:Ei.
  - inversion Ha; subst. rewrite Forall_forall in Hx. apply Hx.
    pose proof (znth_some _ _ _ Hb). rewrite znth_nth_error in Hb by lia. eapply nth_error_In; eauto.
  - destruct (i <? 0) eqn:?; [lia|]. eapply IH; eauto; lia.
Qed.

Lemma findFDE_any fdes addr :
  (forall e, In e fdes -> 0 <= iloc e /\ 0 <= irange e /\ iloc e + irange e < W64) ->
  (exists e, findFDE fdes addr = Ok (Some e) /\ In e fdes /\ iloc e <= addr < iloc e + irange e) \/
  findFDE fdes addr = Ok None.
Proof.
  intros Hr. unfold findFDE.
  destruct (findFDEloop_spec False fdes addr ltac:(tauto) Hr (S (length fdes)) 0 (zlen fdes)) as [H|[H _]];
    try (unfold zlen; lia); tauto.
Qed.
Lemma findFDE_sorted fdes addr :
  ForallOrdPairs (fun a b => iloc a + irange a <= iloc b) fdes ->
  (forall e, In e fdes -> 0 <= iloc e /\ 0 <= irange e /\ iloc e + irange e < W64) ->
  (exists e, findFDE fdes addr = Ok (Some e) /\ In e fdes /\ iloc e <= addr < iloc e + irange e) \/
  (findFDE fdes addr = Ok None /\ forall e, In e fdes -> ~ iloc e <= addr < iloc e + irange e).
Proof.
  intros Ho Hr. unfold findFDE.
  destruct (findFDEloop_spec True fdes addr (fun _ => ordPairs_znth _ _ Ho) Hr (S (length fdes)) 0 (zlen fdes))
    as [H|[H H']]; try (unfold zlen; lia).
  - intros _ i a Ha _. apply znth_some in Ha. lia.
  - left; exact H.
  - right. split; [exact H|auto].
Qed.

(** ** Running the whole program *)
Lemma execLoop_run data ca da d ini :
  Forall isByte data -> zlen data + 32 < W64 -> 0 <= ca -> (exists c, frameRel data d ini c) ->
  forall p fuel off s t t',
  forallb (wfI ca da) p = true -> at_ data off (encodeP p) ->
  stRel data s t -> runS ca da ini t p = Some t' -> 0 <= rowLoc (fst t) -> rowLoc (fst t') < W64 ->
  (length p < fuel)%nat ->
  exists f, execLoop fuel data (mkCie ca da) d (fun _ => false) (off + zlen (encodeP p)) off s = Ok f /\
    frameRel data f (rowRule (fst t')) (rowCfa (fst t')).
Proof.
  intros Hd Hw Hca Hdf. induction p as [|i p IH]; intros fuel off s t t' Hwf Hat Hrel Hrun Hl0 Hl Hfuel.
  - cbn [runS] in Hrun. inversion Hrun; subst. destruct fuel as [|fuel]; [cbn in Hfuel; lia|].
    cbn [execLoop encodeP flat_map]. change (zlen (@nil Z)) with 0.
    replace (off =? off + 0) with true by lia. cbn [orb]. exists (fr s). split; [reflexivity|apply Hrel].
  - cbn [forallb] in Hwf. apply andb_true_iff in Hwf. destruct Hwf as [Hi Hp].
    cbn [runS] in Hrun. destruct (stepS ca da ini t i) as [t1|] eqn:Es; [|discriminate].
    pose proof (stepS_mono _ _ _ _ _ _ Hi Hca Es) as [Hm1 _].
    assert (Hend : rowLoc (fst t1) <= rowLoc (fst t')).
    { clear - Hrun Hp Hca. revert t1 Hrun. induction p as [|j p IH]; intros t1 Hrun; cbn [runS] in Hrun.
      - inversion Hrun; lia.
      - cbn [forallb] in Hp. apply andb_true_iff in Hp. destruct Hp as [Hj Hp].
        destruct (stepS ca da ini t1 j) as [t2|] eqn:E; [|discriminate].
        pose proof (stepS_mono _ _ _ _ _ _ Hj Hca E) as [Hm _]. specialize (IH Hp t2 Hrun). lia. }
    cbn [encodeP flat_map] in Hat. apply at_app in Hat. destruct Hat as [Hat1 Hat2].
    pose proof (proj1 Hat1) as Hoff.
    destruct (exec_refines data ca da d ini s t i t1 off Hi Hca Hat1 Hoff (or_intror Hdf) Hrel Es Hl0 ltac:(lia))
      as (s' & Hex & Hrel').
    destruct fuel as [|fuel]; [cbn in Hfuel; lia|].
    cbn [execLoop encodeP flat_map]. rewrite zlen_app. fold (encodeP p) in *.
    pose proof (encodeI_nonempty i). pose proof (zlen_nonneg (encodeP p)).
    replace (off =? off + (zlen (encodeI i) + zlen (encodeP p))) with false by lia. cbn [orb].
    rewrite (decode_encode data off i ca da Hd Hw Hi Hat1). cbn [bind]. rewrite Hex. cbn [bind].
    destruct (IH fuel (off + zlen (encodeI i)) s' t1 t' Hp Hat2 Hrel' Hrun ltac:(lia) Hl ltac:(cbn in Hfuel; lia))
      as (f & He & Hr).
    exists f. split; [|exact Hr]. rewrite <- He. f_equal. lia.
Qed.

Lemma frameRel0 data : frameRel data frame0 noRules CfaUnset.
Proof. split; [intros r; exact I|exact I]. Qed.

Lemma fdeExec_table data ca da cieOff cieP fdeOff fdeP iloc0 pc fuel ct rows :
  Forall isByte data -> zlen data + 32 < W64 -> 0 <= ca ->
  at_ data cieOff (encodeP cieP) -> at_ data fdeOff (encodeP fdeP) ->
  forallb (wfI ca da) cieP = true -> forallb (wfI ca da) fdeP = true ->
  runS ca da noRules (emptyRow, []) cieP = Some ct -> rowLoc (fst ct) < W64 ->
  table ca da (rowRule (fst ct)) (mkRow iloc0 (rowRule (fst ct)) (rowCfa (fst ct)), []) fdeP = Some rows ->
  locsFit rows -> iloc0 <= pc ->
  (length cieP + length fdeP < fuel)%nat ->
  exists f w, fdeExec fuel data (mkCie ca da) cieOff (cieOff + zlen (encodeP cieP))
                      fdeOff (fdeOff + zlen (encodeP fdeP)) iloc0 pc = Ok f /\
    rowAt pc rows = Some w /\ frameRel data f (rowRule w) (rowCfa w).
Proof.
  intros Hd Hw Hca Hc Hf Hwc Hwf Hrun Hlc Ht Hfit Hpc Hfuel. unfold fdeExec, defaultFrame.
  destruct (execLoop_run data ca da frame0 noRules Hd Hw Hca (ex_intro _ _ (frameRel0 data)) cieP fuel cieOff
     (mkSt 0 frame0 []) (emptyRow, []) ct Hwc Hc) as (dfr & He & Hdf); try assumption; try lia.
  { split; [reflexivity|]. split; [apply frameRel0|constructor]. }
  { cbn. lia. }
  rewrite He. cbn [bind].
  destruct (execLoop_table data ca da dfr (rowRule (fst ct)) pc Hd Hw Hca (ex_intro _ _ Hdf) fdeP fuel fdeOff
     (mkSt iloc0 dfr []) (mkRow iloc0 (rowRule (fst ct)) (rowCfa (fst ct)), []) rows Hwf Hf) as (f & w & H); try assumption; try lia.
  { split; [reflexivity|]. split; [exact Hdf|constructor]. }
  exists f, w. exact H.
Qed.

(** ** remember/restore *)
(** Execution of a list of already-located instructions. *)
Fixpoint execSeq (c : cieParams) (d : frame) (off : Z) (s : cfst) (p : list sinsn) : res cfst :=
  match p with
  | [] => Ok s
  | i :: r => let* s' := execInsn c d s (lower off i) in execSeq c d (off + zlen (encodeI i)) s' r
  end.
Lemma execSeq_app c d p q : forall off s,
  execSeq c d off s (p ++ q) = let* s' := execSeq c d off s p in execSeq c d (off + zlen (encodeP p)) s' q.
Proof.
  induction p as [|i p IH]; intros off s; cbn [app execSeq encodeP flat_map].
  - cbn [bind]. change (zlen (@nil Z)) with 0. now rewrite Z.add_0_r.
  - destruct (execInsn c d s (lower off i)); cbn [bind]; try reflexivity. rewrite IH.
    fold (encodeP p). rewrite zlen_app, Z.add_assoc. reflexivity.
Qed.
Lemma execLoop_seq data ca da d : Forall isByte data -> zlen data + 32 < W64 ->
  forall p fuel off s, forallb (wfI ca da) p = true -> at_ data off (encodeP p) -> (length p < fuel)%nat ->
  execLoop fuel data (mkCie ca da) d (fun _ => false) (off + zlen (encodeP p)) off s =
  let* s' := execSeq (mkCie ca da) d off s p in Ok (fr s').
Proof.
  intros Hd Hw. induction p as [|i p IH]; intros fuel off s Hwf Hat Hfuel; (destruct fuel as [|fuel]; [cbn in Hfuel; lia|]).
  - cbn [execLoop encodeP flat_map execSeq]. change (zlen (@nil Z)) with 0.
    replace (off =? off + 0) with true by lia. reflexivity.
  - cbn [forallb] in Hwf. apply andb_true_iff in Hwf. destruct Hwf as [Hi Hp].
    cbn [encodeP flat_map] in Hat. apply at_app in Hat. destruct Hat as [Hat1 Hat2].
    cbn [execLoop encodeP flat_map execSeq]. rewrite zlen_app. fold (encodeP p) in *.
    pose proof (encodeI_nonempty i). pose proof (zlen_nonneg (encodeP p)).
    replace (off =? off + (zlen (encodeI i) + zlen (encodeP p))) with false by lia. cbn [orb].
    rewrite (decode_encode data off i ca da Hd Hw Hi Hat1). cbn [bind].
    destruct (execInsn (mkCie ca da) d s (lower off i)) as [s'| | |]; cbn [bind]; try reflexivity.
    rewrite <- (IH fuel (off + zlen (encodeI i)) s' Hp Hat2) by (cbn in Hfuel; lia). f_equal. lia.
Qed.
Lemma exec_plain_ok ca da d s i off : wfI ca da i = true -> i <> SRemember -> i <> SRestoreState ->
  exists s', execInsn (mkCie ca da) d s (lower off i) = Ok s' /\ stk s' = stk s.
Proof.
  intros Hwf H1 H2. destruct i; cbn [wfI lower execInsn dataAlign codeAlign] in *; try congruence;
    repeat match goal with H : (_ && _)%bool = true |- _ => apply andb_true_iff in H; destruct H end;
    try (rewrite s64_fits by assumption); try (rewrite smul_fits by assumption); cbn [bind];
    eexists; split; reflexivity.
Qed.
Lemma execSeq_balanced ca da d p : balanced p -> forall off s, forallb (wfI ca da) p = true ->
  exists s', execSeq (mkCie ca da) d off s p = Ok s' /\ stk s' = stk s.
Proof.
  induction 1 as [|i p H1 H2 Hp IH|p q Hp IHp Hq IHq]; intros off s Hwf; cbn [execSeq].
  - eauto.
  - cbn [forallb] in Hwf. apply andb_true_iff in Hwf. destruct Hwf as [Hi Hw].
    destruct (exec_plain_ok ca da d s i off Hi H1 H2) as (s1 & -> & E1). cbn [bind].
    destruct (IH (off + zlen (encodeI i)) s1 Hw) as (s2 & -> & E2). exists s2. split; [reflexivity|congruence].
  - cbn [forallb wfI andb] in Hwf. rewrite forallb_app in Hwf. apply andb_true_iff in Hwf. destruct Hwf as [Hw1 Hw2].
    cbn [forallb wfI andb] in Hw2. cbn [lower execInsn bind]. rewrite execSeq_app.
    destruct (IHp (off + zlen (encodeI SRemember)) (mkSt (loc s) (fr s) (fr s :: stk s)) Hw1) as (s1 & -> & E1).
    cbn [bind execSeq lower execInsn]. rewrite E1. cbn [stk bind].
    match goal with |- context [execSeq _ _ ?o ?st q] => destruct (IHq o st Hw2) as (s2 & -> & E2) end.
    exists s2. split; [reflexivity|]. rewrite E2. reflexivity.
Qed.
Lemma execSeq_bracket ca da d q : balanced q -> forall off s, forallb (wfI ca da) q = true ->
  exists s', execSeq (mkCie ca da) d off s (SRemember :: q ++ [SRestoreState]) = Ok s' /\ fr s' = fr s /\ stk s' = stk s.
Proof.
  intros Hq off s Hwf. cbn [execSeq lower execInsn bind]. rewrite execSeq_app.
  destruct (execSeq_balanced ca da d q Hq (off + zlen (encodeI SRemember)) (mkSt (loc s) (fr s) (fr s :: stk s)) Hwf)
    as (s1 & -> & E1). cbn [bind execSeq lower execInsn]. rewrite E1. cbn [stk bind].
  eexists. split; [reflexivity|]. split; reflexivity.
Qed.
Lemma bracket_restores data ca da d p q fuel off s f :
  Forall isByte data -> zlen data + 32 < W64 ->
  at_ data off (encodeP (p ++ SRemember :: q ++ [SRestoreState])) ->
  forallb (wfI ca da) p = true -> forallb (wfI ca da) q = true -> balanced q ->
  (length p + length q + 2 < fuel)%nat ->
  execLoop fuel data (mkCie ca da) d (fun _ => false) (off + zlen (encodeP p)) off s = Ok f ->
  execLoop fuel data (mkCie ca da) d (fun _ => false)
    (off + zlen (encodeP (p ++ SRemember :: q ++ [SRestoreState]))) off s = Ok f.
Proof.
  intros Hd Hw Hat Hp Hq Hb Hfuel He.
  assert (Hwf : forallb (wfI ca da) (p ++ SRemember :: q ++ [SRestoreState]) = true).
  { rewrite forallb_app, Hp. cbn [forallb wfI andb]. rewrite forallb_app, Hq. reflexivity. }
  assert (Hat1 : at_ data off (encodeP p)).
  { unfold encodeP in Hat. rewrite flat_map_app in Hat. apply at_app in Hat. apply Hat. }
  rewrite execLoop_seq in He |- *; try assumption; try lia.
  2: { rewrite app_length. cbn [length]. rewrite app_length. cbn [length]. lia. }
  rewrite execSeq_app. destruct (execSeq (mkCie ca da) d off s p) as [s1| | |]; cbn [bind] in *; try discriminate.
  destruct (execSeq_bracket ca da d q Hb (off + zlen (encodeP p)) s1 Hq) as (s2 & -> & E1 & _). cbn [bind]. congruence.
Qed.

(** ** Encoded pointers *)
Lemma getuint_at n data off v : Forall isByte data -> zlen data + 32 < W64 -> (0 < n <= 8)%nat ->
  at_ data off (leBytes n v) -> 0 <= v < 256 ^ Z.of_nat n -> getuint data off (Z.of_nat n) = Ok (v, off + Z.of_nat n).
Proof.
  intros Hd Hw Hn H Hv. destruct (at_bytes _ _ _ _ H ltac:(lia)) as [Hl Ht]. destruct H as [H0 _].
  rewrite getuint_le8 by (try assumption; lia). rewrite Ht. now rewrite leValue_leBytes.
Qed.
Lemma getint_at n data off v : Forall isByte data -> zlen data + 32 < W64 -> (0 < n <= 8)%nat ->
  at_ data off (leBytes n (v mod 256 ^ Z.of_nat n)) -> - 256 ^ Z.of_nat n / 2 <= v < 256 ^ Z.of_nat n / 2 ->
  256 ^ Z.of_nat n mod 2 = 0 ->
  getint data off (Z.of_nat n) = Ok (v, off + Z.of_nat n).
Proof.
  intros Hd Hw Hn H Hv Hev. destruct (at_bytes _ _ _ _ H ltac:(lia)) as [Hl Ht]. destruct H as [H0 _].
  rewrite getint_spec by (try assumption; lia). rewrite Ht. unfold leSigned.
  assert (Hpos : 0 < 256 ^ Z.of_nat n) by (apply Z.pow_pos_nonneg; lia).
  rewrite leValue_leBytes by (apply Z.mod_pos_bound; lia). rewrite leBytes_len.
  set (M := 256 ^ Z.of_nat n) in *. do 2 f_equal.
  destruct (Z_lt_dec v 0).
  - replace (v mod M) with (v + M).
    + replace (2 * (v + M) <? M) with false; lia.
    + apply Z.mod_unique with (-1); lia.
  - rewrite Z.mod_small by lia. replace (2 * v <? M) with true; lia.
Qed.

Lemma enc_decompose f a (ind : bool) : let enc := fmtCode f + appCode a + (if ind then 128 else 0) in
  Z.land enc 15 = fmtCode f /\ Z.land enc 112 = appCode a /\ (Z.land enc 128 =? 0) = negb ind.
Proof. destruct f, a, ind; vm_compute; repeat split. Qed.

Lemma decodeAddress_spec data off f v a (ind : bool) sectionAddr sectionVa :
  Forall isByte data -> zlen data + 32 < W64 -> f <> FAbs -> fmtRange f v -> at_ data off (fmtBytes f v) ->
  decodeAddress data off (fmtCode f + appCode a + (if ind then 128 else 0)) sectionAddr sectionVa =
  Ok ((v + match a with AAbs => 0 | APcrel => sectionAddr + off | ATextrel | ADatarel => sectionVa end) mod W64,
      ind, off + zlen (fmtBytes f v)).
Proof.
  intros Hd Hw Hf Hr Hat. unfold decodeAddress.
  destruct (enc_decompose f a ind) as (-> & -> & ->). rewrite negb_involutive.
  assert (Hread : forall k : Z * Z -> res (Z * bool * Z),
    bind (if fmtCode f =? 10 then getint data off 2 else if fmtCode f =? 11 then getint data off 4
     else if fmtCode f =? 12 then getint data off 8 else if fmtCode f =? 2 then getuint data off 2
     else if fmtCode f =? 3 then getuint data off 4 else if fmtCode f =? 4 then getuint data off 8
     else if fmtCode f =? 9 then getsleb data off else if fmtCode f =? 1 then getuleb data off
     else if fmtCode f =? 0 then getint data off 4 else Throw) k = k (v, off + zlen (fmtBytes f v))).
  { intros k. destruct f; cbn [fmtCode fmtRange fmtBytes Z.eqb Pos.eqb] in *; try congruence.
    - rewrite (getuleb_at _ _ v Hat) by (unfold W64; change (2^64) with 18446744073709551616 in Hr; lia). reflexivity.
    - change 2 with (Z.of_nat 2). rewrite (getuint_at 2 data off v) by (try assumption; try lia; exact Hr).
      rewrite leBytes_len. reflexivity.
    - change 4 with (Z.of_nat 4). rewrite (getuint_at 4 data off v) by (try assumption; try lia; exact Hr).
      rewrite leBytes_len. reflexivity.
    - change 8 with (Z.of_nat 8). rewrite (getuint_at 8 data off v) by (try assumption; try lia; exact Hr).
      rewrite leBytes_len. reflexivity.
    - rewrite (getsleb_at _ _ v Hat) by exact Hr. reflexivity.
    - change 2 with (Z.of_nat 2). rewrite (getint_at 2 data off v) by (try assumption; try lia; try reflexivity; exact Hr).
      rewrite leBytes_len. reflexivity.
    - change 4 with (Z.of_nat 4). rewrite (getint_at 4 data off v) by (try assumption; try lia; try reflexivity; exact Hr).
      rewrite leBytes_len. reflexivity.
    - change 8 with (Z.of_nat 8). rewrite (getint_at 8 data off v) by (try assumption; try lia; try reflexivity; exact Hr).
      rewrite leBytes_len. reflexivity. }
  rewrite Hread. destruct a; cbn [appCode Z.eqb Pos.eqb]; unfold u64;
    match goal with |- Ok (?x, _, _) = Ok (?y, _, _) => replace x with y by (apply (f_equal (fun z => z mod W64)); lia); reflexivity end.
Qed.
