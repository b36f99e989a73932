From Verif Require Import Base Leb LebSpec DwarfReader DwarfReaderProofs MapsSpec Regs Cfi CfiSpec CfiProofs Expr ExprSpec ExprProofs Json Args ArgsSpec.

(** ** Numbers *)
Lemma num_nonneg base s v : 0 <= base -> numeral base s v -> 0 <= v.
Proof. intros Hb H. induction H as [c d [H _]|s v c d H IH [H2 _]]; [lia|nia]. Qed.
Lemma num_ne base s v : numeral base s v -> s <> [].
Proof. intros H; destruct H; [discriminate|]. intros E. now apply app_eq_nil in E as [_ E]. Qed.
Lemma num_pos base s v : 2 <= base -> numeral base s v -> hd 0 s <> 48 -> 1 <= v.
Proof.
  intros Hb H. induction H as [c d [H D]|s v c d H IH [H2 D]]; intros N; [cbn in N; lia|].
  assert (1 <= v); [|nia]. apply IH. pose proof (num_ne _ _ _ H). destruct s; [easy|exact N].
Qed.
Fixpoint numText (base : Z) (fuel : nat) (v : Z) : list Z :=
  match fuel with
  | O => []
  | S f => if v <? base then [hexChar v] else numText base f (v / base) ++ [hexChar (v mod base)]
  end.
Lemma digit_char base c d : digitOf base c d -> c = hexChar d.
Proof. intros [_ [[H ->]|[H ->]]]; unfold hexChar; [replace (d <? 10) with true by lia|replace (d <? 10) with false by lia]; reflexivity. Qed.
Lemma numText_canon base : 2 <= base -> forall fuel s v, (0 < fuel)%nat -> canonical base s v -> v < base ^ Z.of_nat fuel -> numText base fuel v = s.
Proof.
  intros Hb. induction fuel as [|f IH]; intros s v Hf [N C] L; [lia|]. cbn [numText]. destruct N as [c d D|s0 v0 c d N D].
  - destruct (D) as [D1 _]. replace (d <? base) with true by lia. now rewrite (digit_char _ _ _ D).
  - pose proof (num_ne _ _ _ N) as Ne. assert (H0 : hd 0 s0 <> 48).
    { intros E. destruct s0 as [|x s0]; [easy|]. cbn in E. subst x. specialize (C eq_refl). destruct s0; discriminate. }
    pose proof (num_pos base _ _ Hb N H0) as P. destruct (D) as [D1 _].
    assert (Q : (v0 * base + d) / base = v0) by (rewrite Z.div_add_l by lia; rewrite Z.div_small by lia; lia).
    assert (R : (v0 * base + d) mod base = d) by (rewrite Z.add_comm, Z.mod_add by lia; apply Z.mod_small; lia).
    replace (v0 * base + d <? base) with false by nia. rewrite Q, R, <- (digit_char _ _ _ D). f_equal.
    replace (Z.of_nat (S f)) with (Z.of_nat f + 1) in L by lia. rewrite Z.pow_add_r in L by lia. rewrite Z.pow_1_r in L.
    destruct f as [|f']; [change (Z.of_nat 0) with 0 in L; rewrite Z.pow_0_r in L; nia|]. apply IH; [lia|split; [exact N|intros E; now elim H0]|]. set (w := base ^ Z.of_nat (S f')) in *. nia.
Qed.
Lemma decText_num fuel v : 0 <= v -> decText fuel v = numText 10 fuel v.
Proof.
  revert v; induction fuel as [|f IH]; intros v Hv; [reflexivity|]. cbn [decText numText]. unfold hexChar. destruct (v <? 10) eqn:E; [reflexivity|].
  rewrite IH by (apply Z.div_pos; lia). pose proof (Z.mod_pos_bound v 10 ltac:(lia)). now replace (v mod 10 <? 10) with true by lia.
Qed.
Lemma hexText_num fuel v : hexText fuel v = numText 16 fuel v.
Proof. revert v; induction fuel as [|f IH]; intros v; [reflexivity|]. cbn [hexText numText]. now rewrite IH. Qed.
Lemma intText_dec s v : - 2 ^ 63 <= v < 2 ^ 63 -> decimal s v -> intText v = s.
Proof.
  intros R [[H C]|[H (r & -> & C)]]; unfold intText.
  - replace (v <? 0) with false by lia. rewrite decText_num by lia. apply numText_canon; [lia|lia|exact C|]. change (10 ^ Z.of_nat 20) with 100000000000000000000. lia.
  - replace (v <? 0) with true by lia. f_equal. rewrite decText_num by lia. apply numText_canon; [lia|lia|exact C|]. change (10 ^ Z.of_nat 20) with 100000000000000000000. lia.
Qed.
Lemma ptrText_ptr s v : 0 <= v < 2 ^ 64 -> pointer s v -> ptrText v = s.
Proof.
  intros R [[-> ->]|[H (r & -> & C)]]; unfold ptrText; [reflexivity|]. replace (v =? 0) with false by lia. cbn [app]. do 2 f_equal. rewrite hexText_num.
  apply numText_canon; [lia|lia|exact C|]. change (16 ^ Z.of_nat 16) with (2 ^ 64). lia.
Qed.

(** ** Memory *)
Lemma holds_prefix m : forall bs a, holds m a bs -> prefix m a (length bs) = bs.
Proof.
  induction bs as [|b bs IH]; intros a H; [reflexivity|]. cbn [length prefix]. pose proof (H 0) as H1. rewrite Z.add_0_r in H1. rewrite H1 by (rewrite zlen_cons; pose proof (zlen_nonneg bs); lia).
  change (znth 0 (b :: bs)) with (Some b). cbv iota. f_equal. apply IH. intros i Hi. replace (a + 1 + i) with (a + (i + 1)) by lia. rewrite H by (rewrite zlen_cons; lia).
  rewrite !znth_nth_error by lia. replace (Z.to_nat (i + 1)) with (S (Z.to_nat i)) by lia. reflexivity.
Qed.
Lemma rvBuf_mem m a d bs : tSize d = Some (zlen bs) -> holds m a bs -> rvBuf m a false d = bs.
Proof.
  intros S H. unfold rvBuf. rewrite S. unfold zlen. rewrite Nat2Z.id. rewrite (holds_prefix _ _ _ H). rewrite Nat.sub_diag. cbn [repeat]. apply app_nil_r.
Qed.

Lemma leSigned_leBytes n v : - 2 ^ (8 * Z.of_nat n - 1) <= v < 2 ^ (8 * Z.of_nat n - 1) -> (0 < n)%nat ->
  leSigned (leBytes n (v mod 2 ^ (8 * Z.of_nat n))) = v.
Proof.
  intros H Hn. assert (E : 256 ^ Z.of_nat n = 2 ^ (8 * Z.of_nat n)) by (change 256 with (2 ^ 8); rewrite <- Z.pow_mul_r by lia; reflexivity).
  assert (D : 2 ^ (8 * Z.of_nat n) = 2 * 2 ^ (8 * Z.of_nat n - 1)) by (rewrite <- Z.pow_succ_r by lia; f_equal; lia).
  unfold leSigned. rewrite leBytes_len, E. rewrite leValue_leBytes by (rewrite E; apply Z.mod_pos_bound; lia). set (h := 2 ^ (8 * Z.of_nat n - 1)) in *. rewrite D.
  assert (0 < h) by (unfold h; apply Z.pow_pos_nonneg; lia).
  destruct (Z.lt_ge_cases v 0) as [L|L].
  - replace (v mod (2 * h)) with (v + 2 * h) by (symmetry; rewrite <- (Z.mod_small (v + 2 * h) (2 * h)) by lia; rewrite <- (Z.mod_add v 1 (2 * h)) by lia; f_equal; lia).
    replace (2 * (v + 2 * h) <? 2 * h) with false by lia. lia.
  - rewrite Z.mod_small by lia. replace (2 * v <? 2 * h) with true by lia. lia.
Qed.

(** ** Types *)
Lemma cv_test tag : isCV tag -> (tag =? 22) || (tag =? 38) || (tag =? 53) = true.
Proof. unfold isCV. lia. Qed.
Lemma cv_test' tag : ~ isCV tag -> (tag =? 22) || (tag =? 38) || (tag =? 53) = false.
Proof. unfold isCV. lia. Qed.
Lemma ptr_test tag : isPtr tag -> (tag =? 36) = false /\ (tag =? 16) || (tag =? 15) = true.
Proof. unfold isPtr. lia. Qed.
Lemma strips_remove types t k : strips types t k -> exists n, forall fuel, (n <= fuel)%nat -> removeCV types fuel (Some t) = Ok (Some k).
Proof.
  induction 1 as [k d E N|k d k2 k3 E C R _ [n IH]].
  - exists 1%nat. intros [|f] Hf; [lia|]. cbn [removeCV]. rewrite E, cv_test' by exact N. reflexivity.
  - exists (S n). intros [|f] Hf; [lia|]. cbn [removeCV]. rewrite E, cv_test by exact C. rewrite R. apply IH. lia.
Qed.
Lemma strips_end types t k : strips types t k -> exists d, types k = Some d /\ ~ isCV (tTag d).
Proof. induction 1; eauto. Qed.

(** ** Values *)
Section V.
Context (m : memory) (str : Z -> res (list Z)) (types : Z -> option tdie) (dt ft : list Z -> list Z).
Notation rv := (rvText m str types dt ft).
Lemma rv_base f a k d bs : a <> 0 -> types k = Some d -> tTag d = 36 -> tSize d = Some (zlen bs) -> holds m a bs ->
  rv (S f) a false (Some k) = baseText dt ft d bs.
Proof.
  intros Na E T S H. cbn [rvText]. rewrite E. rewrite (rvBuf_mem m a d bs S H). replace (a =? 0) with false by lia. rewrite T. reflexivity.
Qed.
Lemma rv_ptr f a k d p : a <> 0 -> types k = Some d -> isPtr (tTag d) -> tSize d = Some 8 -> 0 <= p < 2 ^ 64 -> holds m a (leBytes 8 p) ->
  rv (S f) a false (Some k) = andThen (emit (ptrText p))
    (match removeCV types f (tRef d) with
     | Ok None => emit []
     | Ok (Some k') => match types k' with
                       | None => emit []
                       | Some d' => if list_eq_dec Z.eq_dec (tName d') charTxt then match str p with Ok s => emit ([32; 34] ++ s ++ [34]) | Throw => ([], Throw) | UB => ([], UB) | OutOfFuel => ([], OutOfFuel) end
                                    else if p =? 0 then emit nullptrTxt else andThen (emit [45; 62]) (rv f p false (Some k'))
                       end
     | Throw => ([], Throw) | UB => ([], UB) | OutOfFuel => ([], OutOfFuel)
     end).
Proof.
  intros Na E T S P H. cbn [rvText]. rewrite E. rewrite (rvBuf_mem m a d (leBytes 8 p)); [|now rewrite leBytes_len|exact H]. replace (a =? 0) with false by lia.
  destruct (ptr_test _ T) as [-> ->]. rewrite leBytes_len. change (Z.of_nat 8 <? 8) with false. cbv iota zeta.
  rewrite ztake_all by (rewrite leBytes_len; lia). rewrite leValue_leBytes by (change (256 ^ Z.of_nat 8) with (2 ^ 64); exact P). reflexivity.
Qed.
Lemma shows_text a k s : shows m str types a k s -> exists n, forall fuel, (n <= fuel)%nat -> rv fuel a false (Some k) = emit s.
Proof.
  induction 1 as [a k d n v s Na E T S En Hn Hv Hm Hd|a k d n v s Na E T S En Hn Hv Hm Hd|a k d c Na E T S En Hm|a k d c Na E T S En Hm Hc|a k d Na E T S En Hm
    |a k d p s Na E T S R P Hm Hp|a k d p s t k' d' txt Na E T S R St E' Nm Hs P Hm Hp|a k d s t k' d' Na E T S R St E' Nm Hm ->|a k d p s t k' d' s' Na E T S R St E' Nm Np P Hm Hp _ [n IH]].
  - exists 1%nat. intros [|f] Hf; [lia|]. rewrite (rv_base f a k d _ Na E T ltac:(rewrite leBytes_len; exact S) Hm). unfold baseText. rewrite En. change (5 =? 1) with false. change (5 =? 2) with false. change (5 =? 5) with true. cbn [orb].
    rewrite leSigned_leBytes by (try exact Hv; lia). rewrite leBytes_len. replace (Z.of_nat n =? 1) with false by lia. replace (_ || _) with true by lia. f_equal.
    apply intText_dec; [|exact Hd]. destruct Hn as [->|[->| ->]]; cbn in Hv |- *; lia.
  - exists 1%nat. intros [|f] Hf; [lia|]. rewrite (rv_base f a k d _ Na E T ltac:(rewrite leBytes_len; exact S) Hm). unfold baseText. rewrite En. change (7 =? 1) with false. change (7 =? 2) with false. change (7 =? 5) with false. change (7 =? 6) with false. change (7 =? 7) with true. cbn [orb].
    assert (0 < 2 ^ (8 * Z.of_nat n - 1)) by (apply Z.pow_pos_nonneg; lia).
    assert (D : 2 ^ (8 * Z.of_nat n) = 2 * 2 ^ (8 * Z.of_nat n - 1)) by (rewrite <- Z.pow_succ_r by lia; f_equal; lia).
    replace (leSigned (leBytes n v)) with v by (rewrite <- (leSigned_leBytes n v) at 1 by lia; do 2 f_equal; apply Z.mod_small; lia). rewrite leBytes_len. replace (Z.of_nat n =? 1) with false by lia. replace (_ || _) with true by lia. f_equal.
    apply intText_dec; [|exact Hd]. destruct Hn as [->|[->| ->]]; cbn in Hv |- *; lia.
  - exists 1%nat. intros [|f] Hf; [lia|]. rewrite (rv_base f a k d [c] Na E T S Hm). unfold baseText. destruct En as [-> | ->]; reflexivity.
  - exists 1%nat. intros [|f] Hf; [lia|]. rewrite (rv_base f a k d [c] Na E T S Hm). unfold baseText. rewrite En. change (2 =? 1) with false. change (2 =? 2) with true. cbn [existsb]. now replace (c =? 0) with false by lia.
  - exists 1%nat. intros [|f] Hf; [lia|]. rewrite (rv_base f a k d [0] Na E T S Hm). unfold baseText. now rewrite En.
  - exists 2%nat. intros [|[|f]] Hf; [lia|lia|]. rewrite (rv_ptr _ a k d p Na E T S P Hm). rewrite R. cbn [removeCV]. unfold andThen, emit. cbn [fst snd]. rewrite app_nil_r. f_equal. now apply ptrText_ptr.
  - destruct (strips_remove _ _ _ St) as [n0 Hr]. exists (1 + n0)%nat. intros [|f] Hf; [lia|]. rewrite (rv_ptr _ a k d p Na E T S P Hm). rewrite R, Hr by lia. rewrite E'.
    destruct (list_eq_dec Z.eq_dec (tName d') charTxt) as [_|X]; [|now elim X]. rewrite Hs. unfold andThen, emit. cbn [fst snd]. f_equal. f_equal. now apply ptrText_ptr.
  - destruct (strips_remove _ _ _ St) as [n0 Hr]. exists (1 + n0)%nat. intros [|f] Hf; [lia|]. rewrite (rv_ptr _ a k d 0 Na E T S ltac:(lia) Hm). rewrite R, Hr by lia. rewrite E'.
    destruct (list_eq_dec Z.eq_dec (tName d') charTxt) as [X|_]; [now elim Nm|]. reflexivity.
  - destruct (strips_remove _ _ _ St) as [n0 Hr]. exists (1 + (n0 + n))%nat. intros [|f] Hf; [lia|]. rewrite (rv_ptr _ a k d p Na E T S P Hm). rewrite R, Hr by lia. rewrite E'.
    destruct (list_eq_dec Z.eq_dec (tName d') charTxt) as [X|_]; [now elim Nm|]. replace (p =? 0) with false by lia. rewrite IH by lia. unfold andThen, emit. cbn [fst snd]. f_equal. f_equal. now apply ptrText_ptr.
Qed.
End V.

(** ** Locations *)
Lemma evalLoop_flag data e se f0 :
  Forall isByte data -> zlen data + 32 < W64 -> envRel e se ->
  forall p off st v rest,
  (forall n, In (PFbreg n) p -> fbEval f0 data e (sFrameBase se)) ->
  Forall wfO p -> at_ data off (encodeE p) ->
  Forall isWord (estk st) -> safeRun se p (estk st) = true -> runE se p (estk st) = Some (v :: rest) ->
  forall f, (f0 + length p < f)%nat ->
  exists st', evalLoop f data e (off + zlen (encodeE p)) off st = Ok (v, st') /\ isVal st' = isVal st.
Proof.
  intros Hd Hw He. induction p as [|o p IH]; intros off st v rest Hfb Hwf Hat Hs Hsafe Hrun f Hf.
  - cbn [runE] in Hrun. inversion Hrun as [Hst]. destruct f as [|f]; [cbn in Hf; lia|].
    cbn [evalLoop encodeE flat_map]. change (zlen (@nil Z)) with 0. replace (off =? off + 0) with true by lia.
    rewrite Hst. cbn [pop1]. eexists. split; reflexivity.
  - cbn [runE safeRun] in *. destruct (sem se o (estk st)) as [s'|] eqn:Es; [|discriminate].
    apply andb_true_iff in Hsafe. destruct Hsafe as [Hsa Hsafe]. inversion Hwf as [|? ? Hwo Hwp]; subst.
    cbn [encodeE flat_map] in *. apply at_app in Hat. destruct Hat as [Hat1 Hat2]. fold (encodeE p) in *.
    destruct f as [|f]; [cbn in Hf; lia|]. pose proof (encodeO_nonempty o). pose proof (zlen_nonneg (encodeE p)).
    rewrite zlen_app.
    rewrite (evalLoop_step data e se f0 _ off st o s' Hd Hw He) with (f := f);
      try assumption; try (cbn [length] in Hf; lia).
    + destruct (IH (off + zlen (encodeO o)) (mkE s' (isVal st) (inReg st) (piece st)) v rest) with (f := f)
        as (st' & E & Er); try assumption.
      * intros n Hn. apply (Hfb n). now right.
      * eapply sem_words; eassumption.
      * cbn [length] in Hf. lia.
      * exists st'. split; [|exact Er]. rewrite <- E. f_equal. lia.
    + intros n ->. apply (Hfb n). now left.
Qed.
Lemma evalLoc_mem data e se off p fbOff fbP fuel v rest :
  Forall isByte data -> zlen data + 32 < W64 -> envRel e se ->
  (eFb e = None /\ sFrameBase se = 0 /\ fbP = [] \/
   eFb e = Some (fbOff, fbOff + zlen (encodeE fbP)) /\ at_ data fbOff (encodeE fbP) /\ Forall wfO fbP /\
   (forall n, ~ In (PFbreg n) fbP) /\ safeRun se fbP [] = true /\
   exists r, runE se fbP [] = Some (sFrameBase se :: r)) ->
  Forall wfO p -> at_ data off (encodeE p) ->
  safeRun se p [] = true -> runE se p [] = Some (v :: rest) ->
  (length fbP + length p + 1 < fuel)%nat ->
  evalLoc fuel data e off (off + zlen (encodeE p)) = Ok (v, false).
Proof.
  intros Hd Hw He Hfb Hwf Hat Hsafe Hrun Hfuel.
  assert (F : fbEval (S (length fbP)) data e (sFrameBase se)).
  { intros f Hf. destruct Hfb as [(-> & -> & _)|(-> & Hfat & Hfwf & Hno & Hfs & r & Hfr)]; [reflexivity|].
    destruct (evalLoop_run data e se 0 Hd Hw He fbP fbOff (est0 []) (sFrameBase se) r) with (f := f)
      as (st' & E & _); try assumption; try (cbn; lia).
    - intros n Hn. now destruct (Hno n).
    - constructor.
    - eauto. }
  unfold evalLoc.
  destruct (evalLoop_flag data e se (S (length fbP)) Hd Hw He p off (est0 []) v rest) with (f := fuel)
    as (st' & E & Fl); try assumption; try lia.
  - auto.
  - constructor.
  - rewrite E. cbn [bind]. now rewrite Fl.
Qed.
(** DW_OP_reg<r> *)
Lemma evalLoc_reg data e off r v fuel : Forall isByte data -> zlen data + 32 < W64 -> 0 <= r < 32 -> at_ data off [80 + r] -> gpGet (eRegs e) r = Ok v -> (2 <= fuel)%nat ->
  evalLoc fuel data e off (off + 1) = Ok (v, true).
Proof.
  intros Hd Hw Hr Hat Hv Hf. destruct fuel as [|[|f]]; [lia|lia|]. unfold evalLoc. cbn [evalLoop]. replace (off =? off + 1) with false by lia.
  assert (D : decodeE data off = Ok (OReg r, off + 1)).
  { unfold decodeE. destruct Hat as [H0 [t T]]. 
    assert (G : getu8 data off = Ok (80 + r, off + 1)).
    { apply getu8_at; [split; [exact H0|exists t; exact T]|lia]. }
    rewrite G. cbn [bind]. cbv zeta.
    repeat match goal with |- context [80 + r =? ?c] => replace (80 + r =? c) with false by lia end.
    replace ((112 <=? 80 + r) && (80 + r <=? 143)) with false by lia. replace ((48 <=? 80 + r) && (80 + r <=? 79)) with false by lia.
    replace ((80 <=? 80 + r) && (80 + r <=? 111)) with true by lia. replace (80 + r - 80) with r by lia. reflexivity. }
  rewrite D. cbn [bind]. rewrite Hv. cbn [bind]. rewrite Z.eqb_refl. reflexivity.
Qed.

(** ** Termination *)
Section Term.
Context (m : memory) (str : Z -> res (list Z)) (types : Z -> option tdie) (dt ft : list Z -> list Z) (rank : Z -> nat).
Context (RK : ranked types rank) (ST : forall p, str p <> OutOfFuel).
Notation rv := (rvText m str types dt ft).
Lemma removeCV_ends : forall n t, (rank t + 1 < n)%nat -> exists r, removeCV types n (Some t) = Ok r /\ forall k, r = Some k -> (rank k <= rank t)%nat.
Proof.
  induction n as [|n IH]; intros t H; [lia|]. cbn [removeCV]. destruct (types t) as [d|] eqn:E; [|eexists; split; [reflexivity|discriminate]].
  destruct ((tTag d =? 22) || (tTag d =? 38) || (tTag d =? 53)) eqn:C; [|eexists; split; [reflexivity|intros k [= ->]; lia]].
  destruct (tRef d) as [t'|] eqn:R.
  - assert (L : (rank t' < rank t)%nat) by (apply (RK t d t' E); [left; unfold isCV; lia|exact R]). destruct (IH t' ltac:(lia)) as (r & -> & X). exists r. split; [reflexivity|]. intros k Hk. specialize (X k Hk). lia.
  - exists None. split; [|discriminate]. destruct n; [lia|reflexivity].
Qed.
Lemma removeCV_None n : (0 < n)%nat -> removeCV types n None = Ok None.
Proof. destruct n; [lia|reflexivity]. Qed.
Definition ends (w : wr) : Prop := snd w <> OutOfFuel.
Lemma ends_andThen a b : ends a -> ends b -> ends (andThen a b).
Proof. unfold ends, andThen. destruct (snd a) eqn:E; cbn [snd]; auto; intros; congruence. Qed.
Lemma ends_emit t : ends (emit t). Proof. discriminate. Qed.
Lemma ends_base d b : ends (baseText dt ft d b).
Proof. unfold baseText. repeat match goal with |- context [match ?x with _ => _ end] => destruct x end; discriminate. Qed.
Lemma rv_ends : forall n a isv t, (forall k, t = Some k -> (rank k + 2 < n)%nat) -> (0 < n)%nat -> ends (rv n a isv t).
Proof.
  induction n as [|n IH]; intros a isv t H Hn; [lia|]. cbn [rvText]. destruct t as [k|]; [|discriminate]. specialize (H k eq_refl). destruct (types k) as [d|] eqn:E; [|discriminate].
  cbv zeta. destruct (a =? 0); [discriminate|]. destruct (tTag d =? 36); [apply ends_base|]. destruct ((tTag d =? 16) || (tTag d =? 15)) eqn:P; [|discriminate].
  match goal with |- ends (if ?c then _ else _) => destruct c; [discriminate|] end. apply ends_andThen; [discriminate|].
  destruct (tRef d) as [t'|] eqn:R; [|rewrite removeCV_None by lia; discriminate].
  assert (L : (rank t' < rank k)%nat) by (apply (RK k d t' E); [right; unfold isPtr; lia|exact R]). destruct (removeCV_ends n t' ltac:(lia)) as (r & -> & X). destruct r as [k'|]; [|discriminate]. specialize (X k' eq_refl).
  destruct (types k') as [d'|]; [|discriminate]. destruct (list_eq_dec _ _ _).
  - match goal with |- ends (match str ?q with _ => _ end) => pose proof (ST q); destruct (str q) end; try discriminate. congruence.
  - match goal with |- ends (if ?c then _ else _) => destruct c; [discriminate|] end. apply ends_andThen; [discriminate|]. apply IH; [|lia]. intros k2 [= <-]. lia.
Qed.
End Term.
