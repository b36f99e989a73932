From Coq Require Import Permutation.
From Verif Require Import Base Leb LebSpec LebProofs DwarfReader DwarfReaderProofs Cfi CfiSpec CfiProofs CfiProofs2 Cursor Frames FramesSpec FramesProofs.

(** ** Lists *)
Lemma perm_Forall2 {A B} (R : A -> B -> Prop) : forall l l', Permutation l l' -> forall m, Forall2 R l m -> exists m', Permutation m m' /\ Forall2 R l' m'.
Proof.
  induction 1 as [|x l l' P IH|x y l|l1 l2 l3 P1 IH1 P2 IH2]; intros m F.
  - exists m. split; [reflexivity|exact F].
  - inversion F as [|? b ? m0 Hx Hm]; subst. destruct (IH m0 Hm) as (m' & P' & F'). exists (b :: m'). split; [now constructor|now constructor].
  - inversion F as [|? b ? m0 Hx Hm]; subst. inversion Hm as [|? b2 ? m1 Hy Hm1]; subst. exists (b2 :: b :: m1). split; [constructor|repeat constructor; assumption].
  - destruct (IH1 m F) as (m1 & Q1 & F1). destruct (IH2 m1 F1) as (m2 & Q2 & F2). exists m2. split; [now transitivity m1|exact F2].
Qed.
Lemma ordPairs_perm {A} (R : A -> A -> Prop) : (forall x y, R x y -> R y x) -> forall l l', Permutation l l' -> ForallOrdPairs R l -> ForallOrdPairs R l'.
Proof.
  intros Sy. induction 1 as [|x l l' P IH|x y l|l1 l2 l3 P1 IH1 P2 IH2]; intros F.
  - constructor.
  - inversion F as [|? ? F1 F2]; subst. constructor; [now rewrite <- P|now apply IH].
  - inversion F as [|? ? F1 F2]; subst. inversion F2 as [|? ? F3 F4]; subst. apply Forall_cons_iff in F1 as [F1 F1']. constructor; [constructor; [now apply Sy|exact F3]|]. now constructor.
  - now apply IH2, IH1.
Qed.
Lemma sortIn_perm x l : Permutation (x :: l) (sortIn x l).
Proof. induction l as [|y l IH]; cbn [sortIn]; [reflexivity|]. destruct (fLoc y <? fLoc x); [|reflexivity]. rewrite perm_swap. now constructor. Qed.
Lemma sortF_perm l : Permutation l (sortF l).
Proof. induction l as [|x l IH]; [reflexivity|]. change (sortF (x :: l)) with (sortIn x (sortF l)). rewrite <- sortIn_perm. now constructor. Qed.
Lemma sortIn_sorted x l : ForallOrdPairs (fun a b => fLoc a <= fLoc b) l -> ForallOrdPairs (fun a b => fLoc a <= fLoc b) (sortIn x l).
Proof.
  induction 1 as [|y l F1 F2 IH]; cbn [sortIn]; [repeat constructor|]. destruct (fLoc y <? fLoc x) eqn:E.
  - constructor; [|exact IH]. apply Forall_forall. intros z Hz. apply (Permutation_in z (Permutation_sym (sortIn_perm x l))) in Hz. destruct Hz as [<-|Hz]; [lia|]. revert z Hz. now apply Forall_forall.
  - constructor; [|now constructor]. constructor; [lia|]. eapply Forall_impl; [|exact F1]. intros z Hz. cbv beta in Hz. lia.
Qed.
Lemma sortF_sorted l : ForallOrdPairs (fun a b => fLoc a <= fLoc b) (sortF l).
Proof. induction l as [|x l IH]; [constructor|]. now apply (sortIn_sorted x (sortF l)). Qed.
Lemma ordPairs_Forall2 {A B} (R : A -> B -> Prop) (P : A -> A -> Prop) (Q : B -> B -> Prop) : (forall a b a' b', R a b -> R a' b' -> P a a' -> Q b b') ->
  forall l m, Forall2 R l m -> ForallOrdPairs P l -> ForallOrdPairs Q m.
Proof.
  intros K. induction 1 as [|a b l m H F IH]; intros O; [constructor|]. inversion O as [|? ? O1 O2]; subst. constructor; [|now apply IH]. clear IH O O2. revert O1. induction F as [|a' b' l m H2 F IH]; intros O1; [constructor|]. apply Forall_cons_iff in O1 as [O0 O1]. constructor; [now apply (K a b a' b')|now apply IH].
Qed.
Lemma setNth_length {A} : forall (l : list A) i x, length (setNth l i x) = length l.
Proof. induction l as [|y l IH]; intros [|i] x; cbn [setNth length]; congruence. Qed.
Lemma setNth_znth {A} : forall (l : list A) i x j, (i < length l)%nat -> znth j (setNth l i x) = if j =? Z.of_nat i then Some x else znth j l.
Proof.
  induction l as [|y l IH]; intros [|i] x j H; cbn [length] in H; [lia|lia| |]; cbn [setNth znth].
  - change (Z.of_nat 0) with 0. destruct (j =? 0); reflexivity.
  - destruct (Z.eqb_spec j 0) as [->|N]; [replace (0 =? Z.of_nat (S i)) with false by lia; reflexivity|]. destruct (j <? 0) eqn:E; [replace (j =? Z.of_nat (S i)) with false by lia; reflexivity|]. rewrite IH by lia.
    replace (j - 1 =? Z.of_nat i) with (j =? Z.of_nat (S i)) by lia. reflexivity.
Qed.
Lemma znth_In {A} : forall (l : list A) i x, znth i l = Some x -> In x l.
Proof. intros l i x H. pose proof (znth_some _ _ _ H). rewrite znth_nth_error in H by lia. eapply nth_error_In. exact H. Qed.
Lemma In_znth {A} (l : list A) x : In x l -> exists i, znth i l = Some x.
Proof. intros H. apply In_nth_error in H as [n H]. exists (Z.of_nat n). rewrite znth_nth_error by lia. now rewrite Nat2Z.id. Qed.
Lemma Forall2_znth {A B} (R : A -> B -> Prop) : forall l m, Forall2 R l m -> forall i y, znth i m = Some y -> exists x, znth i l = Some x /\ R x y.
Proof.
  induction 1 as [|a b l m H F IH]; intros i y Z0; [discriminate|]. cbn [znth] in *. destruct (i =? 0); [injection Z0 as <-; exists a; split; [reflexivity|exact H]|]. destruct (i <? 0); [discriminate|]. now apply IH.
Qed.
Lemma Forall2_znth_l {A B} (R : A -> B -> Prop) : forall l m, Forall2 R l m -> forall i x, znth i l = Some x -> exists y, znth i m = Some y /\ R x y.
Proof.
  induction 1 as [|a b l m H F IH]; intros i y Z0; [discriminate|]. cbn [znth] in *. destruct (i =? 0); [injection Z0 as <-; exists b; split; [reflexivity|exact H]|]. destruct (i <? 0); [discriminate|]. now apply IH.
Qed.
Lemma Forall2_zlen {A B} (R : A -> B -> Prop) l m : Forall2 R l m -> zlen l = zlen m.
Proof. intros H. unfold zlen. f_equal. induction H; cbn [length]; congruence. Qed.

(** ** Sections *)
Lemma layout_find eh all data : forall l off, layout eh all data off l -> (forall o e, In (o, e) l -> 4 <= zlen (entryBytes eh all o e)) -> 0 <= off -> forall o e, In (o, e) l ->
  off <= o /\ find (fun x => fst x =? o) l = Some (o, e) /\ at_ data o (entryBytes eh all o e).
Proof.
  induction l as [|[o1 e1] l IH]; intros off LY SZ HO o e I; [destruct I|]. cbn [layout] in LY. destruct LY as (-> & [rest X] & LY). pose proof (SZ off e1 (or_introl eq_refl)) as S1. destruct I as [I|I].
  - injection I as -> ->. split; [lia|]. cbn [find fst]. rewrite Z.eqb_refl. split; [reflexivity|]. split; [lia|]. now exists rest.
  - destruct (IH _ LY (fun o e Hi => SZ o e (or_intror Hi)) ltac:(lia) o e I) as (L1 & L2 & L3). split; [lia|]. cbn [find fst]. replace (off =? o) with false by lia. split; assumption.
Qed.
Lemma section_placed eh data es : section eh data es -> forall o e, In (o, e) es -> placed data eh es o e.
Proof.
  intros (Hd & Hw & OK & LY) o e I. rewrite Forall_forall in OK. assert (SZ : forall o e, In (o, e) es -> 4 <= zlen (entryBytes eh es o e)).
  { intros o1 e1 I1. specialize (OK _ I1). cbn [fst snd] in OK. destruct e1 as [c|f]; cbn [entryBytes entryOk] in *; [unfold cieBytes; rewrite zlen_app; pose proof (lenBytes_ge (scBig c) (zlen (cieBody eh c))); pose proof (zlen_nonneg (cieBody eh c)); lia|]. destruct OK as (c & -> & _). unfold fdeBytes. rewrite zlen_app. pose proof (lenBytes_ge (sfBig f) (zlen (fdeBody eh o1 c f))). pose proof (zlen_nonneg (fdeBody eh o1 c f)). lia. }
  destruct (layout_find eh es data es 0 LY SZ ltac:(lia) o e I) as (_ & F & P). split; [exact F|]. split; [exact (OK _ I)|exact P].
Qed.
Lemma in_fdesOf es o f : In (o, f) (fdesOf es) <-> In (o, EFde f) es.
Proof.
  unfold fdesOf. rewrite in_flat_map. split.
  - intros ([o' [c|f']] & I & J); cbn [fst snd] in J; [destruct J|]. destruct J as [J|[]]. injection J as -> ->. exact I.
  - intros I. exists (o, EFde f). split; [exact I|now left].
Qed.

Section Lazy.
Context (data : list Z) (eh : bool) (sa : Z) (es : list (Z * entry)) (Hsec : section eh data es) (Hsa : 0 <= sa < 2 ^ 64).
(** the FDEs in the order of the table *)
Context (fs : list (Z * sfde)) (Hfs : forall x, In x fs -> In (fst x, EFde (snd x)) es).
Context (Hfit : Forall (fun x => 0 < sfRange (snd x) /\ startOf sa es x + sfRange (snd x) < 2 ^ 64) fs).
Context (Hord : ForallOrdPairs (fun x y => startOf sa es x + sfRange (snd x) <= startOf sa es y) fs).
Notation IsF := (isFde data sa es).
Let Hd : Forall isByte data := proj1 Hsec.
Let Hw : zlen data < 2 ^ 63 := proj1 (proj2 Hsec).
Let Hes := section_placed eh data es Hsec.
(** the search table *)
Context (te : efmt * eapp) (ha : Z) (tab : list (Z * Z)) (T : list Z).
Context (Hte : In (fst te) [FUdata2; FUdata4; FUdata8; FSdata2; FSdata4; FSdata8]) (Hta : snd te = AAbs \/ snd te = ADatarel).
Definition tabBytes (l : list (Z * Z)) : list Z := flat_map (fun e => fmtBytes (fst te) (fst e) ++ fmtBytes (fst te) (snd e)) l.
Definition hasTable : Prop :=
  (exists rest, T = tabBytes tab ++ rest) /\ Forall isByte T /\ zlen T + 32 < W64 /\
  Forall2 (fun e x => encOk te (fst e) /\ encOk te (snd e) /\ target te 0 ha (fst e) = startOf sa es x /\ target te 0 ha (snd e) = (sa + fst x) mod 2 ^ 64) tab fs.

Definition TInv (k : cfi) : Prop :=
  CInv data es (kCies k) /\ zlen (kFdes k) = zlen fs /\
  (forall i f', znth i (kFdes k) = Some (Some f') -> exists x, znth i fs = Some x /\ IsF f' x) /\
  (kTable k = Some T /\ kEnc k = encCode te /\ kHdr k = ha /\ hasTable \/ forall i, znth i (kFdes k) <> Some None).

Lemma isFde_start f' x : IsF f' x -> fLoc f' = startOf sa es x /\ fRange f' = sfRange (snd x).
Proof. intros (c & CO & L & R & _). unfold startOf. rewrite CO. split; assumption. Qed.
Lemma fmt_size v : zlen (fmtBytes (fst te) v) = encSize (encCode te).
Proof.
  clear -Hte. destruct te as [f a]. cbn [fst snd] in *. unfold encCode. cbn [fst snd]. destruct (enc_decompose f a false) as (X & _ & _). cbv zeta iota in X. rewrite Z.add_0_r in X. unfold encSize. rewrite X.
  cbn [In] in Hte. destruct Hte as [<-|[<-|[<-|[<-|[<-|[<-|[]]]]]]]; cbn [fmtBytes]; rewrite leBytes_len; reflexivity.
Qed.
Lemma tab_at i e x : hasTable -> znth i tab = Some e -> znth i fs = Some x -> at_ T (encSize (encCode te) * 2 * i) (fmtBytes (fst te) (fst e) ++ fmtBytes (fst te) (snd e)).
Proof.
  intros ((rest & ->) & _) Z1 _. pose proof (znth_some _ _ _ Z1) as R. assert (SP : exists l1 l2, tab = l1 ++ e :: l2 /\ zlen l1 = i).
  { rewrite znth_nth_error in Z1 by lia. apply nth_error_split in Z1 as (l1 & l2 & E & L). exists l1, l2. split; [exact E|]. unfold zlen. lia. }
  destruct SP as (l1 & l2 & -> & L). unfold tabBytes. rewrite flat_map_app. cbn [flat_map]. fold (tabBytes l1) (tabBytes l2).
  assert (LL : zlen (tabBytes l1) = encSize (encCode te) * 2 * i). { rewrite <- L. clear -Hte. unfold tabBytes. induction l1 as [|a l IH]; [cbn; lia|]. cbn [flat_map]. rewrite !zlen_app, !fmt_size, IH, zlen_cons. lia. }
  split; [rewrite <- LL; apply zlen_nonneg|]. exists (tabBytes l2 ++ rest). rewrite <- LL, <- !app_assoc. apply zdrop_app_zlen.
Qed.
Lemma ensure_spec fuel k i x : TInv k -> znth i fs = Some x -> (1 < fuel)%nat ->
  exists k' f', ensure data eh sa fuel k i = (k', Ok f') /\ TInv k' /\ IsF f' x /\ znth i (kFdes k') = Some (Some f') /\ (forall j, j <> i -> znth j (kFdes k') = znth j (kFdes k)) /\ kTable k' = kTable k.
Proof.
  intros TI ZX Hf. pose proof TI as (CI & LN & SL & TB). pose proof (znth_some _ _ _ ZX) as R. unfold ensure. destruct (znth_lt i (kFdes k) ltac:(lia)) as [[f'|] ZK]; rewrite ZK.
  - exists k, f'. split; [reflexivity|]. split; [exact TI|]. destruct (SL i f' ZK) as (x' & ZX' & Q). rewrite ZX in ZX'. injection ZX' as <-. split; [exact Q|]. split; [exact ZK|]. split; [reflexivity|reflexivity].
  - destruct TB as [(KT & KE & KH & HT)|TB]; [|now elim (TB i)]. pose proof HT as (PT & BT & WT & F2). rewrite KT, KE, KH. destruct (Forall2_znth _ _ _ F2 i x ZX) as (e & ZE & E1 & E2 & T1 & T2).
    pose proof (tab_at i e x HT ZE ZX) as HA.
    assert (DEC : forall off v r, encOk te v -> at_ T off (fmtBytes (fst te) v ++ r) -> decodeAddress T off (encCode te) sa ha = Ok (target te 0 ha v, false, off + zlen (fmtBytes (fst te) v))).
    { intros off v r [NA RG] Hat. apply at_app in Hat as [Hat _]. destruct te as [ff aa]. cbn [fst snd] in *. pose proof (decodeAddress_spec T off ff v aa false sa ha BT WT NA RG Hat) as Q. cbv iota in Q. rewrite Z.add_0_r in Q. unfold encCode. cbn [fst snd]. rewrite Q. unfold target. cbn [snd]. destruct Hta as [-> | ->]; reflexivity. }
    rewrite (DEC _ _ _ E1 HA). cbn [bind]. apply at_app in HA as [_ HA]. rewrite <- (app_nil_r (fmtBytes (fst te) (snd e))) in HA. rewrite (DEC _ _ _ E2 HA). cbn [bind]. rewrite T1, T2. destruct x as [o f]. cbn [fst snd] in *.
    pose proof (Hes o (EFde f) (Hfs _ (znth_In _ _ _ ZX))) as PL. assert (HO : 0 <= o < 2 ^ 63).
    { split; [apply PL|]. pose proof (at_len data o (entryBytes eh es o (EFde f))) as AL. destruct PL as (_ & (c & CO & _) & HA0). cbn [entryBytes] in *. rewrite CO in *. specialize (AL HA0 (bytes_ne2 _ _ _ _)). pose proof (zlen_nonneg (fdeBytes eh o c f)). lia. }
    assert (UO : u64 ((sa + o) mod 2 ^ 64 - sa) = o). { unfold u64, W64. rewrite Zminus_mod_idemp_l. replace (sa + o - sa) with o by lia. apply Z.mod_small. lia. }
    rewrite UO. destruct fuel as [|[|fuel]]; [lia|lia|]. destruct (putEntry_fde data eh sa Hd Hw es Hes fuel (kCies k) o f PL CI) as (cs & f' & PE & CI' & Q & _). rewrite PE.
    destruct (isFde_start _ _ Q) as [Q1 Q2]. rewrite Q1, Z.eqb_refl. unfold zlen in LN, R. assert (LI : (Z.to_nat i < length (kFdes k))%nat) by lia. eexists _, f'. split; [reflexivity|].
    assert (ZS : forall j, znth j (setNth (kFdes k) (Z.to_nat i) (Some f')) = if j =? i then Some (Some f') else znth j (kFdes k)) by (intros j; rewrite setNth_znth by exact LI; now rewrite Z2Nat.id by lia).
    split; [|split; [exact Q|split; [cbn [kFdes]; rewrite ZS, Z.eqb_refl; reflexivity|split; [intros j NJ; cbn [kFdes]; rewrite ZS; now replace (j =? i) with false by lia|reflexivity]]]].
    split; [exact CI'|]. split; [cbn [kFdes]; unfold zlen; rewrite setNth_length; exact LN|]. split; [|left; split; [reflexivity|]; split; [reflexivity|]; split; [reflexivity|]; exact HT].
    intros j g ZJ. cbn [kFdes] in ZJ. rewrite ZS in ZJ. destruct (Z.eqb_spec j i) as [->|NJ]; [|now apply SL]. injection ZJ as <-. exists (o, f). split; assumption.
Qed.
Definition answer (addr : Z) (r : option fdeE) : Prop :=
  match r with
  | Some f' => exists x, In x fs /\ covers sa es x addr /\ IsF f' x
  | None => forall x, In x fs -> ~ covers sa es x addr
  end.
Lemma ord_at i j x y : znth i fs = Some x -> znth j fs = Some y -> i < j -> startOf sa es x + sfRange (snd x) <= startOf sa es y.
Proof.
  intros ZI ZJ L. clear -Hord ZI ZJ L. revert i j ZI ZJ L. induction Hord as [|z l F1 F2 IH]; intros i j ZI ZJ L; [discriminate|]. pose proof (znth_some _ _ _ ZI). cbn [znth] in ZI, ZJ. replace (j =? 0) with false in ZJ by lia. replace (j <? 0) with false in ZJ by lia.
  destruct (Z.eqb_spec i 0) as [->|N].
  - injection ZI as <-. rewrite Forall_forall in F1. apply F1. eapply znth_In. exact ZJ.
  - replace (i <? 0) with false in ZI by lia. apply (IH F2 (i - 1) (j - 1) ZI ZJ). lia.
Qed.
Lemma findLoop_spec fuel addr : (1 < fuel)%nat -> 0 <= addr -> forall n k st en, TInv k -> 0 <= st -> st <= en -> en <= zlen fs -> en - st < Z.of_nat n ->
  (forall i x, znth i fs = Some x -> i < st -> startOf sa es x + sfRange (snd x) <= addr) -> (forall i x, znth i fs = Some x -> en <= i -> addr < startOf sa es x) ->
  exists k' r, findLoop data eh sa n fuel k addr st en = (k', Ok r) /\ TInv k' /\ answer addr r.
Proof.
  intros Hf Ha. induction n as [|n IH]; intros k st en TI H0 H1 H2 H3 LO HI; [lia|]. cbn [findLoop]. destruct (st <? en) eqn:E.
  - set (mid := st + (en - st) / 2). assert (MB : st <= mid < en) by (unfold mid; pose proof (Z.div_pos (en - st) 2); pose proof (Z.div_lt_upper_bound (en - st) 2 (en - st)); lia).
    destruct (znth_lt mid fs ltac:(lia)) as [x ZX]. destruct (ensure_spec fuel k mid x TI ZX Hf) as (k' & f' & EN & TI' & Q & _). rewrite EN. destruct (isFde_start _ _ Q) as [Q1 Q2]. rewrite Q1, Q2.
    rewrite Forall_forall in Hfit. destruct (Hfit x (znth_In _ _ _ ZX)) as [R0 RW]. assert (S0 : 0 <= startOf sa es x) by (unfold startOf; destruct (cieOf es (sfCie (snd x))); [unfold fdeStart, target; apply Z.mod_pos_bound; lia|lia]).
    rewrite u64_id by (unfold isU64, W64; lia). destruct (startOf sa es x <=? addr) eqn:C1.
    + destruct (addr <? startOf sa es x + sfRange (snd x)) eqn:C2.
      * exists k', (Some f'). split; [reflexivity|]. split; [exact TI'|]. exists x. split; [eapply znth_In; exact ZX|]. split; [unfold covers; lia|exact Q].
      * apply (IH k' (mid + 1) en TI'); try lia; [|exact HI]. intros i y ZY LY. destruct (Z.eq_dec i mid) as [->|N]; [rewrite ZX in ZY; injection ZY as <-; lia|]. pose proof (ord_at i mid y x ZY ZX ltac:(lia)). lia.
    + apply (IH k' st mid TI'); try lia; [exact LO|]. intros i y ZY LY. destruct (Z.eq_dec i mid) as [->|N]; [rewrite ZX in ZY; injection ZY as <-; lia|]. pose proof (ord_at mid i x y ZX ZY ltac:(lia)). lia.
  - exists k, None. split; [reflexivity|]. split; [exact TI|]. intros x I. apply In_znth in I as [i ZX]. unfold covers. destruct (Z_lt_ge_dec i st) as [L|L]; [pose proof (LO i x ZX L); lia|]. pose proof (HI i x ZX ltac:(lia)). lia.
Qed.
Lemma find_fde_spec fuel k addr : TInv k -> (1 < fuel)%nat -> 0 <= addr -> exists k' r, find_fde data eh sa fuel k addr = (k', Ok r) /\ TInv k' /\ answer addr r.
Proof.
  intros TI Hf Ha. unfold find_fde. pose proof TI as (_ & LN & _). apply findLoop_spec; try assumption; try lia.
  - pose proof (zlen_nonneg (kFdes k)). lia.
  - unfold zlen. lia.
  - intros i x Z0 L. pose proof (znth_some _ _ _ Z0). lia.
  - intros i x Z0 L. pose proof (znth_some _ _ _ Z0). lia.
Qed.
Lemma ensureLoop_spec fuel : (1 < fuel)%nat -> forall n k i, TInv k -> 0 <= i -> i + Z.of_nat n = zlen fs -> (forall j, 0 <= j < i -> exists f', znth j (kFdes k) = Some (Some f')) ->
  exists k', ensureLoop data eh sa n fuel k i = (k', Ok tt) /\ TInv k' /\ (forall j, 0 <= j < zlen fs -> exists f', znth j (kFdes k') = Some (Some f')).
Proof.
  intros Hf. induction n as [|n IH]; intros k i TI I0 IN FL; cbn [ensureLoop].
  - exists k. split; [reflexivity|]. split; [exact TI|]. intros j Hj. apply FL. lia.
  - destruct (znth_lt i fs ltac:(lia)) as [x ZX]. destruct (ensure_spec fuel k i x TI ZX Hf) as (k' & f' & EN & TI' & _ & ZI & KE & _). rewrite EN. apply IH; [exact TI'|lia|lia|]. intros j Hj. destruct (Z.eq_dec j i) as [->|N]; [now exists f'|]. rewrite KE by exact N. apply FL. lia.
Qed.
Lemma allFilled k : TInv k -> (forall i, znth i (kFdes k) <> Some None) -> Forall2 (fun s x => exists f', s = Some f' /\ IsF f' x) (kFdes k) fs.
Proof.
  intros (_ & LN & SL & _) NN. revert LN SL NN. generalize (kFdes k). clear. induction fs as [|x l IH]; intros m LN SL NN.
  - destruct m; [constructor|]. rewrite zlen_cons in LN. change (zlen (@nil (Z * sfde))) with 0 in LN. pose proof (zlen_nonneg m). lia.
  - destruct m as [|s m]; [rewrite zlen_cons in LN; change (zlen (@nil (option fdeE))) with 0 in LN; pose proof (zlen_nonneg l); lia|]. rewrite !zlen_cons in LN. constructor.
    + destruct s as [f'|]; [|now elim (NN 0)]. exists f'. split; [reflexivity|]. destruct (SL 0 f' eq_refl) as (x' & E & Q). injection E as <-. exact Q.
    + assert (SH : forall (B : Type) (y : B) (q : list B) i b, znth i q = Some b -> znth (i + 1) (y :: q) = Some b).
      { intros B y q i b E. pose proof (znth_some _ _ _ E). cbn [znth]. replace (i + 1 =? 0) with false by lia. replace (i + 1 <? 0) with false by lia. replace (i + 1 - 1) with i by lia. exact E. }
      apply IH; [lia| |].
      * intros i f' E. pose proof (znth_some _ _ _ E) as RI. destruct (SL (i + 1) f' (SH _ _ _ _ _ E)) as (x' & E' & Q). exists x'. split; [|exact Q]. cbn [znth] in E'. replace (i + 1 =? 0) with false in E' by lia. replace (i + 1 <? 0) with false in E' by lia. replace (i + 1 - 1) with i in E' by lia. exact E'.
      * intros i E. apply (NN (i + 1)). now apply SH.
Qed.
Lemma get_fdes_spec fuel k : TInv k -> (1 < fuel)%nat ->
  exists k' l, get_fdes data eh sa fuel k = (k', Ok l) /\ TInv k' /\ Forall2 (fun s x => exists f', s = Some f' /\ IsF f' x) l fs.
Proof.
  intros TI Hf. unfold get_fdes. pose proof TI as (CI & LN & SL & TB). destruct (kTable k) as [t|] eqn:KT.
  - destruct (ensureLoop_spec fuel Hf (length (kFdes k)) k 0 TI ltac:(lia) ltac:(unfold zlen in *; lia) ltac:(intros j Hj; lia)) as (k' & EL & TI' & FL). rewrite EL. cbn [kFdes]. pose proof TI' as (CI' & LN' & SL' & _).
    assert (NN : forall i, znth i (kFdes k') <> Some None) by (intros i E; pose proof (znth_some _ _ _ E); destruct (FL i ltac:(lia)) as [f' X]; congruence).
    eexists _, _. split; [reflexivity|]. split; [split; [exact CI'|split; [exact LN'|split; [exact SL'|right; exact NN]]]|]. now apply allFilled.
  - exists k, (kFdes k). split; [reflexivity|]. split; [exact TI|]. apply allFilled; [exact TI|]. destruct TB as [(X & _)|TB]; [discriminate|exact TB].
Qed.
End Lazy.
