From Coq Require Import Permutation.
From Verif Require Import Base CfiSpec CfiProofs DwarfReaderProofs ElfHash ElfHashProofs Heap HeapSpec.

Lemma get_ext m m' a n : (forall x, a <= x < a + Z.of_nat n -> m x = m' x) -> get m a n = get m' a n.
Proof. intros H. unfold get. apply map_ext_in. intros i Hi. apply in_seq in Hi. apply H. lia. Qed.
Lemma get_cons m a n : get m a (S n) = m a :: get m (a + 1) n.
Proof. unfold get. cbn [seq map]. f_equal; [f_equal; lia|]. rewrite <- seq_shift, map_map. apply map_ext. intros i. f_equal. lia. Qed.
Lemma put_out m a l x : x < a \/ a + zlen l <= x -> put m a l x = m x.
Proof. intros H. unfold put. destruct H as [H|H]; [rewrite znth_neg by lia|rewrite znth_ge by lia]; reflexivity. Qed.
Lemma get_put_out m a l b n : b + Z.of_nat n <= a \/ a + zlen l <= b -> get (put m a l) b n = get m b n.
Proof. intros H. apply get_ext. intros x Hx. apply put_out. lia. Qed.
Lemma get_put l : forall m a, get (put m a l) a (length l) = l.
Proof.
  induction l as [|v l IH]; intros m a; [reflexivity|]. cbn [length]. rewrite get_cons. f_equal.
  - unfold put. rewrite Z.sub_diag. reflexivity.
  - transitivity (get (put m (a + 1) l) (a + 1) (length l)); [|apply IH]. apply get_ext. intros x Hx. unfold put. cbn [znth]. replace (x - a =? 0) with false by lia. replace (x - a <? 0) with false by lia. now replace (x - a - 1) with (x - (a + 1)) by lia.
Qed.
Lemma ptrAt_le m a : ptrAt m a = leValue (get m a 8).
Proof. unfold ptrAt. induction (get m a 8) as [|b l IH]; cbn [fold_right leValue]; [reflexivity|]. now rewrite IH. Qed.

Definition layout (b : blk) : Prop := 0 < bBase b /\ bBase b <= bPtr b - 16 /\ 0 <= bSize b /\ bPtr b + bSize b + 4 <= bBase b + bFull b.
Definition linked (m : Z -> Z) (t : Z -> option desc) (st : list Z) (id : Z) (b : blk) : Prop :=
  0 < id < W64 /\ (exists ser, t id = Some (mkD (bSize b) (bPtr b - 16) (bBase b) ser)) /\
  get m (bPtr b - 16) 8 = leBytes 8 id /\ get m (bPtr b - 8) 4 = st /\ get m (bPtr b + bSize b) 4 = st.
Lemma linked_frame m m' t t' st id b : layout b -> linked m t st id b -> (forall x, bBase b <= x < bBase b + bFull b -> m' x = m x) -> t' id = t id -> linked m' t' st id b.
Proof.
  intros (L1 & L2 & L3 & L4) (A & B & C & D & E) Hm Ht. unfold linked. rewrite Ht. split; [exact A|]. split; [exact B|].
  rewrite (get_ext m' m (bPtr b - 16) 8) by (intros x Hx; apply Hm; lia). rewrite (get_ext m' m (bPtr b - 8) 4) by (intros x Hx; apply Hm; lia). rewrite (get_ext m' m (bPtr b + bSize b) 4) by (intros x Hx; apply Hm; lia). tauto.
Qed.
Lemma linked_ptr m t st id b : linked m t st id b -> ptrAt m (bPtr b - guardSize) = id.
Proof. intros (A & _ & C & _). rewrite ptrAt_le. unfold guardSize. rewrite C. apply leValue_leBytes. change (256 ^ Z.of_nat 8) with W64. lia. Qed.
Lemma beq_refl l : beq l l = true.
Proof. now apply beq_spec. Qed.
Lemma linked_state m t st id b ser : linked m t st id b -> getState m (mkD (bSize b) (bPtr b - 16) (bBase b) ser) = Ok st.
Proof.
  intros (_ & _ & _ & D & E). unfold getState. cbn [dData dLen]. unfold guardSize. replace (bPtr b - 16 + 16 + bSize b) with (bPtr b + bSize b) by lia. replace (bPtr b - 16 + 8) with (bPtr b - 8) by lia. rewrite D, E. now rewrite beq_refl.
Qed.

Definition cnt (x : Z) (l : list Z) : nat := count_occ Z.eq_dec l x.
Lemma cnt_app x l l' : cnt x (l ++ l') = (cnt x l + cnt x l')%nat.
Proof. apply count_occ_app. Qed.
Lemma cnt_cons x y l : cnt x (y :: l) = ((if (y =? x)%Z then 1 else 0) + cnt x l)%nat.
Proof. unfold cnt. cbn [count_occ]. destruct (Z.eq_dec y x) as [E|E]; [replace (y =? x) with true by lia|replace (y =? x) with false by lia]; reflexivity. Qed.
Lemma cnt_nil x : cnt x [] = 0%nat. Proof. reflexivity. Qed.
Lemma cnt_in x l : In x l <-> (0 < cnt x l)%nat.
Proof. unfold cnt. rewrite (count_occ_In Z.eq_dec). lia. Qed.
Lemma remove_mid id h1 h2 : cnt id (h1 ++ id :: h2) = 1%nat -> remove Z.eq_dec id (h1 ++ id :: h2) = h1 ++ h2.
Proof.
  rewrite cnt_app, cnt_cons, Z.eqb_refl. intros H. rewrite remove_app. cbn [remove]. destruct (Z.eq_dec id id) as [_|N]; [|congruence].
  f_equal; apply notin_remove; intros Hi; apply cnt_in in Hi; lia.
Qed.
Lemma FOP_perm {A} (R : A -> A -> Prop) (Hs : forall x y, R x y -> R y x) l l' : Permutation l l' -> ForallOrdPairs R l -> ForallOrdPairs R l'.
Proof.
  intros P. induction P as [|x l l' P IH|x y l|l1 l2 l3 P1 IH1 P2 IH2]; intros F; [exact F| | |auto].
  - inversion F; subst. constructor; [|auto]. now rewrite <- P.
  - inversion F as [|? ? F1 F2]; subst. inversion F2 as [|? ? F3 F4]; subst. inversion F1; subst. constructor; [constructor; [now apply Hs|assumption]|]. now constructor.
Qed.
Lemma apart_sym x y : apart x y -> apart y x. Proof. unfold apart. tauto. Qed.
Lemma FOP_tail {A} (R : A -> A -> Prop) x l : ForallOrdPairs R (x :: l) -> ForallOrdPairs R l /\ Forall (R x) l.
Proof. intros H. inversion H; subst. tauto. Qed.
Lemma split_nth {A} (l : list A) k : (k < length l)%nat -> exists x, skipn k l = x :: skipn (S k) l /\ firstn (S k) l = firstn k l ++ [x].
Proof.
  revert k. induction l as [|y l IH]; intros k H; cbn [length] in H; [lia|]. destruct k as [|k]; [exists y; split; reflexivity|]. destruct (IH k ltac:(lia)) as (x & E1 & E2). exists x. cbn [skipn firstn app]. split; [exact E1|]. cbn [firstn] in E2. now rewrite <- E2.
Qed.
Lemma held_app max f b : ((length f < max)%nat /\ held max (f ++ [b]) = held max f ++ [b] /\ gone max (f ++ [b]) = gone max f) \/
  ((max <= length f)%nat /\ exists x, held max f ++ [b] = x :: held max (f ++ [b]) /\ gone max (f ++ [b]) = gone max f ++ [x]).
Proof.
  unfold held, gone. rewrite app_length. cbn [length]. destruct (Nat.lt_ge_cases (length f) max) as [L|L]; [left|right]; (split; [exact L|]).
  - replace (length f - max)%nat with 0%nat by lia. replace (length f + 1 - max)%nat with 0%nat by lia. split; reflexivity.
  - destruct (split_nth (f ++ [b]) (length f - max)) as (x & A & B); [rewrite app_length; cbn; lia|]. exists x. replace (length f + 1 - max)%nat with (S (length f - max)) by lia.
    rewrite <- A, B. rewrite skipn_app, firstn_app. replace (length f - max - length f)%nat with 0%nat by lia. cbn [skipn firstn]. now rewrite app_nil_r.
Qed.
Lemma held_len max f : zlen (held max f) = Z.min (Z.of_nat max) (zlen f).
Proof. unfold held, zlen. rewrite skipn_length. lia. Qed.

Section Inv.
Variable hr : Z -> bool.
Variable max : nat.
Record inv (s : hst) (p : sp) : Prop := mkInv {
  iHeap : Forall2 (linked (hMem s) (hDescs s) allocB) (hHeap s) (spLive p);
  iFree : Forall2 (linked (hMem s) (hDescs s) freeB) (hFree s) (rev (held max (spFreed p)));
  iNodup : forall x, (cnt x (hHeap s) + cnt x (hFree s) + cnt x (hPool s) + cnt x (hBig s) <= 1)%nat;
  iDescs : forall x, In x (hHeap s) \/ In x (hFree s) \/ In x (hPool s) \/ In x (hBig s) -> In x (spDescs p) /\ 0 < x < W64;
  iLayout : Forall (fun b => layout b /\ hr (bBase b) = false) (spLive p ++ held max (spFreed p));
  iApart : ForallOrdPairs apart (spLive p ++ held max (spFreed p));
  iMax : hMax s = Z.of_nat max;
  iSize : hSize s = zlen (held max (spFreed p));
  iTotal : hTotal s = sumSizes (spLive p) /\ 0 <= sumSizes (spLive p) < W64;
  iPeak : hPeak s = spPeak p;
  iRel : hReleased s = map bBase (gone max (spFreed p));
  iFill : hFill s = false;
  iLimit : hLimit s = 0 }.

Lemma inv_counts s p a b c d : inv s p -> inv (counts s a b c d) p.
Proof. intros []. constructor; assumption. Qed.
Lemma checkAll_ok {A} (f : A -> res unit) l : (forall x, In x l -> f x = Ok tt) -> checkAll f l = Ok tt.
Proof. induction l as [|x l IH]; intros H; cbn [checkAll]; [reflexivity|]. rewrite H by now left. cbn [bind]. apply IH. intros y Hy. apply H. now right. Qed.
Lemma Forall2_in_l {A B} (R : A -> B -> Prop) l l' x : Forall2 R l l' -> In x l -> exists y, In y l' /\ R x y.
Proof. induction 1; intros []; [subst; eexists; split; [now left|assumption]|]. destruct (IHForall2 H1) as (z & Hz & Hr). exists z. split; [now right|assumption]. Qed.
Lemma sanity_ok s m t id b ser : hFill s = false -> linked m t freeB id b -> sanityFree s m (mkD (bSize b) (bPtr b - 16) (bBase b) ser) = Ok tt.
Proof. intros Hf H. unfold sanityFree. rewrite (linked_state _ _ _ _ _ ser H). cbn [bind]. rewrite beq_refl. cbn [negb]. now rewrite Hf. Qed.
Lemma inv_use s p : inv s p -> useHdmp s = Ok tt.
Proof.
  intros I. destruct I. unfold useHdmp. destruct (hLevel s >=? 2); [|reflexivity]. unfold assertheap. rewrite checkAll_ok; [cbn [bind]; apply checkAll_ok|].
  - intros id Hi. assert (In id (hFree s)) by (rewrite <- (firstn_skipn 66 (hFree s)); apply in_or_app; now left). destruct (Forall2_in_l _ _ _ _ iFree0 H) as (b & _ & L). pose proof L as (_ & (ser & E) & _). unfold withDesc. rewrite E. exact (sanity_ok s _ _ id b ser iFill0 L).
  - intros id Hi. destruct (Forall2_in_l _ _ _ _ iHeap0 Hi) as (b & _ & L). pose proof L as (_ & (ser & E) & _). unfold withDesc. rewrite E. rewrite (linked_state _ _ _ _ _ ser L). cbn [bind]. now rewrite beq_refl.
Qed.

(** memory changed only inside one block *)
Lemma frame_others m m' t t' st ids bs b :
  Forall2 (linked m t st) ids bs -> Forall layout bs -> Forall (apart b) bs -> (forall x, ~ (bBase b <= x < bBase b + bFull b) -> m' x = m x) -> (forall id, In id ids -> t' id = t id) ->
  Forall2 (linked m' t' st) ids bs.
Proof.
  intros H. induction H as [|id c ids bs L H IH]; intros Hl Ha Hm Ht; constructor.
  - inversion Hl; subst. inversion Ha as [|? ? A _]; subst. apply (linked_frame m m' t t'); auto; [|apply Ht; now left]. intros x Hx. apply Hm. unfold apart in A. lia.
  - inversion Hl; subst. inversion Ha; subst. apply IH; auto. intros i Hi. apply Ht. now right.
Qed.
Lemma Forall_rev' {A} (P : A -> Prop) l : Forall P l -> Forall P (rev l).
Proof. rewrite !Forall_forall. intros H x Hx. apply H. now apply in_rev. Qed.
Lemma setState_out m d bs x : length bs = 4%nat -> x < dData d + 8 \/ dData d + 12 <= x -> x < dData d + 16 + dLen d \/ dData d + 16 + dLen d + 4 <= x -> setState m d bs x = m x.
Proof. intros L H1 H2. unfold setState, guardSize. rewrite put_out by (unfold zlen; rewrite L; lia). apply put_out. unfold zlen. rewrite L. lia. Qed.

Lemma build_ok s p b d : inv s p -> layout b -> freshBlock hr max p b -> freshDesc p d -> sumSizes (spLive p) + bSize b < W64 ->
  exists s', buildAlloc s (bBase b) (bPtr b - 16) (bSize b) d = Ok s' /\ inv s' (addBlock p b d) /\
   (forall x, ~ (bBase b <= x < bBase b + bFull b) -> hMem s' x = hMem s x) /\ (forall x, bPtr b <= x < bPtr b + bSize b -> hMem s' x = hMem s x).
Proof.
  intros I Lb (F1 & F2 & F3 & F4) (D1 & D2) Hsum. destruct Lb as (L1 & L2 & L3 & L4). destruct I as [IH IF IN ID IL IA IM IS [IT1 IT2] IP IR IFi ILi].
  unfold buildAlloc. set (idp := match hPool s with [] => (d, []) | x :: r => (x, r) end).
  assert (Hid : let (id, pool) := idp in 0 < id < W64 /\ In id (d :: spDescs p) /\ ~ In id (hHeap s) /\ ~ In id (hFree s) /\ (forall x, (cnt x [id] + cnt x (hHeap s) + cnt x (hFree s) + cnt x pool + cnt x (hBig s) <= 1)%nat) /\ (forall x, In x pool -> In x (hPool s))).
  { subst idp. destruct (hPool s) as [|x r] eqn:Ep.
    - assert (N : ~ In d (hHeap s) /\ ~ In d (hFree s) /\ ~ In d (hBig s)) by (repeat split; intros Hx; apply D2; apply ID; tauto). destruct N as (N1 & N2 & N3).
      repeat split; try lia; auto; [now left|]. intros x. specialize (IN x). rewrite cnt_cons, !cnt_nil in *. destruct (d =? x) eqn:E; [|lia]. assert (d = x) by lia. subst x. rewrite cnt_in in N1, N2, N3. lia.
    - assert (C := IN x). rewrite cnt_cons, Z.eqb_refl in C. assert (R : In x (spDescs p) /\ 0 < x < W64) by (apply ID; right; right; left; now left).
      repeat split; try lia; auto; [right; tauto|rewrite cnt_in; lia|rewrite cnt_in; lia| |intros y Hy; now right]. intros y. specialize (IN y). rewrite cnt_cons in *. rewrite cnt_nil. lia. }
  destruct idp as [id pool]. destruct Hid as (R & Rin & N1 & N2 & Cn & Pi). replace (id =? 0) with false by lia. replace (bPtr b - 16 =? 0) with false by lia. cbv zeta. unfold guardSize at 1.
  rewrite ILi. cbn [Z.eqb negb]. rewrite andb_false_r, andb_false_l. unfold fill. rewrite IFi.
  assert (Hnn : 0 <= sumSizes (spLive p)) by lia.
  rewrite IT1. rewrite (u64_id (sumSizes (spLive p) + bSize b)) by (unfold isU64; lia).
  set (dd := mkD (bSize b) (bPtr b - 16) (bBase b) (hSerial s)). set (m1 := put (hMem s) (bPtr b - 16) (leBytes 8 id)). set (m' := setState m1 dd allocB).
  assert (Z8 : zlen (leBytes 8 id) = 8) by (rewrite leBytes_len; reflexivity).
  assert (Hout : forall x, ~ (bBase b <= x < bBase b + bFull b) -> m' x = hMem s x).
  { intros x Hx. unfold m'. rewrite setState_out by (reflexivity || (subst dd; cbn [dData dLen]; lia)). unfold m1. apply put_out. lia. }
  assert (Huser : forall x, bPtr b <= x < bPtr b + bSize b -> m' x = hMem s x).
  { intros x Hx. unfold m'. rewrite setState_out by (reflexivity || (subst dd; cbn [dData dLen]; lia)). unfold m1. apply put_out. lia. }
  assert (Hlink : linked m' (updD (hDescs s) id dd) allocB id b).
  { split; [exact R|]. split; [exists (hSerial s); unfold updD; now rewrite Z.eqb_refl|]. unfold m', setState, guardSize. subst dd. cbn [dData dLen]. replace (bPtr b - 16 + 16 + bSize b) with (bPtr b + bSize b) by lia. replace (bPtr b - 16 + 8) with (bPtr b - 8) by lia.
    assert (Z4 : zlen allocB = 4) by reflexivity. split; [|split].
    - rewrite get_put_out by (rewrite Z4; lia). rewrite get_put_out by (rewrite Z4; lia). unfold m1. replace 8%nat with (length (leBytes 8 id)) at 2 by reflexivity. apply get_put.
    - exact (get_put allocB _ _).
    - rewrite get_put_out by (rewrite Z4; lia). exact (get_put allocB _ _). }
  assert (Ap : Forall (apart b) (spLive p ++ held max (spFreed p))) by (rewrite Forall_forall; exact F4). pose proof Ap as Ap'. apply Forall_app in Ap'. destruct Ap' as (Ap1 & Ap2).
  assert (Ly : Forall layout (spLive p) /\ Forall layout (held max (spFreed p))).
  { apply Forall_app in IL. destruct IL as (X & Y). split; [apply (Forall_impl layout) with (2 := X)|apply (Forall_impl layout) with (2 := Y)]; intros a Ha; apply Ha. } destruct Ly as (Ly1 & Ly2).
  eexists. split; [reflexivity|]. split; [|split; [exact Hout|exact Huser]]. constructor; cbn [hMem hDescs hHeap hFree hPool hBig hMax hSize hTotal hPeak hReleased hFill hLimit addBlock spLive spFreed spPeak spDescs].
  - constructor; [exact Hlink|]. apply (frame_others (hMem s) m' (hDescs s) _ _ _ _ b); auto. intros i Hi. unfold updD. replace (i =? id) with false; [reflexivity|]. symmetry. apply Z.eqb_neq. congruence.
  - apply (frame_others (hMem s) m' (hDescs s) _ _ _ _ b); auto using Forall_rev'. intros i Hi. unfold updD. replace (i =? id) with false; [reflexivity|]. symmetry. apply Z.eqb_neq. congruence.
  - intros x. specialize (Cn x). rewrite cnt_cons in *. rewrite cnt_nil in Cn. lia.
  - intros x [Hx|[Hx|[Hx|Hx]]].
    + destruct Hx as [<-|Hx]; [split; [exact Rin|exact R]|]. destruct (ID x) as (A & B); [tauto|]. split; [now right|exact B].
    + destruct (ID x) as (A & B); [tauto|]. split; [now right|exact B].
    + destruct (ID x) as (A & B); [right; right; left; now apply Pi|]. split; [now right|exact B].
    + destruct (ID x) as (A & B); [tauto|]. split; [now right|exact B].
  - cbn [app]. constructor; [|exact IL]. split; [|exact F3]. unfold layout. lia.
  - cbn [app]. constructor; assumption.
  - exact IM.
  - exact IS.
  - cbn [sumSizes fold_right]. fold (sumSizes (spLive p)). lia.
  - rewrite IP. cbn [sumSizes fold_right]. fold (sumSizes (spLive p)). destruct (sumSizes (spLive p) + bSize b >? spPeak p) eqn:E; lia.
  - exact IR.
  - first [exact IFi|reflexivity].
  - first [exact ILi|reflexivity].
Qed.

Lemma Forall2_mid {A B} (R : A -> B -> Prop) l l1 y l2 : Forall2 R l (l1 ++ y :: l2) -> exists h1 x h2, l = h1 ++ x :: h2 /\ Forall2 R h1 l1 /\ R x y /\ Forall2 R h2 l2.
Proof. intros H. apply Forall2_app_inv_r in H. destruct H as (h1 & h2 & F1 & F2 & ->). inversion F2; subst. eauto 10. Qed.
Lemma free_ok s p l1 b l2 : inv s p -> spLive p = l1 ++ b :: l2 ->
  exists s', free hr s (bPtr b) = Ok s' /\ inv s' (mkSp (l1 ++ l2) (spFreed p ++ [b]) (spPeak p) (spDescs p)) /\
    (forall x, ~ (bBase b <= x < bBase b + bFull b) -> hMem s' x = hMem s x).
Proof.
  intros I El. pose proof (inv_use s p I) as Hu. destruct I as [IH IF IN ID IL IA IM IS [IT1 IT2] IP IR IFi ILi]. rewrite El in *.
  destruct (Forall2_mid _ _ _ _ _ IH) as (h1 & id & h2 & Eh & H1 & Hl & H2).
  assert (Lb : layout b /\ hr (bBase b) = false) by (rewrite Forall_forall in IL; apply IL; rewrite !in_app_iff; cbn; tauto). destruct Lb as (Lb & Hrb). pose proof Lb as (L1 & L2 & L3 & L4).
  unfold free. replace (bPtr b =? 0) with false by lia. rewrite Hu. cbn [bind]. rewrite (linked_ptr _ _ _ _ _ Hl). pose proof Hl as (Rid & (ser & Ed) & Eg & Es1 & Es2). unfold withDesc at 1. rewrite Ed.
  rewrite (linked_state _ _ _ _ _ ser Hl). cbn [bind]. rewrite beq_refl. cbn [negb dData dLen]. unfold guardSize at 1. rewrite Z.eqb_refl. cbn [negb]. cbv zeta. unfold fill. rewrite IFi.
  set (dd := mkD (bSize b) (bPtr b - 16) (bBase b) ser) in *. set (m' := setState (hMem s) dd freeB).
  assert (Hout : forall x, ~ (bBase b <= x < bBase b + bFull b) -> m' x = hMem s x) by (intros x Hx; unfold m'; apply setState_out; [reflexivity| |]; subst dd; cbn [dData dLen]; lia).
  assert (Hlink : linked m' (hDescs s) freeB id b).
  { split; [exact Rid|]. split; [now exists ser|]. unfold m', setState, guardSize. subst dd. cbn [dData dLen]. replace (bPtr b - 16 + 16 + bSize b) with (bPtr b + bSize b) by lia. replace (bPtr b - 16 + 8) with (bPtr b - 8) by lia.
    assert (Z4 : zlen freeB = 4) by reflexivity. split; [|split].
    - rewrite get_put_out by (rewrite Z4; lia). rewrite get_put_out by (rewrite Z4; lia). exact Eg.
    - exact (get_put freeB _ _).
    - rewrite get_put_out by (rewrite Z4; lia). exact (get_put freeB _ _). }
  assert (Pm : Permutation ((l1 ++ b :: l2) ++ held max (spFreed p)) (b :: (l1 ++ l2) ++ held max (spFreed p))) by (rewrite <- !app_assoc; cbn [app]; symmetry; apply Permutation_middle).
  assert (IL' : Forall (fun b => layout b /\ hr (bBase b) = false) (b :: (l1 ++ l2) ++ held max (spFreed p))) by (now rewrite <- Pm).
  pose proof (FOP_perm apart apart_sym _ _ Pm IA) as IA'. apply FOP_tail in IA'. destruct IA' as (IA' & Ap). pose proof Ap as Ap'. apply Forall_app in Ap'. destruct Ap' as (Ap12 & Aph). apply Forall_app in Ap12. destruct Ap12 as (Ap1 & Ap2).
  assert (Ly : Forall layout l1 /\ Forall layout l2 /\ Forall layout (held max (spFreed p))).
  { inversion IL' as [|? ? _ X]; subst. apply Forall_app in X. destruct X as (X & Y). apply Forall_app in X. destruct X as (X1 & X2). split; [apply (Forall_impl layout) with (2 := X1)|split; [apply (Forall_impl layout) with (2 := X2)|apply (Forall_impl layout) with (2 := Y)]]; intros a Ha; apply Ha. }
  destruct Ly as (Ly1 & Ly2 & Lyh).
  assert (G1 : Forall2 (linked m' (hDescs s) allocB) (h1 ++ h2) (l1 ++ l2)) by (apply Forall2_app; apply (frame_others (hMem s) m' (hDescs s) _ _ _ _ b); auto).
  assert (G2 : Forall2 (linked m' (hDescs s) freeB) (id :: hFree s) (rev (held max (spFreed p) ++ [b]))).
  { rewrite rev_app_distr. cbn [rev app]. constructor; [exact Hlink|]. apply (frame_others (hMem s) m' (hDescs s) _ _ _ _ b); auto using Forall_rev'. }
  assert (Hc : cnt id (hHeap s) = 1%nat) by (specialize (IN id); rewrite Eh in IN |- *; rewrite cnt_app, cnt_cons, Z.eqb_refl in *; lia).
  assert (Hrm : remove Z.eq_dec id (hHeap s) = h1 ++ h2) by (rewrite Eh in Hc |- *; now apply remove_mid). rewrite Hrm.
  assert (Hsum : sumSizes (l1 ++ b :: l2) = sumSizes (l1 ++ l2) + bSize b /\ 0 <= sumSizes (l1 ++ l2)).
  { assert (Nn : Forall layout (l1 ++ l2)) by (apply Forall_app; tauto). clear -Nn L3. split; [induction l1 as [|c l IHl]; cbn [app sumSizes fold_right] in *; [lia|]; inversion Nn; subst; specialize (IHl ltac:(assumption)); unfold sumSizes in *; lia|].
    induction (l1 ++ l2) as [|c l IHl]; cbn [sumSizes fold_right]; [lia|]. inversion Nn as [|? ? (_ & _ & X & _) Y]; subst. specialize (IHl Y). unfold sumSizes in *. lia. }
  destruct Hsum as (Hs1 & Hs2).
  assert (INn : forall x, (cnt x (h1 ++ h2) + cnt x (id :: hFree s) + cnt x (hPool s) + cnt x (hBig s) <= 1)%nat).
  { intros x. specialize (IN x). rewrite Eh in IN. rewrite !cnt_app, !cnt_cons in *. lia. }
  assert (IDn : forall x, In x (h1 ++ h2) \/ In x (id :: hFree s) \/ In x (hPool s) \/ In x (hBig s) -> In x (spDescs p) /\ 0 < x < W64).
  { intros x Hx. apply ID. rewrite Eh. rewrite !in_app_iff in *. cbn [In] in *. tauto. }
  pose proof (held_len max (spFreed p)) as Hh.
  destruct (held_app max (spFreed p) b) as [(Lf & E1 & E2)|(Lf & x & E1 & E2)].
  - replace (hSize s =? hMax s) with false by (rewrite IS, IM, Hh; unfold zlen; lia). eexists. split; [reflexivity|]. split; [|exact Hout].
    constructor; cbn [hMem hDescs hHeap hFree hPool hBig hMax hSize hTotal hPeak hReleased hFill hLimit spLive spFreed spPeak spDescs]; rewrite ?E1, ?E2; auto.
    + inversion IL' as [|? ? X Y]; subst. rewrite app_assoc. apply Forall_app. split; [exact Y|]. constructor; [exact X|constructor].
    + rewrite app_assoc. apply (FOP_perm apart apart_sym (b :: (l1 ++ l2) ++ held max (spFreed p))); [apply Permutation_cons_append|]. constructor; assumption.
    + rewrite zlen_app, zlen_cons, zlen_nil. lia.
    + rewrite IT1, Hs1. split; [|lia]. rewrite u64_id by (unfold isU64; lia). lia.
  - replace (hSize s =? hMax s) with true by (rewrite IS, IM, Hh; unfold zlen; lia).
    rewrite E1 in G2. cbn [rev] in G2. apply Forall2_app_inv_r in G2. destruct G2 as (fl & lx & G2 & G3 & Efl). inversion G3 as [|idx ? ? ? Gx G4]; subst. inversion G4; subst. rewrite Efl.
    rewrite removelast_last, last_last. unfold freeDesc. pose proof Gx as (_ & (serx & Edx) & _). unfold withDesc. cbn [hDescs hMem]. rewrite Edx.
    rewrite (sanity_ok _ m' (hDescs s) idx x serx) by (first [exact IFi|exact Gx|reflexivity]). cbn [bind dBase dLen].
    assert (Hx : In x (b :: held max (spFreed p))). { assert (In x (held max (spFreed p) ++ [b])) by (rewrite E1; now left). rewrite in_app_iff in H. cbn [In] in *. tauto. }
    assert (Hrx : hr (bBase x) = false). { inversion IL' as [|? ? X Y]; subst. destruct Hx as [<-|Hx]; [tauto|]. rewrite Forall_forall in Y. apply Y. apply in_or_app. now right. }
    rewrite Hrx. eexists. split; [reflexivity|]. split; [|exact Hout].
    assert (Pq : Permutation (b :: (l1 ++ l2) ++ held max (spFreed p)) (x :: (l1 ++ l2) ++ held max (spFreed p ++ [b]))).
    { transitivity ((l1 ++ l2) ++ (held max (spFreed p) ++ [b])); [rewrite app_assoc; apply Permutation_cons_append|]. rewrite E1. symmetry. apply Permutation_middle. }
    constructor; cbn [hMem hDescs hHeap hFree hPool hBig hMax hSize hTotal hPeak hReleased hFill hLimit spLive spFreed spPeak spDescs].
    + exact G1.
    + exact G2.
    + intros y. specialize (INn y). rewrite Efl in INn. rewrite !cnt_app, !cnt_cons, !cnt_nil in INn. destruct (_ && _); rewrite ?cnt_app, ?cnt_cons, ?cnt_nil in *; lia.
    + intros y Hy. apply IDn. rewrite Efl. rewrite in_app_iff with (l' := [idx]). destruct (_ && _) in Hy; rewrite ?(in_app_iff (hPool s)), ?(in_app_iff (hBig s)) in Hy; tauto.
    + rewrite Pq in IL'. inversion IL'; subst. assumption.
    + apply (FOP_tail apart x). apply (FOP_perm apart apart_sym _ _ Pq). constructor; assumption.
    + exact IM.
    + rewrite IS, Hh, held_len, zlen_app. unfold zlen. cbn [length]. lia.
    + rewrite IT1, Hs1. split; [|lia]. rewrite u64_id by (unfold isU64; lia). lia.
    + exact IP.
    + rewrite E2, map_app, IR. reflexivity.
    + first [exact IFi|reflexivity].
    + exact ILi.
Qed.

(** writes inside the client's part of a live block *)
Lemma write_ok s p b m' : inv s p -> In b (spLive p) -> (forall x, ~ (bPtr b <= x < bPtr b + bSize b) -> m' x = hMem s x) -> inv (setMem s m') p.
Proof.
  intros I Hb Hm. destruct I as [IH IF IN ID IL IA IM IS IT IP IR IFi ILi]. assert (Hall := IL). rewrite Forall_forall in Hall. destruct (Hall b) as ((L1 & L2 & L3 & L4) & _); [apply in_or_app; now left|].
  apply in_split in Hb. destruct Hb as (l1 & l2 & El). rewrite El in *. destruct (Forall2_mid _ _ _ _ _ IH) as (h1 & id & h2 & Eh & H1 & Hl & H2).
  assert (Pm : Permutation ((l1 ++ b :: l2) ++ held max (spFreed p)) (b :: (l1 ++ l2) ++ held max (spFreed p))) by (rewrite <- !app_assoc; cbn [app]; symmetry; apply Permutation_middle).
  assert (IL' : Forall (fun b => layout b /\ hr (bBase b) = false) (b :: (l1 ++ l2) ++ held max (spFreed p))) by (now rewrite <- Pm).
  pose proof (FOP_perm apart apart_sym _ _ Pm IA) as IA'. apply FOP_tail in IA'. destruct IA' as (_ & Ap). apply Forall_app in Ap. destruct Ap as (Ap12 & Aph). apply Forall_app in Ap12. destruct Ap12 as (Ap1 & Ap2).
  assert (Ly : Forall layout l1 /\ Forall layout l2 /\ Forall layout (held max (spFreed p))).
  { inversion IL' as [|? ? _ X]; subst. apply Forall_app in X. destruct X as (X & Y). apply Forall_app in X. destruct X as (X1 & X2). split; [apply (Forall_impl layout) with (2 := X1)|split; [apply (Forall_impl layout) with (2 := X2)|apply (Forall_impl layout) with (2 := Y)]]; intros a Ha; apply Ha. }
  destruct Ly as (Ly1 & Ly2 & Lyh).
  assert (Hout : forall x, ~ (bBase b <= x < bBase b + bFull b) -> m' x = hMem s x) by (intros x Hx; apply Hm; lia).
  constructor; cbn [setMem hMem hDescs hHeap hFree hPool hBig hMax hSize hTotal hPeak hReleased hFill hLimit]; rewrite ?El; auto.
  - rewrite Eh. apply Forall2_app; [apply (frame_others (hMem s) m' (hDescs s) _ _ _ _ b); auto|]. constructor; [|apply (frame_others (hMem s) m' (hDescs s) _ _ _ _ b); auto].
    destruct Hl as (A & B & C & D & E). split; [exact A|]. split; [exact B|].
    rewrite (get_ext m' (hMem s) (bPtr b - 16) 8) by (intros x Hx; apply Hm; lia). rewrite (get_ext m' (hMem s) (bPtr b - 8) 4) by (intros x Hx; apply Hm; lia). rewrite (get_ext m' (hMem s) (bPtr b + bSize b) 4) by (intros x Hx; apply Hm; lia). tauto.
  - apply (frame_others (hMem s) m' (hDescs s) _ _ _ _ b); auto using Forall_rev'.
Qed.
Lemma inv_init m level bt mb : inv (hinit m (Z.of_nat max) level false bt mb 0) spInit.
Proof.
  unfold hinit, spInit. constructor; cbn [hMem hDescs hHeap hFree hPool hBig hMax hSize hTotal hPeak hReleased hFill hLimit spLive spFreed spPeak spDescs]; unfold held, gone; cbn [length Nat.sub skipn firstn app rev map]; try (constructor; fail); auto.
  - intros x [[]|[[]|[[]|[]]]].
  - cbn. unfold W64. lia.
Qed.
Lemma malloc_ok s p size r d : inv s p -> 0 <= size -> freshBlock hr max p (mallocBlk size r) -> freshDesc p d -> sumSizes (spLive p) + size < W64 ->
  exists s', malloc s size r d = Ok (s', r + 16) /\ inv s' (addBlock p (mallocBlk size r) d) /\
   (forall x, ~ (r <= x < r + (size + 20)) -> hMem s' x = hMem s x).
Proof.
  intros I Hs F D S. unfold malloc. rewrite (inv_use s p I). cbn [bind]. pose proof (inv_counts s p 1 0 0 0 I) as I'.
  destruct (build_ok (counts s 1 0 0 0) p (mallocBlk size r) d I') as (s' & E & Is & M1 & M2); auto.
  - destruct F as (F & _). unfold layout, mallocBlk in *. cbn [bBase bPtr bSize bFull] in *. lia.
  - cbn [mallocBlk bBase bPtr bSize] in E. replace (r + 16 - 16) with r in E by lia. rewrite E. cbn [bind]. eexists. split; [reflexivity|]. split; [exact Is|]. exact M1.
Qed.
Lemma internal_pad al : 0 < al -> al * (guardSize / al + (if guardSize mod al =? 0 then 0 else 1)) = al * ((16 + al - 1) / al) /\ 16 <= al * ((16 + al - 1) / al).
Proof.
  intros H. unfold guardSize. pose proof (Z.div_mod 16 al ltac:(lia)) as E. pose proof (Z.mod_pos_bound 16 al H) as B. set (q := 16 / al) in *. set (r := 16 mod al) in *.
  destruct (r =? 0) eqn:Er.
  - assert (Eq : (16 + al - 1) / al = q) by (symmetry; apply (Z.div_unique _ _ _ (al - 1)); lia). rewrite Eq. nia.
  - assert (Eq : (16 + al - 1) / al = q + 1) by (symmetry; apply (Z.div_unique _ _ _ (r - 1)); lia). rewrite Eq. nia.
Qed.
Lemma aligned_ok s p al size r d : inv s p -> 0 < al -> 0 <= size -> freshBlock hr max p (alignedBlk al size r) -> freshDesc p d -> sumSizes (spLive p) + size < W64 ->
  exists s', alignedAlloc s al size r d = Ok (s', bPtr (alignedBlk al size r)) /\ inv s' (addBlock p (alignedBlk al size r) d) /\
   (forall x, ~ (bBase (alignedBlk al size r) <= x < bBase (alignedBlk al size r) + bFull (alignedBlk al size r)) -> hMem s' x = hMem s x).
Proof.
  intros I Ha Hs F D S. unfold alignedAlloc. rewrite (inv_use s p I). cbn [bind]. replace (al =? 0) with false by lia. pose proof (inv_counts s p 0 0 1 0 I) as I'.
  destruct (internal_pad al Ha) as (P1 & P2).
  assert (Ei : internalSpace al = al * ((16 + al - 1) / al)). { unfold internalSpace. rewrite P1. apply u64_id. destruct F as (F1 & F2 & _). unfold alignedBlk in *. cbn [bBase bFull] in *. unfold isU64. lia. }
  destruct (build_ok (counts s 0 0 1 0) p (alignedBlk al size r) d I') as (s' & E & Is & M1 & M2); auto.
  - destruct F as (F1 & F2 & _). unfold layout, alignedBlk in *. cbn [bBase bPtr bSize bFull] in *. lia.
  - cbn [alignedBlk bBase bPtr bSize] in E |- *. rewrite Ei. unfold guardSize. rewrite E. cbn [bind]. eexists. split; [do 2 f_equal; lia|]. split; [exact Is|]. exact M1.
Qed.
Lemma inv_mem s p b : inv s p -> In b (spLive p) -> exists id ser, linked (hMem s) (hDescs s) allocB id b /\ hDescs s id = Some (mkD (bSize b) (bPtr b - 16) (bBase b) ser).
Proof.
  intros I Hb. destruct I. apply in_split in Hb. destruct Hb as (l1 & l2 & El). rewrite El in iHeap0. destruct (Forall2_mid _ _ _ _ _ iHeap0) as (h1 & id & h2 & _ & _ & Hl & _).
  pose proof Hl as (_ & (ser & E) & _). eauto.
Qed.
Lemma inv_layout s p b : inv s p -> In b (spLive p ++ held max (spFreed p)) -> layout b.
Proof. intros I Hb. destruct I. rewrite Forall_forall in iLayout0. now apply iLayout0. Qed.
Lemma FOP_in {A} (R : A -> A -> Prop) l l1 x l2 y : (forall a b, R a b -> R b a) -> ForallOrdPairs R l -> Permutation l (l1 ++ x :: l2) -> In y (l1 ++ l2) -> R x y.
Proof.
  intros Hs F P Hy. assert (P' : Permutation l (x :: l1 ++ l2)) by (rewrite P; symmetry; apply Permutation_middle). pose proof (FOP_perm R Hs _ _ P' F) as F'. apply FOP_tail in F'. destruct F' as (_ & F'). rewrite Forall_forall in F'. auto.
Qed.
Definition writes (e : hev) (x : Z) : Prop := match e with EWrite a _ => x = a | _ => False end.
Lemma step_ok s p e r p' : inv s p -> okEv hr max p e r p' -> exists s', hstep hr s e = Ok (s', r) /\ inv s' p' /\
  (forall b x, In b (spLive p) -> In b (spLive p') -> bPtr b <= x < bPtr b + bSize b -> ~ writes e x -> hMem s' x = hMem s x).
Proof.
  intros I Ev.
  assert (Live : forall b c x, In b (spLive p) -> bPtr b <= x < bPtr b + bSize b -> freshBlock hr max p c -> ~ (bBase c <= x < bBase c + bFull c)).
  { intros b c x Hb Hx (_ & _ & _ & F). specialize (F b ltac:(apply in_or_app; now left)). pose proof (inv_layout s p b I ltac:(apply in_or_app; now left)) as (L1 & L2 & L3 & L4). unfold apart in F. lia. }
  destruct Ev as [p size rr d Hs F D S|p al size rr d Ha Hs F D S|p n size rr d Hs F D S|p|p l1 b l2 El|p size rr d Hs F D S|p b size rr d Hb Hs|p l1 b l2 size rr d El Hs F D S|p b a v Hb Ha]; cbn [hstep writes].
  - destruct (malloc_ok s p size rr d I Hs F D S) as (s' & E & Is & M). rewrite E. eexists. split; [reflexivity|]. split; [exact Is|]. intros b x Hb _ Hx _. apply M. exact (Live b _ x Hb Hx F).
  - destruct (aligned_ok s p al size rr d I Ha Hs F D S) as (s' & E & Is & M). rewrite E. eexists. split; [reflexivity|]. split; [exact Is|]. intros b x Hb _ Hx _. apply M. exact (Live b _ x Hb Hx F).
  - unfold calloc. rewrite (inv_use s p I). cbn [bind]. pose proof F as (F1 & F2 & _). cbn [mallocBlk bBase bFull] in F1, F2. rewrite (Z.mul_comm size n), (u64_id (n * size)) by (unfold isU64; lia).
    destruct (malloc_ok _ p (n * size) rr d (inv_counts s p 0 0 1 0 I) Hs F D S) as (s' & E & Is & M). rewrite E. cbn [bind]. eexists. split; [reflexivity|].
    assert (Hout : forall x, ~ (rr + 16 <= x < rr + 16 + n * size) -> put (hMem s') (rr + 16) (repeat 0 (Z.to_nat (n * size))) x = hMem s' x) by (intros x Hx; apply put_out; unfold zlen; rewrite repeat_length; lia).
    split.
    + apply (write_ok s' _ (mallocBlk (n * size) rr)); [exact Is|now left|exact Hout].
    + intros b x Hb _ Hx _. cbn [setMem hMem]. pose proof (Live b _ x Hb Hx F) as N. cbn [mallocBlk bBase bFull] in N. rewrite Hout by lia. rewrite M by exact N. reflexivity.
  - unfold free. cbn [Z.eqb bind]. eexists. split; [reflexivity|]. split; [exact I|]. reflexivity.
  - destruct (free_ok s p l1 b l2 I El) as (s' & E & Is & M). rewrite E. cbn [bind]. eexists. split; [reflexivity|]. split; [exact Is|]. cbn [spLive]. intros c x Hc Hc' Hx _. apply M.
    pose proof (inv_layout s p c I ltac:(apply in_or_app; now left)) as (L1 & L2 & L3 & L4). destruct I as [_ _ _ _ _ IA _ _ _ _ _ _ _].
    assert (A : apart b c). { apply (FOP_in apart _ l1 b (l2 ++ held max (spFreed p)) c apart_sym IA); [rewrite El, <- app_assoc; reflexivity|]. rewrite !in_app_iff in *. tauto. } unfold apart in A. lia.
  - unfold realloc. rewrite (inv_use s p I). cbn [bind Z.eqb]. destruct (malloc_ok _ p size rr d (inv_counts s p 0 0 0 1 I) Hs F D S) as (s' & E & Is & M). rewrite E. eexists. split; [reflexivity|]. split; [exact Is|]. intros b x Hb _ Hx _. rewrite M; [reflexivity|]. exact (Live b _ x Hb Hx F).
  - pose proof (inv_layout s p b I ltac:(apply in_or_app; now left)) as (L1 & L2 & L3 & L4). unfold realloc. rewrite (inv_use s p I). cbn [bind]. replace (bPtr b =? 0) with false by lia. destruct (inv_mem s p b I Hb) as (id & ser & Hl & Ed).
    cbn [counts hMem hDescs]. rewrite (linked_ptr _ _ _ _ _ Hl). unfold withDesc. cbn [counts hDescs]. rewrite Ed. cbn [dLen]. replace (bSize b >=? size) with true by lia. eexists. split; [reflexivity|]. split; [now apply inv_counts|]. reflexivity.
  - assert (Hb : In b (spLive p)) by (rewrite El; apply in_or_app; right; now left). pose proof (inv_layout s p b I ltac:(apply in_or_app; now left)) as (L1 & L2 & L3 & L4). unfold realloc. rewrite (inv_use s p I). cbn [bind]. replace (bPtr b =? 0) with false by lia. destruct (inv_mem s p b I Hb) as (id & ser & Hl & Ed).
    cbn [counts hMem hDescs]. rewrite (linked_ptr _ _ _ _ _ Hl). unfold withDesc at 1. cbn [counts hDescs]. rewrite Ed. cbn [dLen]. replace (bSize b >=? size) with false by lia.
    destruct (malloc_ok _ p size rr d (inv_counts s p 0 0 0 1 I) ltac:(lia) F D S) as (s1 & E & Is & M). change (mkH (hMem s) (hDescs s) (hHeap s) (hFree s) (hPool s) (hBig s) (hMax s) (hSize s) (hTotal s) (hPeak s) (u32 (hMallocs s + 0)) (u32 (hFrees s + 0)) (u32 (hCallocs s + 0)) (u32 (hReallocs s + 1)) (hAligned s) (hLevel s) (hSerial s) (hFill s) (hBigThresh s) (hNumBig s) (hMaxBig s) (hLimit s) (hReleased s)) with (counts s 0 0 0 1). rewrite E. cbn [bind].
    destruct (inv_mem s1 _ b Is ltac:(now right)) as (id1 & ser1 & Hl1 & Ed1). rewrite (linked_ptr _ _ _ _ _ Hl1). unfold withDesc. rewrite Ed1. cbn [dLen]. replace (bSize b <? size) with true by lia.
    set (m2 := put (hMem s1) (rr + 16) (get (hMem s1) (bPtr b) (Z.to_nat (bSize b)))).
    assert (Zg : zlen (get (hMem s1) (bPtr b) (Z.to_nat (bSize b))) = bSize b) by (unfold zlen, get; rewrite map_length, seq_length; lia).
    assert (Hout : forall x, ~ (rr + 16 <= x < rr + 16 + size) -> m2 x = hMem s1 x) by (intros x Hx; unfold m2; apply put_out; lia).
    assert (I2 : inv (setMem s1 m2) (addBlock p (mallocBlk size rr) d)) by (apply (write_ok s1 _ (mallocBlk size rr)); [exact Is|now left|exact Hout]).
    destruct (free_ok (setMem s1 m2) _ (mallocBlk size rr :: l1) b l2 I2) as (s3 & E3 & I3 & M3); [cbn [addBlock spLive app]; now rewrite El|]. rewrite E3. cbn [bind]. eexists. split; [reflexivity|]. split; [exact I3|].
    cbn [spLive app]. intros c x Hc Hc' Hx _. pose proof (Live c _ x Hc Hx F) as N. cbn [mallocBlk bBase bFull] in N. rewrite M3.
    + cbn [setMem hMem]. rewrite Hout by lia. rewrite M by exact N. reflexivity.
    + pose proof (inv_layout s p c I ltac:(apply in_or_app; now left)) as (K1 & K2 & K3 & K4). destruct Hc' as [<-|Hc']; [cbn [mallocBlk bBase bFull bPtr bSize] in *; lia|]. destruct I as [_ _ _ _ _ IA _ _ _ _ _ _ _].
      assert (A : apart b c). { apply (FOP_in apart _ l1 b (l2 ++ held max (spFreed p)) c apart_sym IA); [rewrite El, <- app_assoc; reflexivity|]. rewrite !in_app_iff in *. tauto. } unfold apart in A. lia.
  - eexists. split; [reflexivity|]. split; [|intros c x _ _ _ Hw; cbn [setMem hMem]; apply put_out; change (zlen [v]) with 1; lia]. apply (write_ok s p b); auto. intros x Hx. apply put_out. change (zlen [v]) with 1. lia.
Qed.
Lemma run_ok es : forall s p p', inv s p -> okRun hr max p es p' -> exists s', hrun hr s es = Ok s' /\ inv s' p'.
Proof.
  induction es as [|e es IH]; intros s p p' I R; inversion R; subst; [exists s; split; [reflexivity|exact I]|]. destruct (step_ok s p e _ _ I H2) as (s1 & E & I1 & _). cbn [hrun]. rewrite E. cbn [bind]. eauto.
Qed.

(** ** detection *)
Lemma checkAll_or {A} (f : A -> res unit) l : (forall x, In x l -> f x = Ok tt \/ f x = Throw) -> checkAll f l = Ok tt \/ checkAll f l = Throw.
Proof. induction l as [|x l IH]; intros H; cbn [checkAll]; [now left|]. destruct (H x) as [-> | ->]; [now left| |now right]. cbn [bind]. apply IH. intros y Hy. apply H. now right. Qed.
Lemma checkAll_throw {A} (f : A -> res unit) l x : (forall x, In x l -> f x = Ok tt \/ f x = Throw) -> In x l -> f x = Throw -> checkAll f l = Throw.
Proof. induction l as [|y l IH]; intros H Hi Hx; [destruct Hi|]. cbn [checkAll]. destruct Hi as [-> |Hi]; [now rewrite Hx|]. destruct (H y) as [E|E]; [now left| |now rewrite E]. rewrite E. cbn [bind]. apply IH; auto. intros z Hz. apply H. now right. Qed.
Lemma heap_check_or s p m id : inv s p -> In id (hHeap s) -> let f := fun id => withDesc (setMem s m) id (fun d => let* b := getState m d in if beq b allocB then Ok tt else Throw) in f id = Ok tt \/ f id = Throw.
Proof.
  intros I Hi f. unfold f. destruct I. destruct (Forall2_in_l _ _ _ _ iHeap0 Hi) as (b & _ & (_ & (ser & E) & _)). unfold withDesc. cbn [setMem hDescs]. rewrite E. unfold getState. destruct (beq _ _); cbn [bind]; [|now right]. destruct (beq _ _); auto.
Qed.
Lemma use_or s p m : inv s p -> useHdmp (setMem s m) = Ok tt \/ useHdmp (setMem s m) = Throw.
Proof.
  intros I. unfold useHdmp. cbn [setMem hLevel]. destruct (hLevel s >=? 2); [|now left]. unfold assertheap. cbn [setMem hHeap hFree hMem].
  destruct (checkAll_or (fun id => withDesc (setMem s m) id (fun d => let* b := getState m d in if beq b allocB then Ok tt else Throw)) (hHeap s)) as [E|E].
  - intros id Hi. exact (heap_check_or s p m id I Hi).
  - unfold setMem in E |- *. rewrite E. cbn [bind]. apply checkAll_or. intros id Hi. destruct I. assert (In id (hFree s)) by (rewrite <- (firstn_skipn 66 (hFree s)); apply in_or_app; now left).
    destruct (Forall2_in_l _ _ _ _ iFree0 H) as (b & _ & (_ & (ser & Ed) & _)). unfold withDesc. cbn [hDescs]. rewrite Ed. unfold sanityFree. unfold getState. destruct (beq _ _); cbn [bind]; [|now right]. destruct (negb _); [now right|]. destruct (_ && _); auto.
  - right. unfold setMem in E |- *. rewrite E. reflexivity.
Qed.
Definition damaged (m : Z -> Z) (b : blk) : Prop := get m (bPtr b - 8) 4 <> allocB \/ get m (bPtr b + bSize b) 4 <> allocB.
Lemma damaged_state m b ser : damaged m b -> (let* st := getState m (mkD (bSize b) (bPtr b - 16) (bBase b) ser) in if beq st allocB then Ok tt else Throw) = Throw.
Proof.
  intros H. unfold getState. cbn [dData dLen]. unfold guardSize. replace (bPtr b - 16 + 16 + bSize b) with (bPtr b + bSize b) by lia. replace (bPtr b - 16 + 8) with (bPtr b - 8) by lia.
  destruct (beq (get m (bPtr b + bSize b) 4) (get m (bPtr b - 8) 4)) eqn:E; cbn [bind]; [|reflexivity]. apply beq_spec in E. rewrite beq_neq; [reflexivity|]. unfold damaged in H. rewrite <- E in H. tauto.
Qed.
Lemma free_damaged s p b m : inv s p -> In b (spLive p) -> get m (bPtr b - 16) 8 = get (hMem s) (bPtr b - 16) 8 -> damaged m b -> free hr (setMem s m) (bPtr b) = Throw.
Proof.
  intros I Hb Hg Hd. pose proof (inv_layout s p b I ltac:(apply in_or_app; now left)) as (L1 & L2 & L3 & L4). unfold free. replace (bPtr b =? 0) with false by lia.
  destruct (use_or s p m I) as [-> | ->]; [|reflexivity]. cbn [bind]. destruct (inv_mem s p b I Hb) as (id & ser & Hl & Ed). cbn [setMem hMem]. rewrite ptrAt_le. unfold guardSize at 1. rewrite Hg. rewrite <- ptrAt_le. pose proof (linked_ptr _ _ _ _ _ Hl) as Ep. unfold guardSize in Ep. rewrite Ep.
  unfold withDesc. cbn [setMem hDescs]. rewrite Ed. pose proof (damaged_state m b ser Hd) as X. destruct (getState m _) as [st| | |]; cbn [bind] in *; try discriminate; [|reflexivity]. destruct (beq st allocB); [discriminate|reflexivity].
Qed.
Lemma use_damaged s p b m : inv s p -> In b (spLive p) -> damaged m b -> 2 <= hLevel s -> useHdmp (setMem s m) = Throw.
Proof.
  intros I Hb Hd Hv. unfold useHdmp. cbn [setMem hLevel]. replace (hLevel s >=? 2) with true by lia. unfold assertheap. cbn [setMem hHeap hMem].
  assert (Hid : exists id, In id (hHeap s) /\ exists ser, hDescs s id = Some (mkD (bSize b) (bPtr b - 16) (bBase b) ser)).
  { destruct I. apply in_split in Hb. destruct Hb as (l1 & l2 & El). rewrite El in iHeap0. destruct (Forall2_mid _ _ _ _ _ iHeap0) as (h1 & id & h2 & Eh & _ & (_ & (ser & E) & _) & _). exists id. split; [rewrite Eh; apply in_or_app; right; now left|eauto]. }
  destruct Hid as (id & Hi & ser & Ed).
  enough (E : checkAll (fun id => withDesc (setMem s m) id (fun d => let* b := getState m d in if beq b allocB then Ok tt else Throw)) (hHeap s) = Throw) by (unfold setMem in E |- *; rewrite E; reflexivity).
  apply (checkAll_throw _ _ id); auto; [intros x Hx; exact (heap_check_or s p m x I Hx)|]. unfold withDesc. cbn [setMem hDescs]. rewrite Ed. apply damaged_state, Hd.
Qed.
Lemma free_held s p b : inv s p -> In b (held max (spFreed p)) -> free hr s (bPtr b) = Throw.
Proof.
  intros I Hb. pose proof (inv_layout s p b I ltac:(apply in_or_app; now right)) as (L1 & L2 & L3 & L4). unfold free. replace (bPtr b =? 0) with false by lia. rewrite (inv_use s p I). cbn [bind]. destruct I.
  apply in_rev in Hb. apply in_split in Hb. destruct Hb as (l1 & l2 & El). rewrite El in iFree0. destruct (Forall2_mid _ _ _ _ _ iFree0) as (h1 & id & h2 & _ & _ & Hl & _). rewrite (linked_ptr _ _ _ _ _ Hl).
  pose proof Hl as (_ & (ser & E) & _). unfold withDesc. rewrite E. rewrite (linked_state _ _ _ _ _ ser Hl). reflexivity.
Qed.
End Inv.

(** ** contents *)
Lemma get_nth m a n i : (i < n)%nat -> nth i (get m a n) 0 = m (a + Z.of_nat i).
Proof. intros H. unfold get. rewrite (nth_indep _ 0 (m (a + Z.of_nat 0))) by (rewrite map_length, seq_length; exact H). rewrite (map_nth (fun i => m (a + Z.of_nat i))). now rewrite seq_nth. Qed.
Lemma put_in m a l x : a <= x < a + zlen l -> put m a l x = nth (Z.to_nat (x - a)) l 0.
Proof.
  intros H. pose proof (get_put l m a) as G. rewrite <- G at 2. rewrite get_nth by (unfold zlen in H; lia). f_equal. lia.
Qed.
Section Data.
Variable hr : Z -> bool.
Variable max : nat.
Lemma calloc_data s p n size r d s' q : inv hr max s p -> 0 <= n * size -> freshBlock hr max p (mallocBlk (n * size) r) -> freshDesc p d -> sumSizes (spLive p) + n * size < W64 ->
  calloc s n size r d = Ok (s', q) -> forall x, q <= x < q + n * size -> hMem s' x = 0.
Proof.
  intros I Hs F D S. pose proof F as (F1 & F2 & _). cbn [mallocBlk bBase bFull] in F1, F2. unfold calloc. rewrite (inv_use hr max s p I). cbn [bind]. rewrite (Z.mul_comm size n), (u64_id (n * size)) by (unfold isU64; lia).
  destruct (malloc_ok hr max _ p (n * size) r d (inv_counts hr max s p 0 0 1 0 I) Hs F D S) as (s1 & E & _ & _). rewrite E. cbn [bind]. intros H. injection H as <- <-. intros x Hx. cbn [setMem hMem].
  rewrite put_in by (unfold zlen; rewrite repeat_length; lia). apply nth_repeat.
Qed.
Lemma realloc_data s p b size r d s' q t : inv hr max s p -> In b (spLive p) -> okEv hr max p (ERealloc (bPtr b) size r d) t q -> hstep hr s (ERealloc (bPtr b) size r d) = Ok (s', t) ->
  forall i, 0 <= i < Z.min (bSize b) size -> hMem s' (t + i) = hMem s (bPtr b + i).
Proof.
  intros I Hb Ev E i Hi. pose proof (inv_layout hr max s p b I ltac:(apply in_or_app; now left)) as (L1 & L2 & L3 & L4).
  assert (Same : forall c, In c (spLive p) -> bPtr c = bPtr b -> 0 < bSize b -> bSize c = bSize b).
  { intros c Hc Ec Hp. destruct (inv_mem hr max s p b I Hb) as (id & ser & Hl & Ed). destruct (inv_mem hr max s p c I Hc) as (id' & ser' & Hl' & Ed'). pose proof (linked_ptr _ _ _ _ _ Hl) as P1. pose proof (linked_ptr _ _ _ _ _ Hl') as P2. rewrite Ec, P1 in P2. subst id'. rewrite Ed in Ed'. now injection Ed'. }
  assert (Ei : exists e, e = ERealloc (bPtr b) size r d) by eauto. destruct Ei as (e & Ee). rewrite <- Ee in Ev.
  destruct Ev as [| | | | |p z rr dd Hz F D S|p c z rr dd Hc Hs|p l1 c l2 z rr dd El Hs F D S|]; try discriminate; injection Ee as Ep Ez Er Ed0; subst z rr dd.
  - lia.
  - cbn [hstep] in E. unfold realloc in E. rewrite (inv_use hr max s p I) in E. cbn [bind] in E. replace (bPtr b =? 0) with false in E by lia. destruct (inv_mem hr max s p b I Hb) as (id & ser & Hl & Ed). cbn [counts hMem hDescs] in E. rewrite (linked_ptr _ _ _ _ _ Hl) in E. unfold withDesc at 1 in E. cbn [counts hDescs] in E. rewrite Ed in E. cbn [dLen] in E.
    rewrite <- (Same c Hc) in E by lia. replace (bSize c >=? size) with true in E by lia. injection E as <- <-. reflexivity.
  - assert (Hc : In c (spLive p)) by (rewrite El; apply in_or_app; right; now left). assert (Sc : bSize c = bSize b) by (apply Same; [exact Hc|exact Ep|lia]).
    cbn [hstep] in E. unfold realloc in E. rewrite (inv_use hr max s p I) in E. cbn [bind] in E. replace (bPtr b =? 0) with false in E by lia. destruct (inv_mem hr max s p b I Hb) as (id & ser & Hl & Ed). cbn [counts hMem hDescs] in E. rewrite (linked_ptr _ _ _ _ _ Hl) in E. unfold withDesc at 1 in E. cbn [counts hDescs] in E. rewrite Ed in E. cbn [dLen] in E. replace (bSize b >=? size) with false in E by lia.
    destruct (malloc_ok hr max _ p size r d (inv_counts hr max s p 0 0 0 1 I) ltac:(lia) F D S) as (s1 & E1 & Is & M). change (mkH (hMem s) (hDescs s) (hHeap s) (hFree s) (hPool s) (hBig s) (hMax s) (hSize s) (hTotal s) (hPeak s) (u32 (hMallocs s + 0)) (u32 (hFrees s + 0)) (u32 (hCallocs s + 0)) (u32 (hReallocs s + 1)) (hAligned s) (hLevel s) (hSerial s) (hFill s) (hBigThresh s) (hNumBig s) (hMaxBig s) (hLimit s) (hReleased s)) with (counts s 0 0 0 1) in E. rewrite E1 in E. cbn [bind] in E.
    destruct (inv_mem hr max s1 _ b Is ltac:(now right)) as (id1 & ser1 & Hl1 & Ed1). rewrite (linked_ptr _ _ _ _ _ Hl1) in E. unfold withDesc in E. rewrite Ed1 in E. cbn [dLen] in E. replace (bSize b <? size) with true in E by lia.
    set (m2 := put (hMem s1) (r + 16) (get (hMem s1) (bPtr b) (Z.to_nat (bSize b)))) in *.
    assert (Zg : zlen (get (hMem s1) (bPtr b) (Z.to_nat (bSize b))) = bSize b) by (unfold zlen, get; rewrite map_length, seq_length; lia).
    assert (Hout : forall x, ~ (r + 16 <= x < r + 16 + size) -> m2 x = hMem s1 x) by (intros x Hx; unfold m2; apply put_out; lia).
    assert (I2 : inv hr max (setMem s1 m2) (addBlock p (mallocBlk size r) d)) by (apply (write_ok hr max s1 _ (mallocBlk size r)); [exact Is|now left|exact Hout]).
    pose proof F as (_ & _ & _ & Fa). 
    assert (Ab : apart (mallocBlk size r) b) by (apply Fa; apply in_or_app; now left). assert (Ac : apart (mallocBlk size r) c) by (apply Fa; apply in_or_app; now left). unfold apart in Ab, Ac. cbn [mallocBlk bBase bFull] in Ab, Ac.
    destruct (free_ok hr max (setMem s1 m2) _ (mallocBlk size r :: l1) c l2 I2) as (s3 & E3 & I3 & M3); [cbn [addBlock spLive app]; now rewrite El|]. rewrite <- Ep, E3 in E. cbn [bind] in E. injection E as <-.
    rewrite M3 by lia. cbn [setMem hMem]. unfold m2. rewrite put_in by lia. rewrite get_nth by lia. rewrite M by (cbn [mallocBlk bBase bFull]; lia). cbn [counts hMem]. f_equal. lia.
Qed.
End Data.
