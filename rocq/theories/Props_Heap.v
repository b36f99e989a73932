(** Properties C44-C48 and C69-C73: the debugging allocator. *)
From Coq Require Import Permutation.
From Verif Require Import Base CfiSpec CfiProofs DwarfReaderProofs ElfHash ElfHashProofs CacheProofs Heap HeapSpec HeapProofs.

Lemma Forall2_weaken {A B} (R R' : A -> B -> Prop) l l' : Forall2 R l l' -> (forall x y, In y l' -> R x y -> R' x y) -> Forall2 R' l l'.
Proof. induction 1; intros W; constructor; [apply W; [now left|assumption]|]. apply IHForall2. intros a b Hb. apply W. now right. Qed.

(** In this file [hr] tells the addresses of the static bootstrap buffer, [max] is the configured size of the free list. *)

(** Every program that uses its memory correctly runs without any report, and the statistics are exact: for all calls, all sizes, all answers
    of the real allocator, all settings of the level and of the tracking of large blocks.  The memory limit is off; filling is off. *)
Theorem C44_statistics : forall hr max es p m level bt mb, okRun hr max spInit es p ->
  exists s, hrun hr (hinit m (Z.of_nat max) level false bt mb 0) es = Ok s /\ hTotal s = sumSizes (spLive p) /\ hPeak s = spPeak p.
Proof. intros hr max es p m level bt mb R. destruct (run_ok hr max es _ _ _ (inv_init hr max m level bt mb) R) as (s & E & I). exists s. split; [exact E|]. destruct I. tauto. Qed.
(** [spPeak] is the largest sum of live sizes at any point of the run *)
Theorem C44_peak : forall hr max es p, okRun hr max spInit es p -> sumSizes (spLive p) <= spPeak p /\
  (forall es1 es2 q, es = es1 ++ es2 -> okRun hr max spInit es1 q -> okRun hr max q es2 p -> sumSizes (spLive q) <= spPeak p).
Proof.
  intros hr max es p R.
  assert (Hev : forall s e r t, okEv hr max s e r t -> 0 <= spPeak s -> sumSizes (spLive s) <= spPeak s -> Forall (fun b => 0 <= bSize b) (spLive s) -> (spPeak s <= spPeak t /\ sumSizes (spLive t) <= spPeak t /\ Forall (fun b => 0 <= bSize b) (spLive t))).
  { assert (Hs : forall l1 b l2, sumSizes (l1 ++ b :: l2) = bSize b + sumSizes (l1 ++ l2)) by (induction l1 as [|x l1 IH]; intros; cbn [app sumSizes fold_right]; [reflexivity|]; fold (sumSizes (l1 ++ b :: l2)); fold (sumSizes (l1 ++ l2)); rewrite IH; lia).
    intros s e r t Ev P0 P1 P2. destruct Ev; cbn [addBlock spLive spPeak mallocBlk alignedBlk] in *; repeat split; auto; try lia; try (constructor; [cbn [bSize]; lia|assumption]).
    - rewrite H, Hs in P1. rewrite H in P2. apply Forall_app in P2. destruct P2 as (_ & P2). inversion P2; subst.  lia.
    - rewrite H in P2. apply Forall_app in P2. destruct P2 as (A1 & A2). inversion A2; subst. now apply Forall_app.
    - cbn [sumSizes fold_right bSize]. fold (sumSizes (l1 ++ l2)). rewrite H, Hs. rewrite H in P2. apply Forall_app in P2. destruct P2 as (_ & P2). inversion P2; subst. cbn [mallocBlk bSize]. lia.
    - rewrite H in P2. apply Forall_app in P2. destruct P2 as (A1 & A2). inversion A2; subst. constructor; [cbn [mallocBlk bSize]; lia|]. now apply Forall_app. }
  assert (Hrun : forall es s t, okRun hr max s es t -> 0 <= spPeak s -> sumSizes (spLive s) <= spPeak s -> Forall (fun b => 0 <= bSize b) (spLive s) -> (spPeak s <= spPeak t /\ sumSizes (spLive t) <= spPeak t /\ Forall (fun b => 0 <= bSize b) (spLive t))).
  { intros es' s t R'. induction R' as [s|s e x s' r t Ev R' IH]; intros A1 A2 A3; [repeat split; auto; lia|]. destruct (Hev _ _ _ _ Ev A1 A2 A3) as (B1 & B2 & B3). destruct (IH ltac:(lia) B2 B3) as (C1 & C2 & C3). repeat split; auto; lia. }
  split; [apply (Hrun _ _ _ R); cbn; auto; lia|]. intros es1 es2 q -> R1 R2. destruct (Hrun _ _ _ R1) as (_ & B2 & B3); [cbn; lia|cbn; lia|constructor|]. assert (0 <= spPeak q) by (destruct (Hrun _ _ _ R1) as (B1 & _); [cbn; lia|cbn; lia|constructor|exact B1]). destruct (Hrun _ _ _ R2); auto. lia.
Qed.
Example C44_case : okRun (fun _ => false) 1 spInit [EMalloc 10 1000 500; EMalloc 5 2000 501; EFree 1016; ERealloc 2016 7 3000 502]
     (mkSp [mkB 3016 7 3000 27] [mkB 1016 10 1000 30; mkB 2016 5 2000 25] 15 [502; 501; 500]) /\
  match hrun (fun _ => false) (hinit (fun _ => 0) 1 1 false 1000 10 0) [EMalloc 10 1000 500; EMalloc 5 2000 501; EFree 1016; ERealloc 2016 7 3000 502] with
  | Ok s => (hTotal s, hPeak s, hReleased s) = (7, 15, [1000]) | _ => False end.
Proof.
  split; [|vm_compute; reflexivity].
  assert (fd : forall p d, 0 < d < W64 -> ~ In d (spDescs p) -> freshDesc p d) by (intros; split; auto).
  eapply RunCons; [apply OkMalloc; [lia|repeat split; cbn; try lia; try (unfold W64; lia); tauto|apply fd; cbn; [unfold W64; lia|tauto]|cbn; unfold W64; lia]|].
  eapply RunCons; [apply OkMalloc; [lia|repeat split; cbn; try lia; try (unfold W64; lia)|apply fd; cbn; [unfold W64; lia|lia]|cbn; unfold W64; lia]|].
  { intros c [<-|[]]. unfold apart. cbn. lia. }
  eapply RunCons; [apply (OkFree _ _ (addBlock (addBlock spInit (mallocBlk 10 1000) 500) (mallocBlk 5 2000) 501) [mallocBlk 5 2000] (mallocBlk 10 1000) []); reflexivity|].
  eapply RunCons; [apply (OkReallocMoves _ _ _ [] (mallocBlk 5 2000) []); [reflexivity|cbn; lia|repeat split; cbn; try lia; try (unfold W64; lia)|apply fd; cbn; [unfold W64; lia|lia]|cbn; unfold W64; lia]|].
  { intros c [<-|[<-|[]]]; unfold apart; cbn; lia. }
  apply RunNil.
Qed.

(** *** C45.  After any correct program, let the program then change memory arbitrarily to [m], leaving the eight bytes of the block's own
    descriptor pointer alone.  If any of the four bytes just after the block or of the four bytes from 8 to 5 before it has changed, freeing the block reports. *)
Theorem C45_overrun_reported_partial : forall hr max es p m0 level bt mb s b m, okRun hr max spInit es p ->
  hrun hr (hinit m0 (Z.of_nat max) level false bt mb 0) es = Ok s -> In b (spLive p) ->
  (forall x, bPtr b - 16 <= x < bPtr b - 8 -> m x = hMem s x) ->
  (exists x, (bPtr b - 8 <= x < bPtr b - 4 \/ bPtr b + bSize b <= x < bPtr b + bSize b + 4) /\ m x <> hMem s x) ->
  free hr (setMem s m) (bPtr b) = Throw.
Proof.
  intros hr max es p m0 level bt mb s b m R E Hb Hk Hd. destruct (run_ok hr max es _ _ _ (inv_init hr max m0 level bt mb) R) as (s' & E' & I). rewrite E in E'. injection E' as <-.
  apply (free_damaged hr max s p b m I Hb); [apply get_ext; intros x Hx; apply Hk; lia|]. destruct (inv_mem hr max s p b I Hb) as (id & ser & (_ & _ & _ & A1 & A2) & _).
  destruct Hd as (x & Hx & Hne). unfold damaged. rewrite <- A1 at 1. rewrite <- A2. destruct Hx as [Hx|Hx]; [left|right]; intros C; apply Hne.
  - pose proof (f_equal (fun l => nth (Z.to_nat (x - (bPtr b - 8))) l 0) C) as C'. cbn beta in C'. rewrite !get_nth in C' by lia. replace (bPtr b - 8 + Z.of_nat (Z.to_nat (x - (bPtr b - 8)))) with x in C' by lia. exact C'.
  - pose proof (f_equal (fun l => nth (Z.to_nat (x - (bPtr b + bSize b))) l 0) C) as C'. cbn beta in C'. rewrite !get_nth in C' by lia. replace (bPtr b + bSize b + Z.of_nat (Z.to_nat (x - (bPtr b + bSize b)))) with x in C' by lia. exact C'.
Qed.
(** With the level at 2 or more any later call reports it (even if the descriptor pointer is overwritten too). *)
Theorem C45_level2_reported_partial : forall hr max es p m0 level bt mb s b m e, okRun hr max spInit es p ->
  hrun hr (hinit m0 (Z.of_nat max) level false bt mb 0) es = Ok s -> In b (spLive p) -> 2 <= level ->
  (exists x, (bPtr b - 8 <= x < bPtr b - 4 \/ bPtr b + bSize b <= x < bPtr b + bSize b + 4) /\ m x <> hMem s x) ->
  (forall a v, e <> EWrite a v) -> e <> EFree 0 -> hstep hr (setMem s m) e = Throw.
Proof.
  intros hr max es p m0 level bt mb s b m e R E Hb Hv Hd Hw Hz. destruct (run_ok hr max es _ _ _ (inv_init hr max m0 level bt mb) R) as (s' & E' & I). rewrite E in E'. injection E' as <-.
  assert (Hl : hLevel s = level).
  { assert (X : forall es s0 s1, hrun hr s0 es = Ok s1 -> hLevel s1 = hLevel s0).
    { assert (Xb : forall s0 a g z d s1, buildAlloc s0 a g z d = Ok s1 -> hLevel s1 = hLevel s0).
      { intros s0 a g z d s1. unfold buildAlloc. destruct (match hPool s0 with [] => _ | _ => _ end) as (id & pool). destruct (id =? 0); [discriminate|]. destruct (g =? 0); [discriminate|]. destruct (_ && _); [discriminate|]. now intros [= <-]. }
      assert (Xm : forall s0 z r d s1 q, malloc s0 z r d = Ok (s1, q) -> hLevel s1 = hLevel s0).
      { intros s0 z r d s1 q. unfold malloc. destruct (useHdmp s0); cbn [bind]; try discriminate. destruct (buildAlloc _ _ _ _ _) eqn:Eb; cbn [bind]; try discriminate. intros [= <- _]. apply Xb in Eb. exact Eb. }
      assert (Xf : forall s0 q s1, free hr s0 q = Ok s1 -> hLevel s1 = hLevel s0).
      { intros s0 q s1. unfold free. destruct (q =? 0); [now intros [= <-]|]. destruct (useHdmp s0); cbn [bind]; try discriminate. unfold withDesc. destruct (hDescs s0 _); [|discriminate]. destruct (getState _ _); cbn [bind]; try discriminate. destruct (negb _); [discriminate|]. destruct (negb _); [discriminate|]. destruct (hSize s0 =? hMax s0); [|now intros [= <-]].
        unfold freeDesc, withDesc. cbn [hDescs]. destruct (hDescs s0 _); [|discriminate]. destruct (sanityFree _ _ _); cbn [bind]; try discriminate. now intros [= <-]. }
      induction es0 as [|e0 es0 IH]; intros s0 s1 H; cbn [hrun] in H; [now injection H as <-|]. destruct (hstep hr s0 e0) as [(s2 & q)| | |] eqn:Es; cbn [bind] in H; try discriminate. rewrite (IH _ _ H). clear IH H.
      destruct e0; cbn [hstep] in Es.
      - eapply Xm, Es.
      - unfold alignedAlloc in Es. destruct (useHdmp s0); cbn [bind] in Es; try discriminate. destruct (align =? 0); [discriminate|]. destruct (buildAlloc _ _ _ _ _) eqn:Eb; cbn [bind] in Es; try discriminate. injection Es as <- _. apply Xb in Eb. exact Eb.
      - unfold calloc in Es. destruct (useHdmp s0); cbn [bind] in Es; try discriminate. destruct (malloc _ _ _ _) as [(s3 & q3)| | |] eqn:Em; cbn [bind] in Es; try discriminate. injection Es as <- _. apply Xm in Em. exact Em.
      - unfold realloc in Es. destruct (useHdmp s0); cbn [bind] in Es; try discriminate. destruct (p0 =? 0); [apply Xm in Es; exact Es|]. unfold withDesc at 1 in Es. destruct (hDescs _ _); [|discriminate]. destruct (_ >=? _); [now injection Es as <- _|]. destruct (malloc _ _ _ _) as [(s3 & q3)| | |] eqn:Em; cbn [bind] in Es; try discriminate. unfold withDesc in Es. destruct (hDescs s3 _); [|discriminate]. destruct (free _ _ _) eqn:Ef; cbn [bind] in Es; try discriminate. injection Es as <- _. rewrite (Xf _ _ _ Ef). cbn [setMem hLevel]. rewrite (Xm _ _ _ _ _ _ Em). reflexivity.
      - destruct (free hr s0 p0) eqn:Ef; cbn [bind] in Es; try discriminate. injection Es as <- _. exact (Xf _ _ _ Ef).
      - injection Es as <- _. reflexivity. }
    rewrite (X _ _ _ E). reflexivity. }
  assert (U : useHdmp (setMem s m) = Throw).
  { apply (use_damaged hr max s p b m I Hb); [|lia]. destruct (inv_mem hr max s p b I Hb) as (id & ser & (_ & _ & _ & A1 & A2) & _).
    destruct Hd as (x & Hx & Hne). unfold damaged. rewrite <- A1 at 1. rewrite <- A2. destruct Hx as [Hx|Hx]; [left|right]; intros C; apply Hne.
    - pose proof (f_equal (fun l => nth (Z.to_nat (x - (bPtr b - 8))) l 0) C) as C'. cbn beta in C'. rewrite !get_nth in C' by lia. replace (bPtr b - 8 + Z.of_nat (Z.to_nat (x - (bPtr b - 8)))) with x in C' by lia. exact C'.
    - pose proof (f_equal (fun l => nth (Z.to_nat (x - (bPtr b + bSize b))) l 0) C) as C'. cbn beta in C'. rewrite !get_nth in C' by lia. replace (bPtr b + bSize b + Z.of_nat (Z.to_nat (x - (bPtr b + bSize b)))) with x in C' by lia. exact C'. }
  destruct e; cbn [hstep].
  - unfold malloc. now rewrite U.
  - unfold alignedAlloc. now rewrite U.
  - unfold calloc. now rewrite U.
  - unfold realloc. now rewrite U.
  - unfold free. replace (p0 =? 0) with false by (symmetry; apply Z.eqb_neq; congruence). now rewrite U.
  - exfalso. exact (Hw a v eq_refl).
Qed.
(** A second free is reported as long as the block is retained. *)
Theorem C45_double_free_reported_partial : forall hr max es p m0 level bt mb s b, okRun hr max spInit es p ->
  hrun hr (hinit m0 (Z.of_nat max) level false bt mb 0) es = Ok s -> In b (held max (spFreed p)) -> free hr s (bPtr b) = Throw.
Proof.
  intros hr max es p m0 level bt mb s b R E Hb. destruct (run_ok hr max es _ _ _ (inv_init hr max m0 level bt mb) R) as (s' & E' & I). rewrite E in E'. injection E' as <-. exact (free_held hr max s p b I Hb).
Qed.
(** The full property is false.  The four bytes immediately before a block are padding: writing one of them is not noticed when the block is freed. *)
Theorem C45_underrun_missed_refuted : forall hr max es p m0 bt mb s b x v, okRun hr max spInit es p ->
  hrun hr (hinit m0 (Z.of_nat max) 1 false bt mb 0) es = Ok s -> In b (spLive p) -> bPtr b - 4 <= x < bPtr b ->
  exists s', hrun hr s [EWrite x v; EFree (bPtr b)] = Ok s'.
Proof.
  intros hr max es p m0 bt mb s b x v R E Hb Hx. destruct (run_ok hr max es _ _ _ (inv_init hr max m0 1 bt mb) R) as (s' & E' & I). rewrite E in E'. injection E' as <-.
  cbn [hrun hstep bind].
  assert (I' : inv hr max (setMem s (put (hMem s) x [v])) p).
  { pose proof I as I0. destruct I. pose proof (inv_layout hr max s p b I0 ltac:(apply in_or_app; now left)) as (L1 & L2 & L3 & L4).
    assert (Hl : forall y, y <> x -> put (hMem s) x [v] y = hMem s y) by (intros y Hy; apply put_out; change (zlen [v]) with 1; lia).
    assert (Hlk : forall st id c, In c (spLive p ++ held max (spFreed p)) -> linked (hMem s) (hDescs s) st id c -> linked (put (hMem s) x [v]) (hDescs s) st id c).
    { intros st id c Hc Hl0. assert (Ly : layout c) by (exact (inv_layout hr max s p c I0 Hc)).
      assert (Ha : apart b c \/ b = c).
      { apply in_split in Hb. destruct Hb as (l1 & l2 & El). destruct (in_app_or _ _ _ Hc) as [Hc1|Hc1]; [rewrite El in Hc1; apply in_app_or in Hc1; destruct Hc1 as [Hc1|[Hc1|Hc1]]; [left|now right|left]|left].
        - apply (FOP_in apart _ l1 b (l2 ++ held max (spFreed p)) c apart_sym iApart); [rewrite El, <- app_assoc; reflexivity|rewrite !in_app_iff; tauto].
        - apply (FOP_in apart _ l1 b (l2 ++ held max (spFreed p)) c apart_sym iApart); [rewrite El, <- app_assoc; reflexivity|rewrite !in_app_iff; tauto].
        - apply (FOP_in apart _ l1 b (l2 ++ held max (spFreed p)) c apart_sym iApart); [rewrite El, <- app_assoc; reflexivity|rewrite !in_app_iff; tauto]. }
      destruct Ha as [Ha| <-].
      - apply (linked_frame (hMem s) _ (hDescs s)); auto. intros y Hy. apply Hl. unfold apart in Ha. lia.
      - destruct Hl0 as (B1 & B2 & B3 & B4 & B5). unfold linked. split; [exact B1|]. split; [exact B2|]. rewrite !get_put_out by (change (zlen [v]) with 1; lia). tauto. }
    constructor; cbn [setMem hMem hDescs hHeap hFree hPool hBig hMax hSize hTotal hPeak hReleased hFill hLimit]; auto.
    - apply (Forall2_weaken _ _ _ _ iHeap). intros a c Hc. apply Hlk. apply in_or_app. now left.
    - apply (Forall2_weaken _ _ _ _ iFree). intros a c Hc. apply Hlk. apply in_or_app. right. now apply in_rev. }
  apply in_split in Hb. destruct Hb as (l1 & l2 & El). destruct (free_ok hr max _ p l1 b l2 I' El) as (s3 & E3 & _). rewrite E3. cbn [bind]. eauto.
Qed.
(** Nor is it true that an untouched block is never reported: with filling on, a program that only allocates a block of 4 bytes or more and frees it
    is reported as having modified free memory, as soon as the block leaves the free list, or (with level 2) at the next call. *)
Lemma filled_sanity s m d : hFill s = true -> 4 <= dLen d < 2147483648 -> sanityFree s (setState (fill s m (dData d + guardSize) (dLen d) [173; 222; 173; 222]) d freeB) d = Throw.
Proof.
  intros Hf Hl. unfold sanityFree, getState. destruct (beq (get _ _ 4) _); cbn [bind]; [|reflexivity]. destruct (negb (beq _ freeB)); [reflexivity|]. rewrite Hf. cbn [andb].
  set (mm := setState _ _ _). assert (E : mm (dData d + guardSize + 4) <> 0).
  { unfold mm, setState. rewrite put_out by (change (zlen freeB) with 4; unfold guardSize; lia). unfold guardSize. destruct (Z.eq_dec (dLen d) 4) as [E4|N4].
    - rewrite E4. rewrite put_in by (change (zlen freeB) with 4; lia). replace (dData d + 16 + 4 - (dData d + 16 + 4)) with 0 by lia. cbn. lia.
    - rewrite put_out by (change (zlen freeB) with 4; lia). unfold fill. rewrite Hf. replace (s32 (dLen d)) with (dLen d) by (unfold s32, sgn, W32; rewrite Z.mod_small by lia; replace (dLen d <? 4294967296 / 2) with true by (change (4294967296 / 2) with 2147483648; lia); reflexivity).
      rewrite put_in by (unfold zlen; rewrite map_length, seq_length; lia). replace (Z.to_nat (dData d + 16 + 4 - (dData d + 16))) with 4%nat by lia.
      set (f := fun i => nth (i mod 4) [173; 222; 173; 222] 0). rewrite (nth_indep _ 0 (f O)) by (rewrite map_length, seq_length; lia). rewrite (map_nth f). rewrite seq_nth by lia. unfold f. change ((0 + 4) mod 4)%nat with 0%nat. cbn. lia. }
  destruct (Z.to_nat (dLen d / 4)) as [|k] eqn:Ek; [lia|]. cbn [seq forallb]. replace (dData d + guardSize + 8 * Z.of_nat 0) with (dData d + guardSize) by lia.
  rewrite beq_neq; [reflexivity|]. intros C. apply E. pose proof (f_equal (fun l => nth 4 l 0) C) as C'. cbn beta in C'. rewrite get_nth in C' by lia. exact C'.
Qed.
Lemma free_filled hr s p d : hLevel s <= 1 -> p <> 0 -> hDescs s (ptrAt (hMem s) (p - 16)) = Some d -> hFill s = true -> 4 <= dLen d < 2147483648 -> hSize s = hMax s -> hFree s = [] -> free hr s p = Throw.
Proof.
  intros Hv Hp Hd Hf Hl Hm Hr. unfold free. change guardSize with 16. replace (p =? 0) with false by lia. unfold useHdmp. replace (hLevel s >=? 2) with false by lia. cbn [bind]. unfold withDesc. rewrite Hd.
  destruct (getState (hMem s) d) as [st| | |] eqn:Es; cbn [bind]; [|reflexivity|unfold getState in Es; destruct (beq _ _); discriminate ..].
  destruct (negb (beq st allocB)); [reflexivity|]. destruct (negb _); [reflexivity|]. rewrite Hm, Z.eqb_refl, Hr. cbn [removelast last]. unfold freeDesc, withDesc. cbn [hDescs hMem]. rewrite Hd.
  match goal with |- context [sanityFree ?a ?x d] => change (sanityFree a x d) with (sanityFree s x d) end. pose proof (filled_sanity s (hMem s) d Hf Hl) as X. change guardSize with 16 in X. rewrite X. reflexivity.
Qed.
Lemma malloc_filled m level bt mb size r d : level <= 1 -> 4 <= size < 2147483648 -> 0 < r -> 0 < d < W64 ->
  exists s ser, malloc (hinit m 0 level true bt mb 0) size r d = Ok (s, r + 16) /\ hLevel s = level /\ hDescs s (ptrAt (hMem s) r) = Some (mkD size r r ser) /\ hFill s = true /\ hSize s = hMax s /\ hFree s = [].
Proof.
  intros Hv Hs Hr Hd. unfold malloc, useHdmp. cbn [hinit hLevel]. replace (level >=? 2) with false by lia. cbn [bind]. unfold buildAlloc. cbn [counts hinit hPool hLimit].
  replace (d =? 0) with false by lia. replace (r =? 0) with false by lia. cbn [negb Z.eqb andb]. rewrite andb_false_r. cbn [andb bind]. eexists _, _. split; [reflexivity|]. cbn [hLevel hDescs hFill hSize hMax hFree counts hinit hMem]. repeat split.
  assert (Ep : forall f l x, ptrAt (fill f (put (put (put m r (leBytes 8 d)) (r + 16 + size) allocB) (r + 8) allocB) (r + 16) l x) r = d).
  { intros f l x. rewrite ptrAt_le. transitivity (leValue (leBytes 8 d)); [f_equal|apply leValue_leBytes; change (256 ^ Z.of_nat 8) with W64; lia].
    rewrite <- (get_put (leBytes 8 d) m r) at 2. assert (L8 : length (leBytes 8 d) = 8%nat) by (pose proof (leBytes_len 8 d) as L; unfold zlen in L; lia). rewrite L8. assert (Z8 : zlen (leBytes 8 d) = 8) by (unfold zlen; lia). apply get_ext. intros y Hy. unfold fill. destruct (hFill f); [rewrite put_out by lia|]; (rewrite put_out by (change (zlen allocB) with 4; lia)); now rewrite put_out by (change (zlen allocB) with 4; lia). }
  unfold setState. cbn [dData dLen]. unfold guardSize. rewrite Ep. unfold updD. rewrite Z.eqb_refl. reflexivity.
Qed.
Theorem C45_false_report_refuted : forall hr m level bt mb size r d, level <= 1 -> 4 <= size < 2147483648 -> 0 < r -> 0 < d < W64 ->
  hrun hr (hinit m 0 level true bt mb 0) [EMalloc size r d; EFree (r + 16)] = Throw.
Proof.
  intros hr m level bt mb size r d Hv Hs Hr Hd. cbn [hrun hstep]. destruct (malloc_filled m level bt mb size r d Hv Hs Hr Hd) as (s & ser & E & H1 & H2 & H3 & H4 & H5). rewrite E. cbn [bind].
  rewrite (free_filled hr s (r + 16) (mkD size r r ser)); auto; try lia. now replace (r + 16 - 16) with r by lia.
Qed.

(** *** C46: a freed block is retained until [max] later blocks have been freed, then handed back to the real allocator, in order. *)
Theorem C46_fifo : forall hr max es p m level bt mb, okRun hr max spInit es p -> exists s, hrun hr (hinit m (Z.of_nat max) level false bt mb 0) es = Ok s /\
  zlen (hReleased s) = Z.max 0 (zlen (spFreed p) - Z.of_nat max) /\
  (forall k b, nth_error (spFreed p) k = Some b -> (k + max < length (spFreed p))%nat -> nth_error (hReleased s) k = Some (bBase b)) /\
  (forall k b, nth_error (spFreed p) k = Some b -> (length (spFreed p) <= k + max)%nat -> exists id d, In id (hFree s) /\ hDescs s id = Some d /\ dBase d = bBase b /\ dLen d = bSize b).
Proof.
  intros hr max es p m level bt mb R. destruct (run_ok hr max es _ _ _ (inv_init hr max m level bt mb) R) as (s & E & I). exists s. split; [exact E|]. destruct I. split; [|split].
  - rewrite iRel. unfold gone, zlen. rewrite map_length, firstn_length. lia.
  - intros k b Hk Hl. rewrite iRel, nth_error_map. unfold gone. rewrite nth_error_firstn' by lia. rewrite Hk. reflexivity.
  - intros k b Hk Hl. assert (Hb : In b (held max (spFreed p))).
    { unfold held. rewrite <- (firstn_skipn (length (spFreed p) - max) (spFreed p)) in Hk. rewrite nth_error_app2 in Hk by (rewrite firstn_length; lia). exact (nth_error_In _ _ Hk). }
    apply in_rev in Hb. apply in_split in Hb. destruct Hb as (l1 & l2 & El). rewrite El in iFree. destruct (Forall2_mid _ _ _ _ _ iFree) as (h1 & id & h2 & Eh & _ & (_ & (ser & Ed) & _) & _). exists id. eexists. split; [rewrite Eh; apply in_or_app; right; now left|]. split; [exact Ed|]. split; reflexivity.
Qed.

(** *** C47 *)
Theorem C47_aligned : forall s al size r d s' p, 0 < al -> 0 <= size -> 0 <= r -> r mod al = 0 -> al + 16 + size + 4 < W64 -> alignedAlloc s al size r d = Ok (s', p) ->
  p mod al = 0 /\ r <= p - 16 /\ p + size + 4 <= r + alignedRequest al size.
Proof.
  intros s al size r d s' p Ha Hs Hr Hm Hb. unfold alignedAlloc. destruct (useHdmp s); cbn [bind]; try discriminate. replace (al =? 0) with false by lia. destruct (buildAlloc _ _ _ _ _); cbn [bind]; try discriminate. intros [= _ <-].
  destruct (internal_pad (fun _ => false) al Ha) as (P1 & P2). assert (Hq : al * ((16 + al - 1) / al) <= 16 + al - 1) by (apply Z.mul_div_le; exact Ha).
  assert (Ei : internalSpace al = al * ((16 + al - 1) / al)) by (unfold internalSpace; rewrite P1; apply u64_id; unfold isU64; lia).
  unfold alignedRequest. rewrite Ei, u64_id by (unfold isU64; lia). unfold guardSize. split; [|lia].
  replace (r + al * ((16 + al - 1) / al) - 16 + 16) with (r + (16 + al - 1) / al * al) by lia. rewrite Z.mod_add by lia. exact Hm.
Qed.
Theorem C47_posix_memalign : forall s al size r d s' p rc, 0 < al -> 0 <= size -> 0 <= r -> r mod al = 0 -> al + 16 + size + 4 < W64 -> posixMemalign s al size r d = Ok (s', p, rc) ->
  p mod al = 0 /\ r <= p - 16 /\ p + size + 4 <= r + alignedRequest al size /\ rc = 0.
Proof.
  intros s al size r d s' p rc Ha Hs Hr Hm Hb. unfold posixMemalign. destruct (useHdmp s); cbn [bind]; try discriminate. destruct (alignedAlloc s al size r d) as [(s1 & q)| | |] eqn:E; cbn [bind]; try discriminate. intros [= <- <- <-]. destruct (C47_aligned _ _ _ _ _ _ _ Ha Hs Hr Hm Hb E) as (A1 & A2 & A3). auto.
Qed.
Theorem C47_valloc : forall s size r d s' p, 0 <= size -> 0 <= r -> r mod 4096 = 0 -> 4096 + 16 + size + 4 < W64 -> valloc s size r d = Ok (s', p) ->
  p mod 4096 = 0 /\ r <= p - 16 /\ p + size + 4 <= r + alignedRequest 4096 size.
Proof.
  intros s size r d s' p Hs Hr Hm Hb. unfold valloc. destruct (useHdmp s); cbn [bind]; try discriminate. apply C47_aligned; auto; lia.
Qed.
Example C47_case : match alignedAlloc (hinit (fun _ => 0) 4 2 false 100 10 0) 64 10 6400 500 with Ok (_, p) => p | _ => 0 end = 6464 /\ alignedRequest 64 10 = 78.
Proof. split; vm_compute; reflexivity. Qed.

(** *** C48 *)
Definition ceil4 (a : Z) : Z := (a + 3) / 4 * 4.
Definition total4 (l : list Z) : Z := fold_right (fun a acc => ceil4 a + acc) 0 l.
Lemma bm_step t a : 0 <= t < 65536 -> 0 <= a <= W64 - 65540 -> bufferMalloc 1 t a = if t + ceil4 a <? 65536 then Ok (t, t + ceil4 a) else Throw.
Proof.
  intros Ht Ha. unfold bufferMalloc. cbn [Z.eqb]. unfold headroomSize. rewrite (u64_id (a + 3)) by (unfold isU64; lia). fold (ceil4 a). assert (0 <= ceil4 a <= a + 3) by (unfold ceil4; lia). rewrite (u64_id t) by (unfold isU64, W64; lia). rewrite (u64_id (ceil4 a + t)) by (unfold isU64; lia).
  destruct (t + ceil4 a <? 65536) eqn:E; [replace (ceil4 a + t >=? 65536) with false by lia|replace (ceil4 a + t >=? 65536) with true by lia; reflexivity]. f_equal. f_equal. unfold s32, sgn, W32. rewrite Z.mod_small by lia. replace (t + ceil4 a <? 4294967296 / 2) with true by (change (4294967296 / 2) with 2147483648; lia). reflexivity.
Qed.
(** Blocks obtained before the real allocator is available: inside the buffer, disjoint, multiples of 4 from its start; and the request that does not
    fit is reported.  For all sequences of sizes below 2^64 - 65540.  Missing for the full property: larger sizes, and the alignment malloc
    promises (16), for which it is false (below). *)
Theorem C48_bootstrap_partial : forall amounts, Forall (fun a => 0 <= a <= W64 - 65540) amounts ->
  (total4 amounts < 65536 -> exists ps, bufferRun 0 amounts = Ok ps /\ length ps = length amounts /\
     (forall i p a, nth_error ps i = Some p -> nth_error amounts i = Some a -> p mod 4 = 0 /\ 0 <= p /\ p + a < 65536) /\
     (forall i j p q a, (i < j)%nat -> nth_error ps i = Some p -> nth_error amounts i = Some a -> nth_error ps j = Some q -> p + a <= q)) /\
  (65536 <= total4 amounts -> bufferRun 0 amounts = Throw).
Proof.
  intros amounts H.
  assert (Nn : forall l, Forall (fun a => 0 <= a <= W64 - 65540) l -> 0 <= total4 l) by (induction 1 as [|a l Ha _ IH]; cbn [total4 fold_right]; [lia|]; fold (total4 l); unfold ceil4; lia).
  assert (G : forall l t, 0 <= t < 65536 -> t mod 4 = 0 -> Forall (fun a => 0 <= a <= W64 - 65540) l ->
    (t + total4 l < 65536 -> exists ps, bufferRun t l = Ok ps /\ length ps = length l /\ Forall (fun p => t <= p) ps /\
     (forall i p a, nth_error ps i = Some p -> nth_error l i = Some a -> p mod 4 = 0 /\ 0 <= p /\ p + a < 65536) /\
     (forall i j p q a, (i < j)%nat -> nth_error ps i = Some p -> nth_error l i = Some a -> nth_error ps j = Some q -> p + a <= q)) /\
    (65536 <= t + total4 l -> bufferRun t l = Throw)).
  { induction l as [|a l IH]; intros t Ht Hm F.
    - split; [|cbn; lia]. intros _. exists []. split; [reflexivity|]. split; [reflexivity|]. split; [constructor|]. split; [intros [|i] p a X; discriminate|intros [|i] j p q a _ X; discriminate].
    - inversion F as [|? ? Ha Fl]; subst. cbn [total4 fold_right]. fold (total4 l). cbn [bufferRun]. rewrite bm_step by auto. pose proof (Nn l Fl) as N. assert (Hc : a <= ceil4 a <= a + 3) by (unfold ceil4; lia). assert (Hc4 : (t + ceil4 a) mod 4 = 0) by (unfold ceil4; lia).
      destruct (t + ceil4 a <? 65536) eqn:E; cbn [bind].
      + destruct (IH (t + ceil4 a) ltac:(lia) Hc4 Fl) as (I1 & I2). split.
        * intros Hs. destruct I1 as (ps & E1 & El & Fp & I3 & I4); [lia|]. rewrite E1. cbn [bind]. exists (t :: ps). split; [reflexivity|]. split; [cbn; lia|]. split; [constructor; [lia|]; eapply Forall_impl; [|exact Fp]; cbn; intros; lia|]. split.
          -- intros [|i] p b; cbn [nth_error]; [intros [= <-] [= <-]; lia|]. apply I3.
          -- intros i [|j] p q b Hij; [lia|]. destruct i as [|i]; cbn [nth_error]; [intros [= <-] [= <-] Hq; apply nth_error_In in Hq; rewrite Forall_forall in Fp; specialize (Fp _ Hq); lia|]. apply I4. lia.
        * intros Hs. rewrite I2 by lia. reflexivity.
      + split; [lia|reflexivity]. }
  destruct (G amounts 0 ltac:(lia) eq_refl H) as (G1 & G2). split; [|exact G2]. intros Hs. destruct (G1 Hs) as (ps & E1 & E2 & _ & E3). exists ps. auto.
Qed.
Example C48_case : bufferRun 0 [5; 1000; 0; 7] = Ok [0; 8; 1008; 1008] /\ bufferRun 0 [65000; 1000] = Throw.
Proof. split; vm_compute; reflexivity. Qed.
(** A request close to 2^64 is granted, and moves the start of the next block back to the start of the buffer, over the blocks already given out. *)
Theorem C48_overlap_refuted : forall t, 4 <= t < 65536 -> t mod 4 = 0 -> bufferMalloc 1 t (W64 - t) = Ok (t, 0).
Proof.
  intros t Ht Hm. unfold bufferMalloc. cbn [Z.eqb]. assert (E : u64 (W64 - t + 3) / 4 * 4 = W64 - t) by (rewrite u64_id by (unfold isU64, W64; lia); unfold W64 in *; lia). rewrite E. rewrite (u64_id t) by (unfold isU64, W64; lia). replace (W64 - t + t) with W64 by lia. change (u64 W64 >=? headroomSize) with false. cbn iota.
  replace (t + (W64 - t)) with W64 by lia. reflexivity.
Qed.
Theorem C48_misaligned_refuted : forall a, 1 <= a <= 4 -> bufferRun 0 [a; 16] = Ok [0; 4].
Proof. intros a Ha. unfold bufferRun. rewrite bm_step by (unfold W64; lia). assert (E : ceil4 a = 4) by (unfold ceil4; lia). rewrite E. reflexivity. Qed.

(** *** C69: the bytes of a block that is live before and after a call are not changed by the call (a program's own write changes only its byte) *)
Theorem C69_contents_kept : forall hr max es p m level bt mb s e r p', okRun hr max spInit es p -> hrun hr (hinit m (Z.of_nat max) level false bt mb 0) es = Ok s -> okEv hr max p e r p' ->
  exists s', hstep hr s e = Ok (s', r) /\
   (forall b x, In b (spLive p) -> In b (spLive p') -> bPtr b <= x < bPtr b + bSize b -> ~ (exists v, e = EWrite x v) -> hMem s' x = hMem s x) /\
   (forall n size rr d, e = ECalloc n size rr d -> forall x, r <= x < r + n * size -> hMem s' x = 0) /\
   (forall b size rr d, e = ERealloc (bPtr b) size rr d -> In b (spLive p) -> forall i, 0 <= i < Z.min (bSize b) size -> hMem s' (r + i) = hMem s (bPtr b + i)) /\
   (forall a v, e = EWrite a v -> hMem s' a = v).
Proof.
  intros hr max es p m level bt mb s e r p' R E Ev. destruct (run_ok hr max es _ _ _ (inv_init hr max m level bt mb) R) as (s0 & E0 & I). rewrite E in E0. injection E0 as <-.
  destruct (step_ok hr max s p e r p' I Ev) as (s' & Es & I' & K). exists s'. split; [exact Es|]. split; [|split; [|split]].
  - intros b x Hb Hb' Hx Hw. apply (K b x Hb Hb' Hx). intros W. apply Hw. destruct e; cbn in W; try contradiction. subst x. now exists v.
  - intros n size rr d ->. cbn [hstep] in Es. assert (X : 0 <= n * size /\ freshBlock hr max p (mallocBlk (n * size) rr) /\ freshDesc p d /\ sumSizes (spLive p) + n * size < W64) by (inversion Ev; subst; auto). destruct X as (X1 & X2 & X3 & X4). exact (calloc_data hr max s p n size rr d s' r I X1 X2 X3 X4 Es).
  - intros b size rr d -> Hb. eapply realloc_data; eauto.
  - intros a v ->. cbn [hstep] in Es. injection Es as <-. cbn [setMem hMem]. unfold put. rewrite Z.sub_diag. reflexivity.
Qed.

(** What is asked of the real allocator is the extent that [okRun] assumes its answer to have. *)
Theorem C69_extent_requested : forall size r, 0 <= size -> size + 20 < W64 -> mallocRequest size = bFull (mallocBlk size r) /\
  (forall al, 0 < al -> al + 16 + size + 4 < W64 -> alignedRequest al size = bFull (alignedBlk al size r)).
Proof.
  intros size r H0 H1. split; [unfold mallocRequest, guardSize, mallocBlk; cbn [bFull]; rewrite u64_id by (unfold isU64; lia); lia|].
  intros al Ha Hb. destruct (internal_pad (fun _ => false) al Ha) as (P1 & P2). assert (Hq : al * ((16 + al - 1) / al) <= 16 + al - 1) by (apply Z.mul_div_le; exact Ha).
  unfold alignedRequest, internalSpace. rewrite P1, (u64_id (al * _)) by (unfold isU64; lia). rewrite u64_id by (unfold isU64; lia). reflexivity.
Qed.

(** *** C70: failure of an allocation *)
(** When the real allocator has no memory (returns null), malloc does not return null: it writes through a null pointer. *)
Theorem C70_out_of_memory_refuted : forall s size d, useHdmp s = Ok tt -> malloc s size 0 d = UB /\ (forall n, calloc s n size 0 d = UB).
Proof.
  assert (H : forall s size d, useHdmp s = Ok tt -> malloc s size 0 d = UB).
  { intros s size d Hu. unfold malloc. rewrite Hu. cbn [bind]. unfold buildAlloc. destruct (match hPool _ with [] => _ | _ => _ end) as (id & pool). destruct (id =? 0); reflexivity. }
  intros s size d Hu. split; [now apply H|]. intros n. unfold calloc. rewrite Hu. cbn [bind]. rewrite H; [reflexivity|exact Hu].
Qed.
(** A size within 20 of 2^64 is granted with an underlying block of less than 20 bytes: no failure is reported, and the guard is written 2^64 - 20 or more
    bytes past its end. *)
Theorem C70_huge_malloc_refuted : forall hr max m bt mb size r d, W64 - 20 <= size < W64 -> 0 < r -> 0 < d < W64 ->
  mallocRequest size = size + 20 - W64 /\ exists s', hstep hr (hinit m max 1 false bt mb 0) (EMalloc size r d) = Ok (s', r + 16).
Proof.
  intros hr max m bt mb size r d Hs Hr Hd. split.
  - unfold mallocRequest, guardSize, u64. unfold W64 in *. symmetry. apply (Z.mod_unique _ _ 1); lia.
  - cbn [hstep]. unfold malloc, useHdmp. cbn [hinit hLevel Z.geb Z.compare Pos.compare Pos.compare_cont bind]. unfold buildAlloc. cbn [counts hinit hPool hLimit]. replace (d =? 0) with false by lia. replace (r =? 0) with false by lia. cbn [Z.eqb negb]. rewrite andb_false_r. cbn [andb bind]. eexists. reflexivity.
Qed.
(** calloc with a product of 2^64 or more does not fail: it returns a block of the product modulo 2^64 *)
Theorem C70_calloc_overflow_refuted : forall hr max m bt mb n size r d, W64 <= n * size -> 0 < r -> 0 < d < W64 ->
  exists s', hstep hr (hinit m max 1 false bt mb 0) (ECalloc n size r d) = Ok (s', r + 16) /\ hTotal s' = (n * size) mod W64 /\ hTotal s' < n * size.
Proof.
  intros hr max m bt mb n size r d Hs Hr Hd. cbn [hstep]. unfold calloc, malloc, useHdmp. cbn [counts hinit hLevel Z.geb Z.compare Pos.compare Pos.compare_cont bind]. unfold buildAlloc. cbn [counts hinit hPool hLimit]. replace (d =? 0) with false by lia. replace (r =? 0) with false by lia. cbn [Z.eqb negb]. rewrite andb_false_r. cbn [andb bind]. eexists. split; [reflexivity|].
  cbn [setMem hTotal counts hinit]. rewrite Z.add_0_l. rewrite (Z.mul_comm size n). unfold u64. rewrite Z.mod_mod by (unfold W64; lia). split; [reflexivity|]. pose proof (Z.mod_pos_bound (n * size) W64 eq_refl). lia.
Qed.

(** *** C71: the counts of calls *)
(** malloc, calloc, realloc and free count themselves ... *)
Theorem C71_counts_partial : forall s size r d s' p, malloc s size r d = Ok (s', p) -> hMallocs s' = u32 (hMallocs s + 1) /\ hFrees s' = u32 (hFrees s + 0) /\ hCallocs s' = u32 (hCallocs s + 0) /\ hReallocs s' = u32 (hReallocs s + 0).
Proof.
  intros s size r d s' p. unfold malloc. destruct (useHdmp s); cbn [bind]; try discriminate. unfold buildAlloc. destruct (match hPool _ with [] => _ | _ => _ end) as (id & pool). destruct (id =? 0); [discriminate|]. destruct (r =? 0); [discriminate|]. destruct (_ && _); cbn [bind]; [discriminate|]. intros [= <- _]. repeat split.
Qed.
(** ... but an aligned allocation is counted as a calloc, and never as an aligned allocation. *)
Theorem C71_aligned_counts_refuted : forall s al size r d s' p, alignedAlloc s al size r d = Ok (s', p) -> hCallocs s' = u32 (hCallocs s + 1) /\ hAligned s' = hAligned s.
Proof.
  intros s al size r d s' p. unfold alignedAlloc. destruct (useHdmp s); cbn [bind]; try discriminate. destruct (al =? 0); [discriminate|]. unfold buildAlloc. destruct (match hPool _ with [] => _ | _ => _ end) as (id & pool). destruct (id =? 0); [discriminate|]. destruct (_ =? 0); [discriminate|]. destruct (_ && _); cbn [bind]; [discriminate|]. intros [= <- _]. repeat split.
Qed.

(** *** C72: memory obtained before startup.  Freeing it afterwards is not ignored: the bytes before it are taken for a guard. *)
Theorem C72_bootstrap_free_refuted : forall hr s p, hLevel s <= 1 -> p <> 0 -> hDescs s (ptrAt (hMem s) (p - 16)) = None -> free hr s p = UB.
Proof.
  intros hr s p Hv Hp Hd. unfold free. replace (p =? 0) with false by lia. unfold useHdmp. replace (hLevel s >=? 2) with false by lia. cbn [bind]. unfold withDesc, guardSize. rewrite Hd. reflexivity.
Qed.
(** the buffer is zero initially and no descriptor is at address zero, so this is what happens to a block preceded by 16 unused bytes *)
Example C72_case : free (fun a => (1000 <=? a) && (a <? 66536)) (hinit (fun _ => 0) 1024 1 false 262144 4096 0) 1024 = UB.
Proof. vm_compute. reflexivity. Qed.

(** *** C73: HDMP_LEVEL=0.  Only the first call goes to the real allocator; all later ones are handled by the debugging allocator. *)
Theorem C73_level0_refuted : forall n, snd (useHdmpStart 2 0) = false /\ (forall level, useHdmpStart (fst (useHdmpStart 2 level)) n = (0, true)).
Proof. intros n. split; reflexivity. Qed.
Print Assumptions C44_statistics.
Print Assumptions C44_peak.
Print Assumptions C45_overrun_reported_partial.
Print Assumptions C45_level2_reported_partial.
Print Assumptions C45_double_free_reported_partial.
Print Assumptions C45_underrun_missed_refuted.
Print Assumptions C45_false_report_refuted.
Print Assumptions C46_fifo.
Print Assumptions C47_aligned.
Print Assumptions C47_posix_memalign.
Print Assumptions C47_valloc.
Print Assumptions C48_bootstrap_partial.
Print Assumptions C48_overlap_refuted.
Print Assumptions C48_misaligned_refuted.
Print Assumptions C69_contents_kept.
Print Assumptions C70_out_of_memory_refuted.
Print Assumptions C70_huge_malloc_refuted.
Print Assumptions C70_calloc_overflow_refuted.
Print Assumptions C71_counts_partial.
Print Assumptions C71_aligned_counts_refuted.
Print Assumptions C72_bootstrap_free_refuted.
Print Assumptions C73_level0_refuted.
Print Assumptions C69_extent_requested.
