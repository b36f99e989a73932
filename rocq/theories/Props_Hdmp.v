(** Properties C133-C136: hdmp, the stacks the allocator records, and the history of large blocks. *)
From Coq Require Import Ascii String Permutation.
From Verif Require Import Base Leb LebSpec DwarfReader DwarfReaderProofs MapsSpec Reader ReaderProofs ReaderArrayProofs CacheProofs Cfi CfiSpec CfiProofs ElfHash ElfHashProofs Json Args ArgsSpec ArgsProofs Load LoadSpec LoadProofs FrameText FrameTextSpec Heap HeapSpec HeapProofs HeapBig Hdmp HdmpSpec HdmpProofs.

(** ** C133.  The blocks hdmp lists *)
(** For every list of descriptors in memory, whatever the guards of the blocks hold: exactly the blocks of the list, in order, each once, with pointer, size and
    stack, and with BADHEAD or BADTAIL exactly if that guard is not what it should be.  Partial: the eight bytes after each descriptor must be readable. *)
Theorem C133_list_partial : forall m seg sym src max st first bs, 0 <= max -> 56 + max * 8 < 2 ^ 64 -> listAt m max first bs ->
  Forall (after m max) bs -> Forall (fun b => exists h t, guards m b h t) bs -> Forall (fun b => stackLookable seg sym src (hbStack b)) bs ->
  exists ts, Forall2 (BlockText seg sym src m st) bs ts /\ forall fuel, (length bs < fuel)%nat -> printBlocks m seg sym src fuel max st first = Ok (concat ts).
Proof. intros m seg sym src max st first bs Hm Hs. now apply printBlocks_ok. Qed.

(** Otherwise the list is cut there, silently: hdmp reads eight bytes more than the allocator allocates. *)
Theorem C133_cut_refuted : forall m seg sym src max st b r, 0 <= max -> 56 + max * 8 < 2 ^ 64 -> 0 < hbDesc b -> listAt m max (hbDesc b) (b :: r) ->
  (exists i, 0 <= i < 8 /\ m (hbDesc b + 48 + 8 * max + i) = None) -> forall fuel, (0 < fuel)%nat -> printBlocks m seg sym src fuel max st (hbDesc b) = Ok [].
Proof.
  intros m seg sym src max st b r Hm Hs Hd _ (i & Hi & Hn) [|f] Hf; [lia|]. cbn [printBlocks]. replace (hbDesc b =? 0) with false by lia.
  destruct (memread m (hbDesc b) (Z.to_nat (u64 (56 + max * 8)))) as [d|] eqn:E; [|reflexivity]. exfalso. apply memread_holds in E as [El Eh]. unfold u64 in El. rewrite Z.mod_small in El by (unfold W64; lia).
  specialize (Eh (48 + 8 * max + i) ltac:(lia)). rewrite !Z.add_assoc in Eh. rewrite Hn in Eh. symmetry in Eh. rewrite znth_nth_error in Eh by lia. apply nth_error_None in Eh. unfold zlen in El. lia.
Qed.

(** ** The blocks of a program *)
(** The descriptors of the allocator's state [s] whose addresses are [ids] as they are in the memory [m] that hdmp reads. *)
Definition dumped (m : memory) (s : hst) (mf first : Z) (ids : list Z) (bs : list hblk) : Prop :=
  listAt m mf first bs /\ Forall (after m mf) bs /\ map hbDesc bs = ids /\
  forall b, In b bs -> exists d, hDescs s (hbDesc b) = Some d /\ hbSize b = dLen d /\ hbPtr b = dData d + 16.
(** The block [b] is shown by [t]: marked where the guards in [m] are not as the allocator left them. *)
Definition Shown (m : memory) (s : hst) (b : blk) (t : list Z) : Prop :=
  exists p n rest bh bt, t = lit "ptr=" ++ p ++ bh ++ bt ++ lit " size=" ++ n ++ [10] ++ rest /\ pointer p (bPtr b) /\ canonical 10 n (bSize b) /\
    (((forall x, bPtr b - 8 <= x < bPtr b - 4 -> m x = Some (hMem s x)) /\ bh = []) \/ ((exists x, bPtr b - 8 <= x < bPtr b - 4 /\ m x <> Some (hMem s x)) /\ bh = lit " BADHEAD")) /\
    (((forall x, bPtr b + bSize b <= x < bPtr b + bSize b + 4 -> m x = Some (hMem s x)) /\ bt = []) \/
     ((exists x, bPtr b + bSize b <= x < bPtr b + bSize b + 4 /\ m x <> Some (hMem s x)) /\ bt = lit " BADTAIL")).
Definition readableGuards (m : memory) (b : blk) : Prop :=
  forall x, bPtr b - 8 <= x < bPtr b - 4 \/ bPtr b + bSize b <= x < bPtr b + bSize b + 4 -> exists v, m x = Some v.
Lemma four m a : (forall x, a <= x < a + 4 -> exists v, m x = Some v) -> exists g, zlen g = 4 /\ holds m a g.
Proof.
  intros H. destruct (H a ltac:(lia)) as (v0 & E0). destruct (H (a + 1) ltac:(lia)) as (v1 & E1). destruct (H (a + 2) ltac:(lia)) as (v2 & E2). destruct (H (a + 3) ltac:(lia)) as (v3 & E3).
  exists [v0; v1; v2; v3]. split; [reflexivity|]. intros i Hi. change (zlen [v0; v1; v2; v3]) with 4 in Hi. assert (C : i = 0 \/ i = 1 \/ i = 2 \/ i = 3) by lia. destruct C as [C|[C|[C|C]]]; subst i; rewrite ?Z.add_0_r; assumption.
Qed.
Lemma guard_same m (mm : Z -> Z) a g st : zlen g = 4 -> holds m a g -> get mm a 4 = st -> ((forall x, a <= x < a + 4 -> m x = Some (mm x)) /\ g = st) \/ ((exists x, a <= x < a + 4 /\ m x <> Some (mm x)) /\ g <> st).
Proof.
  intros Lg Hg Es. destruct (list_eq_dec Z.eq_dec g st) as [E|E].
  - left. split; [|exact E]. intros x Hx. specialize (Hg (x - a) ltac:(lia)). replace (a + (x - a)) with x in Hg by lia. rewrite Hg, E, <- Es, znth_nth_error by lia. pose proof (get_nth mm a 4 (Z.to_nat (x - a)) ltac:(lia)) as X.
    rewrite (nth_error_nth' _ 0); [|unfold get; rewrite map_length, seq_length; lia]. rewrite X. do 2 f_equal. lia.
  - right. split; [|exact E]. destruct g as [|v0 [|v1 [|v2 [|v3 [|? ?]]]]]; try discriminate Lg; [|unfold zlen in Lg; cbn [length] in Lg; lia].
    unfold get in Es. cbn [map seq] in Es. pose proof (Hg 0 ltac:(lia)) as E0. pose proof (Hg 1 ltac:(lia)) as E1. pose proof (Hg 2 ltac:(lia)) as E2. pose proof (Hg 3 ltac:(lia)) as E3. cbn [znth Z.eqb Z.ltb Z.compare Z.sub Z.opp Z.add Z.pos_sub Pos.pred_double] in E0, E1, E2, E3.
    change (a + Z.of_nat 0) with (a + 0) in Es. change (a + Z.of_nat 1) with (a + 1) in Es. change (a + Z.of_nat 2) with (a + 2) in Es. change (a + Z.of_nat 3) with (a + 3) in Es.
    destruct (Z.eq_dec v0 (mm (a + 0))) as [V0|V0]; [|exists (a + 0); split; [lia|congruence]]. destruct (Z.eq_dec v1 (mm (a + 1))) as [V1|V1]; [|exists (a + 1); split; [lia|congruence]].
    destruct (Z.eq_dec v2 (mm (a + 2))) as [V2|V2]; [|exists (a + 2); split; [lia|congruence]]. destruct (Z.eq_dec v3 (mm (a + 3))) as [V3|V3]; [|exists (a + 3); split; [lia|congruence]]. congruence.
Qed.
Lemma Forall2_map_l {A B C} (R : B -> C -> Prop) (f : A -> B) l l' : Forall2 R (map f l) l' -> Forall2 (fun x y => R (f x) y) l l'.
Proof. revert l'. induction l as [|x l IH]; intros l' H; inversion H; subst; constructor; auto. Qed.
Lemma shown_all m s mf first ids bs blks seg sym src st : 0 <= mf -> 56 + mf * 8 < 2 ^ 64 -> Forall2 (linked (hMem s) (hDescs s) st) ids blks -> dumped m s mf first ids bs ->
  Forall (readableGuards m) blks -> Forall (fun b => stackLookable seg sym src (hbStack b)) bs ->
  exists ts, Forall2 (Shown m s) blks ts /\ forall fuel, (length blks < fuel)%nat -> printBlocks m seg sym src fuel mf st first = Ok (concat ts).
Proof.
  intros Hm Hs L (D1 & D2 & <- & D4) R K. apply Forall2_map_l in L.
  assert (M : Forall2 (fun h b => linked (hMem s) (hDescs s) st (hbDesc h) b /\ hbSize h = bSize b /\ hbPtr h = bPtr b) bs blks).
  { clear -L D4. induction L as [|h b l l' X _ IH]; constructor; [|apply IH; intros y Hy; apply D4; now right]. split; [exact X|]. destruct (D4 h ltac:(now left)) as (d & E1 & E2 & E3). destruct X as (_ & (ser & E4) & _). rewrite E4 in E1. injection E1 as <-. cbn [dLen dData] in *. lia. }
  assert (G : Forall (fun b => exists h t, guards m b h t) bs).
  { clear -M R. induction M as [|h b l l' (_ & X1 & X2) _ IH]; constructor; apply Forall_cons_iff in R as [R1 R2]; [|now apply IH]. destruct (four m (bPtr b - 8)) as (g & G1 & G2); [intros x Hx; apply R1; lia|].
    destruct (four m (bPtr b + bSize b)) as (g' & G3 & G4); [intros x Hx; apply R1; lia|]. exists g, g'. unfold guards. rewrite X1, X2. tauto. }
  destruct (printBlocks_ok seg sym src m mf st Hm Hs first bs D1 D2 G K) as (ts & F & P). exists ts. split.
  - clear -M F. revert ts F. induction M as [|h b l l' (X & X1 & X2) _ IH]; intros ts F; inversion F as [|? t ? ts' T F']; subst; constructor; [|now apply IH].
    destruct T as (p & n & r & hd & tl & T1 & T2 & T3 & (G1 & G2 & G3 & G4) & bh & bt & Hh & Ht & ->). rewrite X2 in T1, G3, G4. rewrite X1 in T2, G4. destruct X as (_ & _ & _ & E1 & E2).
    exists p, n, r, bh, bt. split; [reflexivity|]. split; [exact T1|]. split; [exact T2|]. split.
    + destruct (guard_same m (hMem s) (bPtr b - 8) hd st G1 G3 E1) as [[Q1 Q2]|[(x & Q1 & Q3) Q2]]; [left|right].
      * destruct Hh as [[_ ->]|[Hh _]]; [|contradiction]. split; [|reflexivity]. intros x Hx. apply Q1. lia.
      * destruct Hh as [[Hh _]|[_ ->]]; [contradiction|]. split; [|reflexivity]. exists x. split; [lia|exact Q3].
    + destruct (guard_same m (hMem s) (bPtr b + bSize b) tl st G2 G4 E2) as [[Q1 Q2]|[(x & Q1 & Q3) Q2]]; [left|right].
      * destruct Ht as [[_ ->]|[Ht _]]; [|contradiction]. split; [|reflexivity]. exact Q1.
      * destruct Ht as [[Ht _]|[_ ->]]; [contradiction|]. split; [|reflexivity]. exists x. split; [lia|exact Q3].
  - intros fuel Hf. apply P. apply F2_length in M. lia.
Qed.

(** After any run of a program that uses its memory correctly so far, hdmp reads the memory [m], in which any guards may have been damaged since: hdmp -a lists exactly the live blocks, the
    latest first, and hdmp -f exactly the freed blocks still held, the latest freed first, with a mark exactly where a guard's byte is not as the allocator left it. *)
Theorem C133_live_partial : forall hr max es p m0 level bt mb s m mf first bs seg sym src, okRun hr max spInit es p -> hrun hr (hinit m0 (Z.of_nat max) level false bt mb 0) es = Ok s ->
  0 <= mf -> 56 + mf * 8 < 2 ^ 64 -> dumped m s mf first (hHeap s) bs -> Forall (readableGuards m) (spLive p) -> Forall (fun b => stackLookable seg sym src (hbStack b)) bs ->
  exists ts, Forall2 (Shown m s) (spLive p) ts /\ forall fuel, (length (spLive p) < fuel)%nat -> printBlocks m seg sym src fuel mf [0xa5; 0xa5; 0xa5; 0xa5] first = Ok (concat ts).
Proof.
  intros hr max es p m0 level bt mb s m mf first bs seg sym src R E Hm Hs D G L. destruct (run_ok hr max es _ _ _ (inv_init hr max m0 level bt mb) R) as (s' & E' & I). rewrite E in E'. injection E' as <-.
  destruct I as [IH _ _ _ _ _ _ _ _ _ _ _ _]. exact (shown_all m s mf first (hHeap s) bs (spLive p) seg sym src allocB Hm Hs IH D G L).
Qed.
Theorem C133_freed_partial : forall hr max es p m0 level bt mb s m mf first bs seg sym src, okRun hr max spInit es p -> hrun hr (hinit m0 (Z.of_nat max) level false bt mb 0) es = Ok s ->
  0 <= mf -> 56 + mf * 8 < 2 ^ 64 -> dumped m s mf first (hFree s) bs -> Forall (readableGuards m) (held max (spFreed p)) -> Forall (fun b => stackLookable seg sym src (hbStack b)) bs ->
  exists ts, Forall2 (Shown m s) (rev (held max (spFreed p))) ts /\ forall fuel, (length (held max (spFreed p)) < fuel)%nat -> printBlocks m seg sym src fuel mf [0x5a; 0x5a; 0x5a; 0x5a] first = Ok (concat ts).
Proof.
  intros hr max es p m0 level bt mb s m mf first bs seg sym src R E Hm Hs D G L. destruct (run_ok hr max es _ _ _ (inv_init hr max m0 level bt mb) R) as (s' & E' & I). rewrite E in E'. injection E' as <-.
  destruct I as [_ IF _ _ _ _ _ _ _ _ _ _ _]. destruct (shown_all m s mf first (hFree s) bs _ seg sym src freeB Hm Hs IF D (Forall_rev' _ _ G) L) as (ts & F & P). exists ts. split; [exact F|]. intros fuel Hf. apply P. now rewrite rev_length.
Qed.

(** ** C136.  The history of large blocks *)
(** After any correct run: the blocks remembered are the first HDMP_BIG_COUNT blocks given back whose size is at least HDMP_BIG_THRESH, in order. *)
Theorem C136_history : forall hr max es p m level bt mb s, 0 <= mb -> okRun hr max spInit es p -> hrun hr (hinit m (Z.of_nat max) level false bt mb 0) es = Ok s ->
  Forall2 (fun id b => exists d, hDescs s id = Some d /\ dLen d = bSize b /\ dData d + 16 = bPtr b) (hBig s) (firstn (Z.to_nat mb) (filter (fun b => bt <=? bSize b) (gone max (spFreed p)))) /\
  hNumBig s = zlen (hBig s) /\ zlen (hBig s) <= mb.
Proof.
  intros hr max es p m level bt mb s Hmb R E. destruct (run_big hr max bt mb Hmb es _ _ _ s (inv_init hr max m level bt mb) (big_init max bt mb m level) R E) as (_ & B1 & B2 & _).
  split; [|split; [exact B2|]].
  - clear -B1. unfold bigOnes in B1. induction B1 as [|x y l l' (ser & X) _ IH]; constructor; [|exact IH]. eexists. split; [exact X|]. cbn [dLen dData]. lia.
  - apply F2_length in B1. unfold bigOnes in B1. rewrite firstn_length in B1. unfold zlen. lia.
Qed.
Example C136_case : match hrun (fun _ => false) (hinit (fun _ => 0) 0 1 false 100 1 0) [EMalloc 100 1000 500; EMalloc 50 2000 501; EMalloc 200 3000 502; EFree 2016; EFree 1016; EFree 3016] with
  | Ok s => (hBig s, hPool s, hNumBig s) = ([500], [501; 502], 1) | _ => False end.
Proof. vm_compute. reflexivity. Qed.

(** hdmp -b marks blocks of a correct program as damaged: here, for every size, a large block is freed and its memory reused by a block of the same size. *)
Theorem C136_marks_refuted : forall hr m0 level bt mb size r d d2, 1 <= mb -> bt <= size -> 0 <= size -> 0 < r -> r + (size + 20) <= W64 -> hr r = false -> 0 < d < W64 -> 0 < d2 < W64 -> d <> d2 ->
  exists s p, let es := [EMalloc size r d; EFree (r + 16); EMalloc size r d2] in okRun hr 0 spInit es p /\ hrun hr (hinit m0 0 level false bt mb 0) es = Ok s /\
  forall m mf first bs seg sym src, 0 <= mf -> 56 + mf * 8 < 2 ^ 64 -> dumped m s mf first (hBig s) bs -> (forall x, r <= x < r + (size + 20) -> m x = Some (hMem s x)) -> Forall (fun b => stackLookable seg sym src (hbStack b)) bs ->
  exists pt n rest, pointer pt (r + 16) /\ canonical 10 n size /\ forall fuel, (1 < fuel)%nat ->
    printBlocks m seg sym src fuel mf [0x5a; 0x5a; 0x5a; 0x5a] first = Ok (lit "ptr=" ++ pt ++ lit " BADHEAD" ++ lit " BADTAIL" ++ lit " size=" ++ n ++ [10] ++ rest).
Proof.
  intros hr m0 level bt mb size r d d2 Hmb Hbt Hsz Hr Hr2 Hhr Hd Hd2 Hne. set (b := mallocBlk size r).
  set (p := addBlock (mkSp [] [b] (Z.max 0 (sumSizes [b])) [d]) b d2). set (es := [EMalloc size r d; EFree (r + 16); EMalloc size r d2]).
  assert (Sz : size < W64) by lia.
  assert (R : okRun hr 0 spInit es p).
  { eapply RunCons; [apply OkMalloc; [lia|repeat split; cbn; try lia; try tauto|split; [lia|cbn; tauto]|cbn; lia]|].
    eapply RunCons; [apply (OkFree _ _ (addBlock spInit b d) [] b []); reflexivity|]. eapply RunCons; [|apply RunNil].
    unfold p. apply OkMalloc; [lia|repeat split; cbn; try lia; try tauto|split; [lia|cbn; intros [X|[]]; congruence]|cbn; lia]. }
  destruct (run_ok hr 0 es _ _ _ (inv_init hr 0 m0 level bt mb) R) as (s & E & I). exists s, p. split; [exact R|]. split; [exact E|].
  destruct (run_big hr 0 bt mb ltac:(lia) es _ _ _ s (inv_init hr 0 m0 level bt mb) (big_init 0 bt mb m0 level) R E) as (_ & B1 & _).
  unfold bigOnes, gone in B1. cbn [p addBlock spFreed length Nat.sub firstn filter] in B1. replace (bt <=? bSize b) with true in B1 by (cbn; lia). replace (firstn (Z.to_nat mb) [b]) with [b] in B1 by (destruct (Z.to_nat mb) as [|k] eqn:Ek; [lia|cbn [firstn]; now rewrite firstn_nil]).
  intros m mf first bs seg sym src Hm Hs (D1 & D2 & D3 & D4) Hmem L.
  inversion B1 as [|id ? ? ? (ser & Ed) B2 Eq]; subst. inversion B2; subst. rewrite <- Eq in D3. destruct bs as [|h [|? ?]]; try discriminate D3. injection D3 as D3.
  destruct (D4 h ltac:(now left)) as (dd & Dd & Dl & Dp). rewrite D3, Ed in Dd. injection Dd as <-. cbn [dLen dData b mallocBlk bSize bPtr] in Dl, Dp.
  destruct (inv_mem hr 0 s p b I ltac:(now left)) as (id2 & ser2 & (_ & _ & _ & G1 & G2) & _). cbn [b mallocBlk bPtr bSize] in G1, G2.
  assert (Hg : forall a, r <= a -> a + 4 <= r + (size + 20) -> get (hMem s) a 4 = allocB -> holds m a allocB).
  { intros a Ha1 Ha2 Hg i Hi. change (zlen allocB) with 4 in Hi. rewrite Hmem by lia. rewrite <- Hg, znth_nth_error by lia. pose proof (get_nth (hMem s) a 4 (Z.to_nat i) ltac:(lia)) as X. rewrite (nth_error_nth' _ 0); [|unfold get; rewrite map_length, seq_length; lia]. rewrite X. do 2 f_equal. lia. }
  assert (Gu : guards m h allocB allocB). { unfold guards. rewrite Dl, Dp. repeat split; apply Hg; try lia; [rewrite <- G1; f_equal; lia|rewrite <- G2; f_equal; lia]. }
  destruct (printBlocks_ok seg sym src m mf freeB Hm Hs first [h] D1 D2) as (ts & F & P); [constructor; [|constructor]; now exists allocB, allocB|exact L|].
  destruct ts as [|t [|t2 ts]]; [inversion F| |inversion F as [|? ? ? ? _ F']; inversion F']. assert (T : BlockText seg sym src m freeB h t) by (now inversion F). destruct T as (pt & n & rst & hd & tl & T1 & T2 & T3 & (Q1 & Q2 & Q3 & Q4) & bh & btl & Hh & Ht & Et). rewrite Et in P.
  assert (Uniq : forall a g g', zlen g = 4 -> zlen g' = 4 -> holds m a g -> holds m a g' -> g = g'). { intros a g g' L1 L2 H1 H2. pose proof (memread_of_holds m a g 4 H1 ltac:(unfold zlen in L1; lia)) as X1. pose proof (memread_of_holds m a g' 4 H2 ltac:(unfold zlen in L2; lia)) as X2. congruence. }
  destruct Gu as (_ & _ & U3 & U4). assert (hd = allocB) by (apply (Uniq (hbPtr h - 8)); auto). assert (tl = allocB) by (apply (Uniq (hbPtr h + hbSize h)); auto). subst hd tl.
  destruct Hh as [[X _]|[_ ->]]; [discriminate X|]. destruct Ht as [[X _]|[_ ->]]; [discriminate X|]. exists pt, n, rst. rewrite Dp in T1. rewrite Dl in T2. split; [replace (r + 16) with (r + 16 - 16 + 16) by lia; exact T1|]. split; [exact T2|].
  intros fuel Hf. rewrite P by (cbn [length]; lia). cbn [concat]. rewrite app_nil_r. reflexivity.
Qed.
Print Assumptions C133_list_partial.
Print Assumptions C133_cut_refuted.
Print Assumptions C133_live_partial.
Print Assumptions C133_freed_partial.
Print Assumptions C136_history.
Print Assumptions C136_marks_refuted.
