(** Properties C134 and C135: hdmp's report, and the stacks the allocator records; examples for C133. *)
From Coq Require Import Ascii String Permutation.
From Verif Require Import Base Leb LebSpec DwarfReader DwarfReaderProofs MapsSpec Reader ReaderProofs ReaderArrayProofs CacheProofs Cfi CfiSpec CfiProofs ElfHash ElfHashProofs Json Args ArgsSpec ArgsProofs Load LoadSpec LoadProofs FrameText FrameTextSpec Heap HeapSpec HeapProofs HeapBig Hdmp HdmpSpec HdmpProofs Props_Hdmp Main.

(** ** C134 *)
Lemma Forall_firstn {A} (P : A -> Prop) : forall n l, Forall P l -> Forall P (firstn n l).
Proof. induction n as [|n IH]; intros l H; [constructor|]. destruct H; [constructor|]. cbn [firstn]. constructor; auto. Qed.
Lemma Forall_skipn {A} (P : A -> Prop) : forall n l, Forall P l -> Forall P (skipn n l).
Proof. induction n as [|n IH]; intros l H; [exact H|]. destruct H; [constructor|]. cbn [skipn]. auto. Qed.
Lemma recorded_cut max n area st : recorded max area st -> 0 <= n <= max -> recorded n (firstn (Z.to_nat n) area) (firstn (Z.to_nat n) st).
Proof.
  intros (L & F & N & rest & -> & R) Hn. split; [|split; [|split]].
  - unfold zlen in *. rewrite firstn_length. lia.
  - now apply Forall_firstn.
  - now apply Forall_firstn.
  - rewrite firstn_app. eexists. split; [reflexivity|]. destruct R as [->|(r & ->)]; [left; apply firstn_nil|]. destruct (Z.to_nat n - length st)%nat; [left; reflexivity|right; eexists; reflexivity].
Qed.
Definition infoHead (i : hinfo) : list Z :=
  match iLasts i, iPads i with
  | [h; f; p1; p2; b], [x; y; z] =>
      words [iHeap1 i; h; iFree1 i; f; p1; p2; iBig1 i; b] ++ leBytes 4 (iFmax i) ++ leBytes 4 (iFsize i) ++ words [iTotal i; iPeak i] ++
      leBytes 4 (iMallocs i) ++ leBytes 4 (iFrees i) ++ leBytes 4 (iCallocs i) ++ leBytes 4 (iReallocs i) ++ leBytes 4 (iAligneds i) ++ leBytes 4 x ++
      leBytes 4 (iLevel i) ++ leBytes 4 y ++ words [iSerial i] ++ leBytes 4 (iDoFill i) ++ leBytes 4 z
  | _, _ => []
  end.
Ltac five l H := destruct l as [|?h [|?f [|?p1 [|?p2 [|?b [|? ?]]]]]]; try (exfalso; unfold zlen in H; cbn [length] in H; lia).
Ltac three l H := destruct l as [|?x [|?y [|?z [|? ?]]]]; try (exfalso; unfold zlen in H; cbn [length] in H; lia).
Lemma info_split i : infoOk i -> infoBytes i = infoHead i ++ words (iFrames i :: iRest i) ++ words (iCrash i) /\ zlen (infoHead i) = 136 /\ length (infoBytes i) = 4272%nat.
Proof.
  intros (L1 & L2 & L3 & L4 & _). unfold infoBytes, infoHead. five (iLasts i) L1. three (iPads i) L2.
  assert (Z1 : zlen (words (iCrash i)) = 4096) by (rewrite words_len; lia). assert (Z2 : zlen (words (iFrames i :: iRest i)) = 40) by (rewrite words_len, zlen_cons; lia).
  split; [rewrite <- !app_assoc; reflexivity|]. split; [rewrite !zlen_app, !words_len, !leBytes_len; reflexivity|].
  set (n := 4272%nat). assert (X : forall l : list Z, zlen l = 4272 -> length l = n) by (intros l Hl; apply Nat2Z.inj; exact Hl). apply X. rewrite !zlen_app, Z1, Z2, !words_len, !leBytes_len. reflexivity.
Qed.
Lemma info_fields i : infoOk i -> let bs := infoBytes i in
  word bs 0 = iHeap1 i /\ word bs 16 = iFree1 i /\ word bs 48 = iBig1 i /\ word bs 136 = iFrames i /\
  half bs 88 = iMallocs i /\ half bs 92 = iFrees i /\ half bs 96 = iCallocs i /\ half bs 100 = iReallocs i /\ half bs 104 = iAligneds i.
Proof.
  intros Ok bs. destruct (info_split i Ok) as (Sp & Z0 & _). destruct Ok as (L1 & L2 & L3 & L4 & FW & FH).
  apply Forall_cons_iff in FW as [W1 FW]. apply Forall_cons_iff in FW as [W2 FW]. apply Forall_cons_iff in FW as [W3 FW]. apply Forall_cons_iff in FW as [W4 _].
  apply Forall_cons_iff in FH as [H1 FH]. apply Forall_cons_iff in FH as [H2 FH]. apply Forall_cons_iff in FH as [H3 FH]. apply Forall_cons_iff in FH as [H4 FH]. apply Forall_cons_iff in FH as [H5 _].
  assert (Q4 : word bs 136 = iFrames i). { unfold bs. rewrite Sp. rewrite words_cons, <- app_assoc. now apply word_at. }
  clear Sp Z0. unfold bs in *. unfold infoBytes in *. five (iLasts i) L1. three (iPads i) L2.
  match goal with |- context [word (words ?l ++ ?r) 0] => set (ws := l) in *; set (R := r) in * end.
  assert (HW : forall a v c o, ws = a ++ v :: c -> o = 8 * zlen a -> isWord v -> word (words ws ++ R) o = v).
  { intros a v c o E1 E2 Hv. rewrite E1 at 1. pose proof (word_in [] a v c R o) as X. cbn [app] in X. apply X; [rewrite E2; reflexivity|exact Hv]. }
  split; [now apply (HW [] _ _ 0 eq_refl)|]. split; [now apply (HW [iHeap1 i; h] _ _ 16 eq_refl)|]. split; [now apply (HW [iHeap1 i; h; iFree1 i; f; p1; p2] _ _ 48 eq_refl)|]. split; [exact Q4|]. clear Q4 HW.
  assert (HH : forall pre v post o l, l = pre ++ leBytes 4 v ++ post -> zlen pre = o -> 0 <= v < 2 ^ 32 -> half l o = v) by (intros pre v post o l -> E Hv; now apply half_at).
  set (P0 := words ws ++ leBytes 4 (iFmax i) ++ leBytes 4 (iFsize i) ++ words [iTotal i; iPeak i]).
  assert (ZP : zlen P0 = 88) by (unfold P0; rewrite !zlen_app, !words_len, !leBytes_len; reflexivity).
  split; [|split; [|split; [|split]]].
  - eapply (HH P0); [unfold P0, R; rewrite <- !app_assoc; reflexivity|exact ZP|exact H1].
  - eapply (HH (P0 ++ leBytes 4 (iMallocs i))); [unfold P0, R; rewrite <- !app_assoc; reflexivity|rewrite zlen_app, ZP, leBytes_len; reflexivity|exact H2].
  - eapply (HH (P0 ++ leBytes 4 (iMallocs i) ++ leBytes 4 (iFrees i))); [unfold P0, R; rewrite <- !app_assoc; reflexivity|rewrite !zlen_app, ZP, !leBytes_len; reflexivity|exact H3].
  - eapply (HH (P0 ++ leBytes 4 (iMallocs i) ++ leBytes 4 (iFrees i) ++ leBytes 4 (iCallocs i))); [unfold P0, R; rewrite <- !app_assoc; reflexivity|rewrite !zlen_app, ZP, !leBytes_len; reflexivity|exact H4].
  - eapply (HH (P0 ++ leBytes 4 (iMallocs i) ++ leBytes 4 (iFrees i) ++ leBytes 4 (iCallocs i) ++ leBytes 4 (iReallocs i))); [unfold P0, R; rewrite <- !app_assoc; reflexivity|rewrite !zlen_app, ZP, !leBytes_len; reflexivity|exact H5].
Qed.

(** A list hdmp can read. *)
Definition listed (m : memory) seg sym src (max first : Z) (bs : list hblk) : Prop :=
  listAt m max first bs /\ Forall (after m max) bs /\ Forall (fun b => exists h t, guards m b h t) bs /\ Forall (fun b => stackLookable seg sym src (hbStack b)) bs.
Definition reportCounts (i : hinfo) : list (string * Z) :=
  [ ("Calls to malloc:               "%string, iMallocs i); ("Calls to free:                 "%string, iFrees i); ("Calls to calloc:               "%string, iCallocs i);
    ("Calls to realloc:              "%string, iReallocs i); ("Calls to aligned_alloc et al:  "%string, iAligneds i) ].
(** The whole report, for every state of the allocator in memory: the five counts, the first frames of the stack of the crash (as many as HDMP_STACKDEPTH), and
    the lists asked for, in this order. *)
Theorem C134_report_partial : forall m seg sym src a i st ba bf bb, a <> 0 -> infoOk i -> holds m a (infoBytes i) -> iFrames i <= 512 -> recorded 512 (iCrash i) st ->
  stackLookable seg sym src (firstn (Z.to_nat (iFrames i)) st) ->
  listed m seg sym src (iFrames i) (iHeap1 i) ba -> listed m seg sym src (iFrames i) (iFree1 i) bf -> listed m seg sym src (iFrames i) (iBig1 i) bb ->
  exists c s ta tf tb, countLines (reportCounts i) c /\ StackLines seg sym src (firstn (Z.to_nat (iFrames i)) st) s /\
    Forall2 (BlockText seg sym src m [0xa5; 0xa5; 0xa5; 0xa5]) ba ta /\ Forall2 (BlockText seg sym src m [0x5a; 0x5a; 0x5a; 0x5a]) bf tf /\ Forall2 (BlockText seg sym src m [0x5a; 0x5a; 0x5a; 0x5a]) bb tb /\
    forall fuel o, (length ba < fuel)%nat -> (length bf < fuel)%nat -> (length bb < fuel)%nat ->
    dumpHeap m seg sym src fuel o (Ok a) = Ok (lit "Allocator usage statistics:" ++ [10; 10] ++ c ++ [10] ++ lit "Stack at termination:" ++ [10; 10] ++ s ++
      (if oAlloc o then [10] ++ lit "Currently allocated memory:" ++ [10; 10] ++ concat ta else []) ++
      (if oFree o then [10] ++ lit "Recently freed memory:" ++ [10; 10] ++ concat tf else []) ++
      (if oBig o then [10] ++ lit "Historic large allocations:" ++ [10; 10] ++ concat tb else [])).
Proof.
  intros m seg sym src a i st ba bf bb Na Ok Hh Hf Rc Ls (A1 & A2 & A3 & A4) (F1 & F2 & F3 & F4) (B1 & B2 & B3 & B4).
  destruct (info_split i Ok) as (Sp & Z0 & Ln). destruct (info_fields i Ok) as (V1 & V2 & V3 & V4 & V5 & V6 & V7 & V8 & V9).
  destruct Ok as (L1 & L2 & L3 & L4 & FW & FH).
  assert (W0 : isWord (iFrames i)) by (rewrite Forall_forall in FW; apply FW; cbn; tauto). destruct W0 as [W0 _].
  pose proof (recorded_cut 512 (iFrames i) (iCrash i) st Rc ltac:(lia)) as Rc'.
  destruct (printStack_ok seg sym src _ _ (infoHead i ++ words (iFrames i :: iRest i)) _ (words (skipn (Z.to_nat (iFrames i)) (iCrash i))) Rc' Ls) as (s & Es & Ss).
  replace (zlen (infoHead i ++ words (iFrames i :: iRest i))) with 176 in Es by (rewrite zlen_app, Z0, words_len, zlen_cons; lia).
  rewrite <- words_app, firstn_skipn, <- app_assoc, <- Sp in Es.
  destruct (printBlocks_ok seg sym src m (iFrames i) allocB W0 ltac:(unfold W64; lia) _ _ A1 A2 A3 A4) as (ta & Ta & Pa).
  destruct (printBlocks_ok seg sym src m (iFrames i) freeB W0 ltac:(unfold W64; lia) _ _ F1 F2 F3 F4) as (tf & Tf & Pf).
  destruct (printBlocks_ok seg sym src m (iFrames i) freeB W0 ltac:(unfold W64; lia) _ _ B1 B2 B3 B4) as (tb & Tb & Pb).
  eexists. exists s, ta, tf, tb. split; [|split; [exact Ss|split; [exact Ta|split; [exact Tf|split; [exact Tb|]]]]].
  - unfold countLines, reportCounts. exists [decText 20 (iMallocs i); decText 20 (iFrees i); decText 20 (iCallocs i); decText 20 (iReallocs i); decText 20 (iAligneds i)]. split; [|reflexivity].
    rewrite Forall_forall in FH. repeat (constructor; [cbn [snd]; apply decText_canon; unfold isWord; match goal with |- 0 <= ?v < _ => specialize (FH v ltac:(cbn; tauto)); lia end|]). constructor.
  - intros fuel o Hfa Hff Hfb. unfold dumpHeap. cbn [bind]. replace (a =? 0) with false by lia. rewrite (obj_holds m a (infoBytes i) infoSize Hh) by (unfold infoSize; symmetry; exact Ln). cbn [bind].
    rewrite V1, V2, V3, V4, Es. cbn [bind]. unfold section. rewrite Pa, Pf, Pb by assumption. cbn [bind]. unfold statsText. rewrite V5, V6, V7, V8, V9.
    unfold title, count, nl. change tx with lit. cbn [map combine concat fst snd]. rewrite app_nil_r.
    destruct (oAlloc o); destruct (oFree o); destruct (oBig o); cbn [bind]; rewrite <- ?app_assoc; cbn [app]; rewrite ?app_nil_r; reflexivity.
Qed.

(** The stack of the crash is cut: the allocator stores up to 512 frames, but hdmp shows no more than are kept for blocks (by default 16).  For every longer stack the
    text shown is not the text of that stack. *)
Definition nowhere : Z -> res (option (Z * Z)) := fun _ => Ok None.
Definition noSym : Z -> Z -> res (option (Z * list Z)) := fun _ _ => Ok None.
Definition noSrc : Z -> Z -> res (list (list Z * Z)) := fun _ _ => Ok [].
Lemma numeral_no9 b s v : 2 <= b <= 16 -> numeral b s v -> count_occ Z.eq_dec s 9 = 0%nat.
Proof.
  intros Hb H. induction H as [c d [D [[D1 D2]|[D1 D2]]]|s v c d H IH [D [[D1 D2]|[D1 D2]]]]; rewrite ?count_occ_app; cbn [count_occ]; rewrite ?IH; (destruct (Z.eq_dec c 9) as [X|X]; [lia|reflexivity]).
Qed.
Lemma pointer_no9 p v : pointer p v -> count_occ Z.eq_dec p 9 = 0%nat.
Proof. intros [[_ ->]|[_ (r & -> & C & _)]]; [reflexivity|]. cbn [count_occ]. destruct (Z.eq_dec 48 9); [lia|]. destruct (Z.eq_dec 120 9); [lia|]. now apply (numeral_no9 16 r v). Qed.
Lemma line_tabs ip a t : Line nowhere noSym noSrc ip a t -> count_occ Z.eq_dec t 9 = 1%nat.
Proof. intros H. inversion H as [? ? p E P| |]; try discriminate. subst. rewrite !count_occ_app. rewrite (pointer_no9 _ _ P). reflexivity. Qed.
Lemma callers_tabs st t : CallerLines nowhere noSym noSrc st t -> count_occ Z.eq_dec t 9 = length st.
Proof. induction 1 as [|a r t u L _ IH]; [reflexivity|]. rewrite count_occ_app, IH, (line_tabs _ _ _ L). reflexivity. Qed.
Lemma stack_tabs st t : StackLines nowhere noSym noSrc st t -> count_occ Z.eq_dec t 9 = length st.
Proof. intros H. inversion H as [|a r t' u L C]; subst; [reflexivity|]. rewrite count_occ_app, (line_tabs _ _ _ L), (callers_tabs _ _ C). reflexivity. Qed.
Lemma nowhere_lookable st : stackLookable nowhere noSym noSrc st.
Proof. destruct st as [|x r]; [exact I|]. assert (L : forall y, lookable nowhere noSym noSrc y) by (intros y; exists None; split; [reflexivity|exact I]). split; [apply L|]. apply Forall_forall. intros y _. apply L. Qed.
Theorem C134_crash_cut_refuted : forall mf area st pre post, 0 <= mf < zlen st -> recorded 512 area st -> mf <= 512 -> exists t,
  printStack nowhere noSym noSrc mf (pre ++ words area ++ post) (zlen pre) = Ok t /\ ~ StackLines nowhere noSym noSrc st t.
Proof.
  intros mf area st pre post Hm R H5. pose proof (recorded_cut 512 mf area st R ltac:(lia)) as R'.
  destruct (printStack_ok nowhere noSym noSrc _ mf pre _ (words (skipn (Z.to_nat mf) area) ++ post) R' (nowhere_lookable _)) as (t & E & Ss).
  rewrite app_assoc with (l := words _) in E. rewrite <- words_app, firstn_skipn in E. exists t. split; [exact E|]. intros X. apply stack_tabs in X. apply stack_tabs in Ss. rewrite Ss, firstn_length in X. unfold zlen in Hm. lia.
Qed.
(** With a larger HDMP_STACKDEPTH and a stack that fills the 512 entries, hdmp reads beyond them. *)
Lemma stack_over : forall st n pre a first, (length st < n)%nat -> Forall isWord st -> Forall (fun f => f <> 0) st -> stackLoop nowhere noSym noSrc n first (pre ++ words (a ++ st)) (zlen pre + 8 * zlen a) = UB.
Proof.
  induction st as [|x st IH]; intros n pre a first L F N; destruct n as [|n]; cbn [length] in L; try lia; cbn [stackLoop].
  - rewrite app_nil_r, zlen_app, words_len. now replace (zlen pre + 8 * zlen a <? zlen pre + 8 * zlen a + 8) with true by lia.
  - apply Forall_cons_iff in F as [F1 F2]. apply Forall_cons_iff in N as [N1 N2]. replace (zlen (pre ++ words (a ++ x :: st)) <? zlen pre + 8 * zlen a + 8) with false by (rewrite zlen_app, words_len, zlen_app, zlen_cons; pose proof (zlen_nonneg st); lia).
    pose proof (word_in pre a x st [] (zlen pre + 8 * zlen a) eq_refl F1) as W. rewrite app_nil_r in W. rewrite W. replace (x =? 0) with false by lia.
    unfold frameLine. unfold nowhere at 1. cbn [bind]. specialize (IH n pre (a ++ [x]) false ltac:(lia) F2 N2). rewrite <- app_assoc in IH. cbn [app] in IH. rewrite zlen_app in IH. change (zlen [x]) with 1 in IH.
    replace (zlen pre + 8 * (zlen a + 1)) with (zlen pre + 8 * zlen a + 8) in IH by lia. rewrite IH. reflexivity.
Qed.
Theorem C134_overrun_refuted : forall m a i fuel o, a <> 0 -> infoOk i -> holds m a (infoBytes i) -> 512 < iFrames i -> Forall isWord (iCrash i) -> Forall (fun f => f <> 0) (iCrash i) ->
  dumpHeap m nowhere noSym noSrc fuel o (Ok a) = UB.
Proof.
  intros m a i fuel o Na Ok Hh Hf Fw Fn. destruct (info_split i Ok) as (Sp & Z0 & Ln). destruct (info_fields i Ok) as (_ & _ & _ & V4 & _). destruct Ok as (_ & _ & L3 & L4 & _).
  unfold dumpHeap. cbn [bind]. replace (a =? 0) with false by lia. rewrite (obj_holds m a (infoBytes i) infoSize Hh) by (unfold infoSize; symmetry; exact Ln). cbn [bind]. rewrite V4. unfold printStack.
  pose proof (stack_over (iCrash i) (Z.to_nat (iFrames i)) (infoHead i ++ words (iFrames i :: iRest i)) [] true ltac:(unfold zlen in L4; lia) Fw Fn) as X. cbn [app] in X. rewrite <- app_assoc, <- Sp in X.
  replace (zlen (infoHead i ++ words (iFrames i :: iRest i)) + 8 * zlen (@nil Z)) with 176 in X; [rewrite X; reflexivity|]. rewrite zlen_app, Z0, words_len, zlen_cons. change (zlen (@nil Z)) with 0. lia.
Qed.
(** An argument that is an ELF file but not a core: a null process is used. *)
Theorem C134_image_refuted : forall (img proc : Type) killOk (attach : option img -> Z -> res proc) fileType core exec dump a r t, parsePid a = None -> fileType a = Ok t -> t <> 4 ->
  hdmpMain (load killOk attach fileType core exec) dump (a :: r) = ([], UB).
Proof. intros img proc killOk attach fileType core exec dump a r t Hp Ht N. cbn [hdmpMain]. unfold load. rewrite Hp, Ht. cbn [bind]. now replace (negb (t =? 4)) with true by lia. Qed.
(** Without options all three lists are asked for; with some, those. *)
Theorem C134_options : forall a f b, let o := optsOf a f b in (a = true \/ f = true \/ b = true -> oAlloc o = a /\ oFree o = f /\ oBig o = b) /\ (a = false /\ f = false /\ b = false -> oAlloc o = true /\ oFree o = true /\ oBig o = true).
Proof. intros [] [] []; cbn; intuition congruence. Qed.
(** Several arguments: the reports one after the other. *)
Theorem C134_arguments : forall (proc : Type) (load : list Z -> res (option proc)) dump args ps ts, Forall2 (fun a p => load a = Ok (Some p)) args ps -> Forall2 (fun p t => dump p = Ok t) ps ts ->
  hdmpMain load dump args = (concat ts, Ok tt).
Proof.
  intros proc load dump args ps ts H. revert ts. induction H as [|a p args ps E _ IH]; intros ts F; inversion F as [|? t ? ts' D F']; subst; [reflexivity|]. cbn [hdmpMain]. rewrite E, D, (IH _ F'). reflexivity.
Qed.

(** ** C135.  The recorded stacks *)
Lemma s32_small x : 0 <= x < 2 ^ 31 -> s32 x = x.
Proof. intros H. unfold s32, sgn, W32. rewrite Z.mod_small by lia. cbv zeta. change (4294967296 / 2) with 2147483648. now replace (x <? 2147483648) with true by lia. Qed.
Lemma frame_read m bp nb ip : isWord nb -> isWord ip -> holds m bp (leBytes 8 nb ++ leBytes 8 ip) -> exists w, memread m bp 16 = Some w /\ word w 0 = nb /\ word w 8 = ip.
Proof.
  intros H1 H2 H. exists (leBytes 8 nb ++ leBytes 8 ip). split; [apply memread_of_holds; [exact H|reflexivity]|]. split; [now apply word_at0|].
  pose proof (word_at (leBytes 8 nb) ip [] 8 (leBytes_len 8 nb) H2) as X. now rewrite app_nil_r in X.
Qed.
Lemma trace_ok m bp l : Frames m bp l -> 0 <= bp -> forall n, traceLoop n m bp = Ok (firstn n l ++ (if (length l <? n)%nat then [0] else [])).
Proof.
  induction 1 as [bp nb ip W1 W2 H S|bp nb ip r W1 W2 H S Ni _ IH]; intros Hb n; (destruct n as [|n]; [reflexivity|]); cbn [traceLoop]; destruct (frame_read m bp nb ip W1 W2 H) as (w & -> & -> & ->).
  - replace ((nb =? 0) || (nb <=? bp) || ((nb - bp) / 8 >? 65536) || (ip =? 0)) with true; [reflexivity|]. symmetry. apply orb_true_iff. destruct S as [S|[S|S]]; [left|left|right; lia]; apply orb_true_iff.
    + left. apply orb_true_iff. right. lia.
    + right. assert (65537 <= (nb - bp) / 8) by (apply Z.div_le_lower_bound; lia). lia.
  - replace ((nb =? 0) || (nb <=? bp) || ((nb - bp) / 8 >? 65536) || (ip =? 0)) with false.
    + rewrite IH by lia. cbn [bind firstn app length]. reflexivity.
    + symmetry. apply orb_false_iff. split; [|lia]. apply orb_false_iff. split; [|assert ((nb - bp) / 8 < 65537) by (apply Z.div_lt_upper_bound; lia); lia]. apply orb_false_iff. lia.
Qed.
(** For a stack with frame pointers, whatever the frames: the allocator records exactly the return addresses, up to HDMP_STACKDEPTH of them, in the form hdmp reads back, whatever the area held before. *)
Theorem C135_recorded_partial : forall m bp l mx old, 0 <= bp -> 0 <= mx < 2 ^ 31 -> Frames m bp l -> Forall isWord l -> zlen old = mx -> Forall isWord old ->
  exists e, getstacktrace m bp mx = Ok e /\ zlen e <= mx /\ recorded mx (e ++ skipn (length e) old) (firstn (Z.to_nat mx) l).
Proof.
  intros m bp l mx old Hb Hm H Fl Lo Fo. unfold getstacktrace. rewrite (s32_small mx Hm).
  rewrite (trace_ok m bp l H Hb). set (n := Z.to_nat mx). eexists. split; [reflexivity|].
  assert (Nz : Forall (fun f => f <> 0) l) by (clear -H; induction H; constructor; auto).
  destruct (length l <? n)%nat eqn:E.
  - apply Nat.ltb_lt in E. rewrite firstn_all2 by lia. assert (Le : zlen (l ++ [0]) <= mx) by (rewrite zlen_app; change (zlen [0]) with 1; unfold zlen; lia). split; [exact Le|]. split; [|split; [|split; [exact Nz|]]].
    + rewrite zlen_app. unfold zlen in *. rewrite skipn_length. lia.
    + apply Forall_app. split; [apply Forall_app; split; [exact Fl|]; constructor; [unfold isWord; lia|constructor]|]. now apply Forall_skipn.
    + rewrite <- app_assoc. eexists. split; [reflexivity|]. right. eexists. reflexivity.
  - apply Nat.ltb_ge in E. rewrite app_nil_r. assert (Lf : zlen (firstn n l) = mx) by (unfold zlen; rewrite firstn_length; lia). split; [lia|]. rewrite skipn_all2 by (unfold zlen in *; lia). rewrite app_nil_r. split; [exact Lf|]. split; [now apply Forall_firstn|]. split; [now apply Forall_firstn|].
    exists []. rewrite app_nil_r. auto.
Qed.
(** Whatever memory holds: never more entries than there is room for, and at most as many steps. *)
Theorem C135_room : forall m bp mx e, 0 <= mx < 2 ^ 31 -> getstacktrace m bp mx = Ok e -> zlen e <= mx /\ 48 + 8 * zlen e <= descRequest mx.
Proof.
  intros m bp mx e Hm. unfold getstacktrace. rewrite (s32_small mx Hm).
  assert (H : forall n bp e, traceLoop n m bp = Ok e -> (length e <= n)%nat).
  { clear. induction n as [|n IH]; intros bp e E; cbn [traceLoop] in E; [injection E as <-; cbn; lia|]. destruct (memread m bp 16) as [w|]; [|discriminate]. destruct (_ || _); [injection E as <-; cbn; lia|].
    destruct (traceLoop n m (word w 0)) as [r| | |] eqn:Er; cbn [bind] in E; try discriminate. injection E as <-. apply IH in Er. cbn [length]. lia. }
  intros E. apply H in E. assert (L : zlen e <= mx) by (unfold zlen; lia). split; [exact L|].
  assert (D : descRequest mx = 48 + 8 * mx); [|lia]. unfold descRequest, u64, W64. destruct (Z.eq_dec mx 0) as [->|]; [reflexivity|]. rewrite (Z.mod_small (mx - 1)) by lia. rewrite (Z.mod_small (8 * _)) by lia. rewrite Z.mod_small by lia. lia.
Qed.
(** A negative HDMP_STACKDEPTH: the descriptor asked for is smaller than the fields written to it. *)
Theorem C135_negative_refuted : forall setting, - 2 ^ 31 <= setting < 0 -> descRequest (stackDepth setting) < 48 \/ W64 - 2 ^ 40 < descRequest (stackDepth setting).
Proof. intros n H. unfold descRequest, stackDepth, u64. change W64 with (2 ^ 64). rewrite <- (Z.mod_add n 1) by lia. rewrite (Z.mod_small (n + 1 * 2 ^ 64)) by lia. rewrite (Z.mod_small (n + 1 * 2 ^ 64 - 1)) by lia.
  replace (8 * (n + 1 * 2 ^ 64 - 1)) with (2 ^ 64 + 8 * (n - 1) + 7 * 2 ^ 64) by lia. rewrite Z.mod_add by lia. rewrite (Z.mod_small (2 ^ 64 + 8 * (n - 1))) by lia.
  destruct (Z.le_gt_cases (- 6) n) as [L|L]; [left|right]; [replace (56 + (2 ^ 64 + 8 * (n - 1))) with (48 + 8 * n + 1 * 2 ^ 64) by lia; rewrite Z.mod_add by lia; rewrite Z.mod_small by lia; lia|rewrite Z.mod_small by lia; lia].
Qed.
(** The outermost frame, whose saved frame pointer is null, is left out: its return address is not recorded. *)
Theorem C135_outermost_refuted : forall m bp ip mx, 0 <= bp -> isWord ip -> 0 < mx < 2 ^ 31 -> holds m bp (leBytes 8 0 ++ leBytes 8 ip) -> getstacktrace m bp mx = Ok [0].
Proof.
  intros m bp ip mx Hb Hi Hm H. unfold getstacktrace. rewrite (s32_small mx) by lia.
  rewrite (trace_ok m bp [] (FrEnd m bp 0 ip ltac:(unfold isWord; lia) Hi H ltac:(lia)) Hb). replace (length (@nil Z) <? Z.to_nat mx)%nat with true by (symmetry; apply Nat.ltb_lt; cbn [length]; lia). now rewrite firstn_nil.
Qed.
(** A program compiled without frame pointers: the register holds anything, and the first call of malloc faults if it is not readable. *)
Theorem C135_no_frame_pointer_refuted : forall m bp mx i, 0 < mx < 2 ^ 31 -> 0 <= i < 16 -> m (bp + i) = None -> getstacktrace m bp mx = UB.
Proof.
  intros m bp mx i Hm Hi Hn. unfold getstacktrace. rewrite (s32_small mx) by lia.
  destruct (Z.to_nat mx) as [|n] eqn:E; [lia|]. cbn [traceLoop]. destruct (memread m bp 16) as [w|] eqn:Er; [|reflexivity]. exfalso. apply memread_holds in Er as [El Eh]. specialize (Eh i ltac:(lia)). rewrite Hn in Eh. symmetry in Eh. rewrite znth_nth_error in Eh by lia. apply nth_error_None in Eh. unfold zlen in El. lia.
Qed.

(** ** A concrete case: one live block of 4 bytes at 1016 with an overwritten tail, its descriptor at 500 with one frame recorded of two. *)
Definition exInfo : hinfo := mkHI 500 0 0 [500; 0; 0; 0; 0] 1024 0 4 4 1 0 0 0 0 [0; 0; 0] 1 1 0 2 [262144; 0; 4096; 0] (7777 :: repeat 0 511).
Definition exDesc : list Z := words [0; 20000; 0; 4; 1000; 1000; 7777; 0; 0].
Definition exBlock : list Z := leBytes 8 500 ++ [0xa5; 0xa5; 0xa5; 0xa5] ++ [0; 0; 0; 0] ++ [1; 2; 3; 4] ++ [5; 0xa5; 0xa5; 0xa5].
Definition exMem : memory := fun x => if (500 <=? x) && (x <? 572) then znth (x - 500) exDesc else if (1000 <=? x) && (x <? 1024) then znth (x - 1000) exBlock
  else if 20000 <=? x then znth (x - 20000) (infoBytes exInfo) else None.
Lemma ex_holds a k o n bs pre post : bs = pre ++ k ++ post -> zlen pre = o -> a = o + n -> (forall x, n <= x < n + zlen bs -> exMem x = znth (x - n) bs) -> holds exMem a k.
Proof.
  intros E Eo Ea H i Hi. pose proof (zlen_nonneg pre). pose proof (zlen_nonneg post). rewrite Ea, H by (rewrite E, !zlen_app; lia). rewrite E. replace (o + n + i - n) with (zlen pre + i) by lia. rewrite znth_app_r by lia. replace (zlen pre + i - zlen pre) with i by lia. apply znth_app_l. lia.
Qed.
Lemma ex_desc x : 500 <= x < 500 + zlen exDesc -> exMem x = znth (x - 500) exDesc.
Proof. change (zlen exDesc) with 72. intros H. unfold exMem. now replace ((500 <=? x) && (x <? 572)) with true by lia. Qed.
Lemma ex_block x : 1000 <= x < 1000 + zlen exBlock -> exMem x = znth (x - 1000) exBlock.
Proof. change (zlen exBlock) with 24. intros H. unfold exMem. replace ((500 <=? x) && (x <? 572)) with false by lia. now replace ((1000 <=? x) && (x <? 1024)) with true by lia. Qed.
Lemma ex_info x : 20000 <= x < 20000 + zlen (infoBytes exInfo) -> exMem x = znth (x - 20000) (infoBytes exInfo).
Proof. intros H. unfold exMem. replace ((500 <=? x) && (x <? 572)) with false by lia. replace ((1000 <=? x) && (x <? 1024)) with false by lia. now replace (20000 <=? x) with true by lia. Qed.
Definition exBlk : hblk := mkHB 500 1016 4 [7777].
Example C133_case : listed exMem nowhere noSym noSrc 2 500 [exBlk] /\ printBlocks exMem nowhere noSym noSrc 2 2 [0xa5; 0xa5; 0xa5; 0xa5] 500 = Ok (lit "ptr=0x3f8 BADTAIL size=4" ++ [10; 9] ++ lit "0x1e61" ++ [10; 10]).
Proof.
  split; [|vm_compute; reflexivity]. split; [|split; [|split]].
  - apply (LaCons _ _ exBlk 0 []); [unfold blkOk, exBlk, isWord; cbn [hbDesc hbPtr hbSize]; lia| |constructor]. exists 20000, 0, 1000, [7777; 0]. split; [repeat (constructor; [unfold isWord; lia|]); constructor|]. split.
    + split; [reflexivity|]. split; [repeat (constructor; [unfold isWord; lia|]); constructor|]. split; [repeat (constructor; [discriminate|]); constructor|]. exists [0]. split; [reflexivity|]. right. now exists [].
    + cbn [exBlk hbDesc hbSize hbPtr app]. apply (ex_holds _ _ 0 500 exDesc [] (leBytes 8 0)); [reflexivity|reflexivity|reflexivity|exact ex_desc].
  - constructor; [|constructor]. exists 0. split; [unfold isWord; lia|]. cbn [exBlk hbDesc]. apply (ex_holds _ _ 64 500 exDesc (words [0; 20000; 0; 4; 1000; 1000; 7777; 0]) []); [reflexivity|reflexivity|reflexivity|exact ex_desc].
  - constructor; [|constructor]. exists [165; 165; 165; 165], [5; 165; 165; 165]. unfold guards. cbn [exBlk hbPtr hbSize]. split; [reflexivity|]. split; [reflexivity|]. split.
    + apply (ex_holds _ _ 8 1000 exBlock (leBytes 8 500) ([0; 0; 0; 0] ++ [1; 2; 3; 4] ++ [5; 165; 165; 165])); [reflexivity|reflexivity|reflexivity|exact ex_block].
    + apply (ex_holds _ _ 20 1000 exBlock (leBytes 8 500 ++ [165; 165; 165; 165] ++ [0; 0; 0; 0] ++ [1; 2; 3; 4]) []); [reflexivity|reflexivity|reflexivity|exact ex_block].
  - constructor; [apply nowhere_lookable|constructor].
Qed.
Example C134_case : infoOk exInfo /\ holds exMem 20000 (infoBytes exInfo) /\ recorded 512 (iCrash exInfo) [7777] /\
  dumpHeap exMem nowhere noSym noSrc 2 (mkHO false true false) (Ok 20000) =
  Ok (lit "Allocator usage statistics:" ++ [10; 10] ++ lit "Calls to malloc:               1" ++ [10] ++ lit "Calls to free:                 0" ++ [10] ++ lit "Calls to calloc:               0" ++ [10] ++
      lit "Calls to realloc:              0" ++ [10] ++ lit "Calls to aligned_alloc et al:  0" ++ [10; 10] ++ lit "Stack at termination:" ++ [10; 10; 9] ++ lit "0x1e61" ++ [10; 10; 10] ++ lit "Recently freed memory:" ++ [10; 10]).
Proof.
  split; [|split; [|split]].
  - repeat split; try reflexivity; repeat (constructor; [cbn; unfold isWord; lia|]); constructor.
  - intros i Hi. rewrite ex_info by lia. f_equal. lia.
  - split; [reflexivity|]. split; [cbn [exInfo iCrash]; constructor; [unfold isWord; lia|]; apply Forall_forall; intros x Hx; apply repeat_spec in Hx; subst; unfold isWord; lia|]. split; [constructor; [discriminate|constructor]|]. exists (repeat 0 511). split; [reflexivity|]. right. now exists (repeat 0 510).
  - vm_compute. reflexivity.
Qed.
(** A run after which the memory hdmp reads has this form: the allocator's own memory, with the descriptors where the real allocator put them. *)
Lemma run_case : match hrun (fun _ => false) (hinit (fun _ => 0) 0 1 false 100 1 0) [EMalloc 4 1000 500] with
  | Ok s => (hHeap s, hDescs s 500) = ([500], Some (mkD 4 1000 1000 0)) | _ => False end.
Proof. vm_compute. reflexivity. Qed.
Example C133_run_case : match hrun (fun _ => false) (hinit (fun _ => 0) 0 1 false 100 1 0) [EMalloc 4 1000 500] with
  | Ok s => dumped exMem s 2 500 (hHeap s) [exBlk] | _ => False end.
Proof.
  pose proof run_case as X. destruct (hrun (fun _ => false) (hinit (fun _ => 0) 0 1 false 100 1 0) [EMalloc 4 1000 500]) as [s| | |]; try exact X.
  injection X as Eh Ed. destruct C133_case as ((L1 & L2 & _) & _). split; [exact L1|]. split; [exact L2|]. split; [now rewrite Eh|]. intros b [<-|[]]. eexists. split; [exact Ed|]. split; reflexivity.
Qed.
Example C135_case : let m := fun x => if (100 <=? x) && (x <? 148) then znth (x - 100) (words [116; 5000; 132; 6000; 0; 7000]) else None in
  Frames m 100 [5000; 6000] /\ getstacktrace m 100 16 = Ok [5000; 6000; 0] /\ getstacktrace m 100 1 = Ok [5000].
Proof.
  intros m. assert (W : forall a pre k post, words [116; 5000; 132; 6000; 0; 7000] = pre ++ k ++ post -> a = 100 + zlen pre -> holds m a k).
  { intros a pre k post E Ea i Hi. pose proof (zlen_nonneg pre). pose proof (zlen_nonneg post). assert (L : zlen pre + zlen k + zlen post = 48) by (rewrite <- Z.add_assoc, <- !zlen_app, <- E; reflexivity).
    unfold m. replace ((100 <=? a + i) && (a + i <? 148)) with true by lia. rewrite E. rewrite znth_app_r by lia. replace (a + i - 100 - zlen pre) with i by lia. apply znth_app_l. lia. }
  split; [|split; vm_compute; reflexivity].
  apply (FrNext m 100 116 5000); [unfold isWord; lia|unfold isWord; lia|eapply (W 100 []); reflexivity|lia|lia|].
  apply (FrNext m 116 132 6000); [unfold isWord; lia|unfold isWord; lia|eapply (W 116 (words [116; 5000])); reflexivity|lia|lia|].
  apply (FrEnd m 132 0 7000); [unfold isWord; lia|unfold isWord; lia|eapply (W 132 (words [116; 5000; 132; 6000])); reflexivity|lia].
Qed.
Print Assumptions C134_report_partial.
Print Assumptions C136_marks_refuted.
Print Assumptions C134_crash_cut_refuted.
Print Assumptions C134_overrun_refuted.
Print Assumptions C134_image_refuted.
Print Assumptions C134_options.
Print Assumptions C134_arguments.
Print Assumptions C135_recorded_partial.
Print Assumptions C135_room.
Print Assumptions C135_negative_refuted.
Print Assumptions C135_outermost_refuted.
Print Assumptions C135_no_frame_pointer_refuted.
