(** Properties C161-C164: registers of a core's threads, libthread_db's view of a core, threads on stacks, task names. *)
From Coq Require Import Sorting.Sorted.
From Verif Require Import Base Reader ReaderSpec ReaderProofs DwarfReaderProofs CfiSpec CfiProofs Regs LzmaProofs ElfHash ElfHashProofs ElfObj ElfObjProofs Core CoreSpec CoreProofs Cfi Expr Unwind UnwindSpec UnwindProofs Stacks StacksSpec Service ServiceSpec ServiceProofs Props_Core Props_Stacks.

(** ** C161: registers of a core's threads *)
(** The notes of a core whose threads are [ts], with ids [pids], all different. *)
Definition coreOf (pre : list ndesc) (ts : list thread) (pids : list Z) : Prop :=
  Forall (fun n => ~ isStatus n) pre /\ Forall wfThread ts /\
  Forall2 (fun t p => pidIs (ndData (thStatus t)) p) ts pids /\ NoDup pids.
(** Every register the psABI numbers (but mm0-7, see C53) is the one the kernel saved for that thread. *)
Theorem C161_registers : forall pre ts pids t p u f, coreOf pre ts pids ->
  In t ts -> pidIs (ndData (thStatus t)) p -> saved t u f ->
  exists regs, getCoreRegs (coreNotes pre ts) p = Ok regs /\
    forall reg v, savedReg u f reg v -> exists k, getDwarf regs reg = Ok (k, v).
Proof.
  intros pre ts pids t p u f (H1 & H2 & H3 & H4) Hi Ht (Hu & Hf). exists (cells u f). split; [|apply cells_saved].
  unfold getCoreRegs. rewrite (user_regs pre ts H1 H2 pids H3 H4 t p u Hi Ht Hu). cbn [bind]. rewrite (fp_regs pre ts H1 H2 pids H3 H4 t p f Hi Ht Hf). reflexivity.
Qed.
Print Assumptions C161_registers.
(** A thread that is not in the core, or whose floating point state is missing or cut short, has none. *)
Theorem C161_unavailable : forall pre ts pids p, coreOf pre ts pids ->
  (~ In p pids \/ exists t, In t ts /\ pidIs (ndData (thStatus t)) p /\ noFp t) ->
  getCoreRegs (coreNotes pre ts) p = Throw.
Proof.
  intros pre ts pids p (H1 & H2 & H3 & H4) [N|(t & Hi & Ht & Hn)]; unfold getCoreRegs.
  - rewrite (regs_absent pre ts H1 H2 pids H3 p _ _ N). reflexivity.
  - rewrite (fp_missing pre ts H1 H2 pids H3 H4 t p Hi Ht Hn). destruct (getRegset (getRegs _ _ NT_PRSTATUS _) _) as [x| | |] eqn:E; [reflexivity|reflexivity| |]; exfalso;
    (assert (Hwt : wfThread t) by (rewrite Forall_forall in H2; now apply H2)); destruct Hwt as (_ & L & _);
    (assert (R : regsAre (ndData (thStatus t)) (ztake 216 (zdrop 112 (ndData (thStatus t))))) by
      (exists (ztake 112 (ndData (thStatus t))), (zdrop 216 (zdrop 112 (ndData (thStatus t)))); split; [now rewrite ztake_zdrop, ztake_zdrop|]; rewrite !zlen_ztake, ?zlen_zdrop by (rewrite ?zlen_zdrop by lia; lia); lia));
    rewrite (user_regs pre ts H1 H2 pids H3 H4 t p _ Hi Ht R) in E; discriminate.
Qed.
Print Assumptions C161_unavailable.
(** The threads listed for a core: each with the stack walked from its own saved registers, in id order,
    and each thread of the core that has both register sets - or its walk came to a frame whose frame pointer
    leads outside readable memory.  Partial: that exception (C89), and threads without floating point state (below). *)
Theorem C161_core_threads_partial : forall fuel p maxframes pre ts pids stacks, coreOf pre ts pids ->
  coreStacks fuel p maxframes (coreNotes pre ts) = Ok stacks ->
  NoDup (map fst stacks) /\
  (forall id l, In (id, l) stacks -> In id pids /\ exists regs, getCoreRegs (coreNotes pre ts) id = Ok regs /\ unwindStack fuel p maxframes regs = Ok (l, false)) /\
  (forall t id u f, In t ts -> pidIs (ndData (thStatus t)) id -> saved t u f ->
     exists regs, (forall reg v, savedReg u f reg v -> exists k, getDwarf regs reg = Ok (k, v)) /\
     ((exists l, unwindStack fuel p maxframes regs = Ok (l, false) /\ In (id, l) stacks) \/
      (exists l x, unwindStack fuel p maxframes regs = Ok (l ++ [x], true) /\ fRegs x U_rip <> 0 /\ fRegs x U_rbp <> 0 /\
        (unreadable (pMem p) (fRegs x U_rbp) \/ unreadable (pMem p) (u64 (fRegs x U_rbp + 8)))))).
Proof.
  intros fuel p mf pre ts pids stacks C H. pose proof C as (H1 & H2 & H3 & H4). unfold coreStacks in H. destruct (lwpIndex (coreNotes pre ts) 0 []) as [m| | |] eqn:E; cbn [bind] in H; try discriminate.
  destruct (keys_spec pre ts H1 H2 pids H3 m E) as (Ks & Ki). destruct (C89_threads_partial _ _ _ _ _ H) as (A & B & D). rewrite map_map in D. cbn [fst] in D. rewrite map_id in D. split; [exact A|]. split.
  - intros id l I. destruct (B id l I) as (regs & J & K). apply in_map_iff in J as (x & Q & J). destruct (getCoreRegs (coreNotes pre ts) x) as [r| | |] eqn:G; inversion Q; subst. split; [now apply Ki|]. exists regs. auto.
  - intros t id u f Hi Ht Hs. destruct (C161_registers pre ts pids t id u f C Hi Ht Hs) as (regs & G & R). exists regs. split; [exact R|]. apply (D (sorted_nodup _ Ks)). apply in_map_iff. exists id. rewrite G. split; [reflexivity|].
    apply Ki. clear -H3 Hi Ht. induction H3 as [|a b l l' P F IH]; [destruct Hi|]. destruct Hi as [->|Hi]; [left; apply pid_value in P, Ht; congruence|right; now apply IH].
Qed.
Print Assumptions C161_core_threads_partial.
(** Two threads; the second has no NT_FPREGSET note. *)
Definition c161Status (pid : Z) (u : list Z) : ndesc := mkNd CORE 1 (repeat 0 32 ++ leBytes 4 pid ++ repeat 0 76 ++ u ++ repeat 0 8).
Definition c161User (rbp rip : Z) : list Z := repeat 0 32 ++ leBytes 8 rbp ++ repeat 0 88 ++ leBytes 8 rip ++ repeat 0 80.
Definition c161F : list Z := repeat 0 160 ++ leBytes 16 77 ++ repeat 0 336.
Definition c161a : thread := mkTh (c161Status 7 (c161User 0 65800)) [mkNd CORE 3 [1]; mkNd CORE 2 c161F].
Definition c161b : thread := mkTh (c161Status 9 (c161User 0 65800)) [mkNd CORE 514 [1]].
Definition c161p : process := mkProc (fun _ => None) (fun _ => None) (fun _ => true).
Example C161_nonvacuous :
  coreOf [] [c161a; c161b] [7; 9] /\ saved c161a (c161User 0 65800) c161F /\ noFp c161b /\
  savedReg (c161User 0 65800) c161F 16 65800 /\ savedReg (c161User 0 65800) c161F 17 77.
Proof.
  split; [|split; [|split; [|split]]].
  - split; [constructor|]. split; [|split; [|repeat constructor; cbn; intuition lia]].
    + repeat constructor; cbn; try (intros [_ X]; discriminate X); try discriminate.
    + constructor; [|constructor; [|constructor]]; eexists (repeat 0 32), _; (split; [reflexivity|split; [reflexivity|lia]]).
  - split; [exists (repeat 0 32 ++ leBytes 4 7 ++ repeat 0 76), (repeat 0 8); repeat split; vm_compute; reflexivity|].
    exists (mkNd CORE 2 c161F), []. split; [apply FLater; [cbn; lia|apply FLater; [cbn; lia|now apply FHere]]|]. split; [now rewrite app_nil_r|reflexivity].
  - intros n F. inversion F as [? ? E|? ? ? _ F2]; subst; [cbn in E; lia|]. inversion F2 as [? ? E|? ? ? _ F3]; subst; [cbn in E; lia|inversion F3].
  - apply (SGeneral _ _ _ _ 128); [cbn; tauto|]. exists (ztake 128 (c161User 0 65800)), (repeat 0 80). repeat split; try lia; vm_compute; reflexivity.
  - apply (SFloat _ _ _ _ 160 16); [exact (FXmm 0 ltac:(lia))|]. exists (repeat 0 160), (repeat 0 336). repeat split; try lia; vm_compute; reflexivity.
Qed.
(** Refuted: a thread whose general registers are all in the core is not listed, because its floating point
    registers, which walking its stack does not use, are not. *)
Theorem C161_no_fp_refuted :
  coreOf [] [c161a; c161b] [7; 9] /\ regsAre (ndData (thStatus c161b)) (c161User 0 65800) /\
  match coreStacks 10 c161p 9 (coreNotes [] [c161a; c161b]) with Ok l => map fst l = [7] | _ => False end.
Proof. split; [exact (proj1 C161_nonvacuous)|]. split; [exists (repeat 0 32 ++ leBytes 4 9 ++ repeat 0 76), (repeat 0 8); repeat split; vm_compute; reflexivity|]. vm_compute. reflexivity. Qed.
Print Assumptions C161_no_fp_refuted.

(** ** C162: what libthread_db is told about a core *)
(** A request for memory is answered with PS_OK and exactly the bytes those addresses hold, if the process
    had them all, and with PS_ERR if not.  Partial: layouts as in C35. *)
Theorem C162_read_partial : forall core objs a len,
  (forall c, core = Some c -> loadsOk (imLoads c) /\ complete c) -> objsOk objs ->
  (forall k o, In (k, Some o) objs -> complete o) ->
  prefixDumped core objs -> prefixMapped core objs -> basesDumped core objs ->
  0 <= a -> 0 <= len < 2 ^ 64 -> a + len <= 2 ^ 64 ->
  exists n, forall fuel, (n <= fuel)%nat ->
    ((forall x, a <= x < a + len -> inMem core objs x) ->
       exists bs, psRead (coreRead fuel core objs) a len = Ok (PsOk bs) /\ zlen bs = len /\
         forall i b, znth i bs = Some b -> holds core objs (a + i) b) /\
    ((exists x, a <= x < a + len /\ ~ inMem core objs x) -> psRead (coreRead fuel core objs) a len = Ok PsErr).
Proof.
  intros core objs a len Hc Ho Hco G1 G2 G3 Ha Hl Ht.
  destruct (C35_core_read_exact_partial core objs a len Hc Ho Hco G1 G2 G3 Ha Hl Ht) as (n & R). exists n. intros fuel Hf.
  destruct (R fuel Hf) as (bs & E & L & B & St). assert (U : u64 (len * 1) = len) by (unfold u64, W64; rewrite Z.mul_1_r; apply Z.mod_small; exact Hl).
  unfold psRead, readObj. rewrite U, E. cbn [bind]. destruct (len =? 0) eqn:Z0.
  - split; [|intros (x & X & _); lia]. intros _. exists []. split; [reflexivity|]. change (zlen (@nil Z)) with 0. split; [lia|]. intros i b Hb. cbn [znth] in Hb. discriminate.
  - split.
    + intros M. assert (Q : zlen bs = len). { destruct (Z.lt_ge_cases (zlen bs) len) as [X|X]; [|lia]. exfalso. apply (St X). apply M. pose proof (zlen_nonneg bs). lia. }
      exists bs. rewrite Q, Z.eqb_refl. auto.
    + intros (x & X & N). destruct (zlen bs =? len) eqn:Q; [|reflexivity]. exfalso. apply N.
      destruct (znth_lt (x - a) bs ltac:(lia)) as (b & Eb). apply B in Eb. replace (a + (x - a)) with x in Eb by lia.
      exact (holds_inMem core objs x b (fun c e => proj1 (Hc c e)) Ho Eb).
Qed.
Print Assumptions C162_read_partial.
(** A request for a thread's general registers: exactly those, or PS_ERR if there is no such thread. *)
Theorem C162_registers : forall pre ts pids p, coreOf pre ts pids ->
  (forall t u, In t ts -> pidIs (ndData (thStatus t)) p -> regsAre (ndData (thStatus t)) u -> psRegs (coreNotes pre ts) p = Ok (PsOk u)) /\
  (~ In p pids -> psRegs (coreNotes pre ts) p = Ok PsErr).
Proof.
  intros pre ts pids p (H1 & H2 & H3 & H4). split.
  - intros t u Hi Ht Hu. unfold psRegs. now rewrite (user_regs pre ts H1 H2 pids H3 H4 t p u Hi Ht Hu).
  - intros N. unfold psRegs. now rewrite (regs_absent pre ts H1 H2 pids H3 p _ _ N).
Qed.
Print Assumptions C162_registers.
(** The process id is that of the (last) NT_PRPSINFO note.  Partial: a core without one. *)
Definition isInfo (n : ndesc) : Prop := ndName n = CORE /\ ndType n = 3.
Theorem C162_pid_partial : forall a n b u pid v, isInfo n -> Forall (fun x => ~ isInfo x) b ->
  Forall (fun x => isInfo x -> 136 <= zlen (ndData x)) a ->
  ndData n = u ++ leBytes 4 pid ++ v -> zlen u = 24 -> 0 <= pid < 2 ^ 31 -> 136 <= zlen (ndData n) ->
  corePid (a ++ n :: b) = Ok pid.
Proof.
  intros a n b u pid v Hn Hb Hal Ed Lu Hp L. unfold corePid.
  assert (Q : forall n, (beq (ndName n) CORE && (ndType n =? 3)) = true <-> isInfo n) by (intros; unfold isInfo; rewrite andb_true_iff, beq_spec, Z.eqb_eq; reflexivity).
  assert (NB : forall cur, prpsinfoOf b cur = Ok cur).
  { clear -Hb Q. induction Hb as [|x l N F IH]; intros cur; [reflexivity|]. cbn [prpsinfoOf]. destruct (beq _ _ && _) eqn:E; [exfalso; now apply N, Q|apply IH]. }
  assert (NA : forall cur, prpsinfoOf (a ++ n :: b) cur = Ok (ztake 136 (ndData n))).
  { induction Hal as [|x l N F IH]; intros cur; cbn [app prpsinfoOf].
    - rewrite (proj2 (Q n) Hn). replace (_ <? 136) with false by lia. apply NB.
    - destruct (beq (ndName x) CORE && (ndType x =? 3)) eqn:E; [|apply IH]. apply Q, N in E. replace (_ <? 136) with false by lia. apply IH. }
  rewrite NA. cbn [bind]. f_equal.
  assert (LV : zlen (leBytes 4 pid) = 4) by reflexivity. rewrite Ed in *. rewrite !zlen_app in L.
  assert (T : ztake 136 (u ++ leBytes 4 pid ++ v) = u ++ leBytes 4 pid ++ ztake 108 v).
  { rewrite (ztake_split (u ++ leBytes 4 pid ++ v) (zlen u) 136) by lia. rewrite ztake_app_zlen, zdrop_app_zlen. f_equal.
    rewrite (ztake_split (leBytes 4 pid ++ v) (zlen (leBytes 4 pid)) (136 - zlen u)) by lia. rewrite ztake_app_zlen, zdrop_app_zlen. f_equal. f_equal. lia. }
  rewrite T. rewrite <- Lu, zdrop_app_zlen. rewrite <- LV at 1. rewrite ztake_app_zlen, leValue_leBytes by (change (256 ^ Z.of_nat 4) with (2 ^ 32); lia).
  unfold s32, sgn. change (W32 / 2) with (2 ^ 31). unfold W32. change (2 ^ 31) with 2147483648 in *. change (2 ^ 32) with 4294967296. rewrite Z.mod_small by lia. replace (pid <? 2147483648) with true by lia. reflexivity.
Qed.
Print Assumptions C162_pid_partial.
(** Refuted: without that note every core is process 0. *)
Theorem C162_no_prpsinfo_refuted : forall pre ts, Forall (fun n => ~ isInfo n) (coreNotes pre ts) -> corePid (coreNotes pre ts) = Ok 0.
Proof.
  intros pre ts H. unfold corePid.
  assert (Q : forall n, (beq (ndName n) CORE && (ndType n =? 3)) = true <-> isInfo n) by (intros; unfold isInfo; rewrite andb_true_iff, beq_spec, Z.eqb_eq; reflexivity).
  assert (NB : forall b, Forall (fun n => ~ isInfo n) b -> forall cur, prpsinfoOf b cur = Ok cur).
  { clear -Q. intros b Hb. induction Hb as [|x l N F IH]; intros cur; [reflexivity|]. cbn [prpsinfoOf]. destruct (beq _ _ && _) eqn:E; [exfalso; now apply N, Q|apply IH]. }
  rewrite (NB _ H). reflexivity.
Qed.
Print Assumptions C162_no_prpsinfo_refuted.
Example C162_nonvacuous :
  psRead (coreRead 10 (Some (mkImg [1; 2; 3; 4; 5; 6; 7; 8] [mkPh 1 2 4096 6 6])) []) 4097 3 = Ok (PsOk [4; 5; 6]) /\
  psRead (coreRead 10 (Some (mkImg [1; 2; 3; 4; 5; 6; 7; 8] [mkPh 1 2 4096 6 6])) []) 4097 8 = Ok PsErr /\
  corePid [mkNd CORE 3 (repeat 0 24 ++ leBytes 4 77 ++ repeat 0 108)] = Ok 77.
Proof. repeat split; vm_compute; reflexivity. Qed.

(** ** C163: the thread on each stack *)
(** Whatever libthread_db lists, and whichever of its threads it fails to describe: no stack is added, lost or
    changed; each LWP's stack bears the (last) thread said to run on that LWP, none if there is none;
    and the threads on no listed LWP are exactly those warned about. *)
Theorem C163_threads_on_stacks : forall (info frame : Type) (lid tid : info -> Z) ts (m : list (Z * lwpRec info frame)),
  NoDup (map fst m) ->
  exists m' l, annotate lid tid ts m = (m', map (fun i => (tid i, lid i)) l) /\ strays lid (map fst m) ts l /\
  Forall2 (fun e e' => fst e' = fst e /\ lwStack (snd e') = lwStack (snd e) /\ lwName (snd e') = lwName (snd e) /\
    ((exists i, lastOn lid ts (fst e) i /\ lwInfo (snd e') = Some i) \/
     ((forall i, In (Some i) ts -> lid i <> fst e) /\ lwInfo (snd e') = lwInfo (snd e)))) m m'.
Proof. intros info frame lid tid ts m ND. exact (annotate_spec lid tid ts m ND). Qed.
Print Assumptions C163_threads_on_stacks.
Example C163_nonvacuous :
  let m := [(7, mkLwp [1] None None); (9, mkLwp [2] (Some [65]) None); (11, mkLwp [3] None None)] in
  NoDup (map fst m) /\
  annotate (fst : Z * Z -> Z) snd [Some (9, 100); None; Some (8, 101); Some (7, 102)] m =
    ([(7, mkLwp [1] None (Some (7, 102))); (9, mkLwp [2] (Some [65]) (Some (9, 100))); (11, mkLwp [3] None None)], [(101, 8)]).
Proof. split; [repeat constructor; cbn; intuition lia|reflexivity]. Qed.

(** ** C164: task names *)
(** The name the kernel shows, whatever bytes it is made of - parentheses and spaces included - but a newline. *)
Theorem C164_task_name_partial : forall id name rest,
  ~ In 10 (id ++ name ++ rest) -> ~ In 40 id -> ~ In 41 rest -> zlen name < 2 ^ 64 ->
  getTaskName (Some (statText id name rest)) = Ok (Some name).
Proof.
  intros id name rest N10 N40 N41 Lf. unfold getTaskName, statText.
  assert (A : firstLine (id ++ [32; 40] ++ name ++ [41; 32] ++ rest ++ [10]) = (id ++ [32]) ++ 40 :: name ++ 41 :: 32 :: rest).
  { assert (E : id ++ [32; 40] ++ name ++ [41; 32] ++ rest ++ [10] = ((id ++ [32]) ++ 40 :: name ++ 41 :: 32 :: rest) ++ 10 :: []) by (rewrite <- !app_assoc; cbn [app]; repeat (f_equal; rewrite <- ?app_assoc; cbn [app])).
    rewrite E. apply firstLine_app. intros I. apply N10. rewrite !in_app_iff in *. cbn [In] in *. rewrite in_app_iff in I. cbn [In] in I. intuition discriminate. }
  rewrite A. rewrite findChar_app by (rewrite in_app_iff; cbn [In]; intuition discriminate).
  replace ((id ++ [32]) ++ 40 :: name ++ 41 :: 32 :: rest) with (((id ++ [32]) ++ 40 :: name) ++ 41 :: 32 :: rest) at 1 by (rewrite <- !app_assoc; reflexivity).
  rewrite rfindChar_app by (cbn [In]; intuition discriminate).
  set (L := zlen (id ++ [32])). assert (E2 : zlen ((id ++ [32]) ++ 40 :: name) = L + (zlen name + 1)) by (rewrite zlen_app, zlen_cons; reflexivity).
  pose proof (zlen_nonneg name). pose proof (zlen_nonneg (id ++ [32])) as HL. fold L in HL. rewrite E2. unfold substr.
  assert (GT : (0 + L + 1 >? zlen ((id ++ [32]) ++ 40 :: name ++ 41 :: 32 :: rest)) = false) by (rewrite zlen_app, zlen_cons; pose proof (zlen_nonneg (name ++ 41 :: 32 :: rest)); fold L; lia). rewrite GT.
  cbn [bind]. do 2 f_equal. replace (0 + L + 1) with (zlen ((id ++ [32]) ++ [40])) by (rewrite zlen_app; reflexivity).
  replace ((id ++ [32]) ++ 40 :: name ++ 41 :: 32 :: rest) with (((id ++ [32]) ++ [40]) ++ name ++ 41 :: 32 :: rest) by (rewrite <- !app_assoc; reflexivity).
  rewrite zdrop_app_zlen. replace (0 + (L + (zlen name + 1)) - (0 + L) - 1) with (zlen name) by lia. unfold u64, W64. rewrite Z.mod_small by lia. apply ztake_app_zlen.
Qed.
Print Assumptions C164_task_name_partial.
(** No contents of the file make it fail. *)
Theorem C164_total : forall stat, exists o, getTaskName stat = Ok o.
Proof.
  intros [s|]; [|eexists; reflexivity]. unfold getTaskName. destruct (findChar 40 (firstLine s) 0) as [st|] eqn:E; [|eexists; reflexivity].
  destruct (rfindChar 41 (firstLine s) 0 None); [|eexists; reflexivity]. apply findChar_range in E. unfold substr. replace (st + 1 >? _) with false by lia. eexists. reflexivity.
Qed.
Print Assumptions C164_total.
(** Refuted: a name with a newline in it is never shown as it is. *)
Theorem C164_newline_refuted : forall id name rest, In 10 name -> getTaskName (Some (statText id name rest)) <> Ok (Some name).
Proof.
  intros id name rest I E. unfold getTaskName in E. set (line := firstLine _) in E. destruct (findChar 40 line 0) as [st|]; [|discriminate]. destruct (rfindChar 41 line 0 None) as [en|]; [|discriminate].
  unfold substr in E. destruct (_ >? _); cbn [bind] in E; [discriminate|]. injection E as E. apply (firstLine_no (statText id name rest)). fold line. rewrite <- E in I.
  rewrite <- (ztake_zdrop (st + 1) line), <- (ztake_zdrop (u64 (en - st - 1)) (zdrop (st + 1) line)). apply in_or_app. right. apply in_or_app. left. exact I.
Qed.
Print Assumptions C164_newline_refuted.
Example C164_nonvacuous :
  getTaskName (Some (statText [52; 50] [97; 41; 32; 40; 98] [83; 32; 49])) = Ok (Some [97; 41; 32; 40; 98]) /\
  getTaskName (Some (statText [52; 50] [97; 10; 98] [83; 32; 49])) = Ok None /\
  getTaskName (Some (statText [52; 50] [97; 41; 10; 98] [83; 32; 49])) = Ok (Some [97]).
Proof. repeat split; reflexivity. Qed.
