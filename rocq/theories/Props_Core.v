(** Properties C35-C37 and C64: memory, threads and mappings of a core file. *)
From Coq Require Import Sorting.Sorted.
From Verif Require Import Base CfiSpec ElfHash ElfHashProofs ElfObj ElfObjProofs Core CoreSpec CoreProofs.

(** ** C35: memory *)
(** For every layout of well-formed segments: a read terminates; every byte it stores comes from a core
    segment or a loaded object that has that address in its file, or is a zero at an address belonging to
    the process; no more bytes are stored than the buffer has room for; and it ends early only at an address that
    neither the core nor (except at its load address itself) an object maps.  It throws only if a file is
    shorter than its segments say. *)
Theorem C35_core_read_sourced : forall core objs a size,
  (forall c, core = Some c -> loadsOk (imLoads c)) -> objsOk objs ->
  0 <= a -> 0 <= size < 2 ^ 64 -> a + size <= 2 ^ 64 ->
  exists n, forall fuel, (n <= fuel)%nat ->
  match coreRead fuel core objs a size with
  | Ok bs => (forall i b, znth i bs = Some b -> sourced core objs (a + i) b) /\ zlen bs <= size /\
       (zlen bs < size -> ~ inCore core (a + zlen bs) /\
          forall k o h, In (k, Some o) objs -> In h (imLoads o) -> maps k h (a + zlen bs) -> k = a + zlen bs)
  | Throw => truncated core objs
  | _ => False
  end.
Proof. intros core objs a size Hc Ho Ha Hs Ht. exists (S (Z.to_nat size)). intros fuel Hf. apply (read_sourced core objs Hc Ho fuel a size); auto; lia. Qed.

(** For layouts in which the sources do not interleave (see CoreSpec), every byte is the one the address holds:
    the dumped one, else the mapped file's, else zero; and the read stops only at memory the process
    did not have.  Missing for the full property: the other layouts, where it is false (below). *)
Theorem C35_core_read_exact_partial : forall core objs a size,
  (forall c, core = Some c -> loadsOk (imLoads c) /\ complete c) -> objsOk objs ->
  (forall k o, In (k, Some o) objs -> complete o) ->
  prefixDumped core objs -> prefixMapped core objs -> basesDumped core objs ->
  0 <= a -> 0 <= size < 2 ^ 64 -> a + size <= 2 ^ 64 ->
  exists n, forall fuel, (n <= fuel)%nat ->
  exists bs, coreRead fuel core objs a size = Ok bs /\ zlen bs <= size /\
    (forall i b, znth i bs = Some b -> holds core objs (a + i) b) /\
    (zlen bs < size -> ~ inMem core objs (a + zlen bs)).
Proof.
  intros core objs a size Hc Ho Hco G1 G2 G3 Ha Hs Ht. exists (S (Z.to_nat size)). intros fuel Hf.
  pose proof (read_exact core objs (fun c E => proj1 (Hc c E)) Ho fuel a size G1 G2 G3 Ha Hs Ht ltac:(lia)) as R.
  destruct (coreRead fuel core objs a size) as [bs| | |]; try contradiction.
  - exists bs. destruct R as (A & B & C). auto.
  - exfalso. destruct R as [(c & E & N)|(k & o & Hi & N)]; [apply N, (Hc c E)|apply N, (Hco k o Hi)].
Qed.

(** What an address holds is unique, so the statement above determines the result. *)
Theorem C35_holds_unique : forall core objs x b b', (forall c, core = Some c -> loadsOk (imLoads c)) -> objsOk objs ->
  holds core objs x b -> holds core objs x b' -> b = b'.
Proof.
  intros core objs x b b' Hc Ho.
  assert (D : forall b, dumpedByte core x b -> dumped core x). { intros ? (c & h & E & Hi & F & _). now exists c, h. }
  assert (O : forall b, objectByte objs x b -> inObjectFile objs x). { intros ? (k & o & h & Hi & Hh & F & _). now exists k, o, h. }
  intros [(c & h & E & Hi & F & B)|N (k & o & h & Hi & Hh & F & B)|N1 N2 _ ->] [(c' & h' & E' & Hi' & F' & B')|N' (k' & o' & h' & Hi' & Hh' & F' & B')|N1' N2' _ ->]; [| | | | | | | |reflexivity].
  - assert (c' = c) by congruence. subst c'. assert (h = h').
    { apply (core_unique core Hc c h h' x E Hi Hi'); (apply inFile_maps; [|assumption]); eapply loadsOk_in; try eassumption; now apply Hc. }
    subst. congruence.
  - exfalso. apply N'. exists c, h. auto.
  - exfalso. apply N1'. exists c, h. auto.
  - exfalso. apply N. exists c', h'. auto.
  - assert (H : k = k' /\ o = o' /\ h = h').
    { destruct (objs_in objs Ho k o Hi) as (_ & L & _). destruct (objs_in objs Ho k' o' Hi') as (_ & L' & _).
      apply (objs_unique objs Ho k o h k' o' h' x Hi Hi' Hh Hh'); (apply inFile_maps; [|assumption]); [exact (loadsOk_in _ _ L Hh)|exact (loadsOk_in _ _ L' Hh')]. }
    destruct H as (-> & -> & ->). congruence.
  - exfalso. apply N2'. exists k, o, h. auto.
  - exfalso. apply N1. exists c', h'. auto.
  - exfalso. apply N2. exists k', o', h'. auto.
Qed.

(** A concrete layout: an object loaded at 4096, its headers dumped (2 bytes), its text not; and a stack. *)
Definition exObj : image := mkImg [1; 2; 3; 4; 5; 6; 7; 8] [mkPh 1 0 0 6 7].
Definition exCore : image := mkImg [0; 0; 11; 12; 91; 92; 93] [mkPh 1 2 4096 2 8; mkPh 1 4 8192 3 3].
Definition exObjs : objmap := [(4096, Some exObj)].
Lemma exCore_ok : forall c, Some exCore = Some c -> loadsOk (imLoads c) /\ complete c.
Proof.
  intros c E. injection E as <-. unfold complete, loadsOk, loadOk, segOk, exCore. cbn [imLoads imFile].
  repeat (split || constructor); cbn [p_vaddr p_memsz p_filesz p_offset]; try (vm_compute; congruence); lia.
Qed.
Lemma exObjs_ok : objsOk exObjs.
Proof.
  unfold objsOk, exObjs. split; [|repeat constructor]. constructor; [|constructor]. split; [cbn; lia|]. intros o E. injection E as <-.
  split; [|split; [discriminate|vm_compute; congruence]]. unfold loadsOk, loadOk, segOk, exObj. cbn [imLoads].
  repeat (split || constructor); cbn [p_vaddr p_memsz p_filesz p_offset]; try (vm_compute; congruence); lia.
Qed.
Ltac single H := cbn in H; destruct H as [H|[]]; try (injection H as <- <-); try subst.
Example C35_core_read_exact_case :
  prefixDumped (Some exCore) exObjs /\ prefixMapped (Some exCore) exObjs /\ basesDumped (Some exCore) exObjs /\
  (forall k o, In (k, Some o) exObjs -> complete o) /\
  coreRead 100 (Some exCore) exObjs 4096 20 = Ok [11; 12; 3; 4; 5; 6; 0; 0] /\
  coreRead 100 (Some exCore) exObjs 8193 20 = Ok [92; 93] /\ coreRead 100 (Some exCore) exObjs 5000 4 = Ok [].
Proof.
  split; [|split; [|split; [|split]]]; [| | | |split; [|split]; vm_compute; reflexivity].
  - intros k o h x y Hi Hh Mx My L (c & g & E & Hg & F). single Hi. single Hh. injection E as <-.
    exists exCore, (mkPh 1 2 4096 2 8). split; [reflexivity|]. split; [now left|]. cbn in Hg. unfold maps, covers, inFile in *. destruct Hg as [<-|[<-|[]]]; cbn in *; lia.
  - intros c g x y k o h E Hg Mx Nx My L Hi Hh F. injection E as <-. single Hi. single Hh. cbn in Hg. unfold maps, covers, inFile in *. destruct Hg as [<-|[<-|[]]]; cbn in *; lia.
  - intros k o h Hi Hh M. single Hi. single Hh. exists exCore, (mkPh 1 2 4096 2 8). split; [reflexivity|]. split; [now left|]. unfold inFile. cbn. lia.
  - intros k o Hi. single Hi. unfold complete. repeat constructor. vm_compute. congruence.
Qed.

(** The full property is false.  (1) Where a dumped part of an object's segment follows a part that was not
    dumped, a read crossing the boundary takes the object file's bytes over the dumped ones. *)
Definition badCore1 : image := mkImg [1; 90; 91] [mkPh 1 0 4096 1 4; mkPh 1 1 4100 2 2].
Theorem C35_core_read_prefers_core_refuted :
  coreRead 100 (Some badCore1) exObjs 4098 3 = Ok [3; 4; 5] /\
  coreRead 100 (Some badCore1) exObjs 4100 1 = Ok [90] /\
  holds (Some badCore1) exObjs 4100 90 /\ ~ holds (Some badCore1) exObjs 4100 5.
Proof.
  assert (D : dumpedByte (Some badCore1) 4100 90).
  { exists badCore1, (mkPh 1 1 4100 2 2). split; [reflexivity|]. split; [right; now left|]. split; [unfold inFile; cbn; lia|reflexivity]. }
  split; [reflexivity|]. split; [reflexivity|]. split; [now constructor|].
  assert (U : dumped (Some badCore1) 4100). { destruct D as (c & h & E & Hi & F & _). now exists c, h. }
  intros [(c & h & E & Hi & F & B)|N|N]; try contradiction. injection E as <-. cbn in Hi. unfold inFile in F. destruct Hi as [<-|[<-|[]]]; cbn in *; try lia. discriminate.
Qed.
(** (2) Memory that was not dumped is read as zeros, up to the end of its core segment, when the read starts
    before the mapped file's part or at an object's load address. *)
Definition badCore2 : image := mkImg [] [mkPh 1 0 4096 0 8].
Theorem C35_core_read_zeroes_file_refuted :
  coreRead 100 (Some badCore2) exObjs 4096 6 = Ok [0; 0; 0; 0; 0; 0] /\
  coreRead 100 (Some badCore2) exObjs 4097 5 = Ok [2; 3; 4; 5; 6] /\
  holds (Some badCore2) exObjs 4096 1 /\ holds (Some badCore2) exObjs 4097 2.
Proof.
  split; [reflexivity|]. split; [reflexivity|].
  assert (N : forall x, ~ dumped (Some badCore2) x). { intros x (c & h & E & Hi & F). injection E as <-. cbn in Hi. destruct Hi as [<-|[]]. unfold inFile in F. cbn in F. lia. }
  split; (apply HObj; [apply N|]); exists 4096, exObj, (mkPh 1 0 0 6 7); (split; [now left|]); (split; [now left|]); (split; [unfold inFile; cbn; lia|reflexivity]).
Qed.
(** (3) A malformed object (a PT_LOAD header with address and size zero) makes a read run for ever. *)
Definition badObj3 : image := mkImg [1; 2; 3; 4] [mkPh 1 0 0 0 0; mkPh 1 0 16 4 4].
Theorem C35_core_read_terminates_refuted : forall fuel, coreRead fuel None [(4096, Some badObj3)] 4112 4 = OutOfFuel.
Proof.
  induction fuel as [|f IH]; [reflexivity|]. cbn [coreRead]. change (4 =? 0) with false. cbv iota.
  assert (E : coreRound None [(4096, Some badObj3)] 4112 4 = Ok ([], true)) by (vm_compute; reflexivity). rewrite E. cbn [bind].
  change (u64 (4112 + zlen (@nil Z))) with 4112. change (u64 (4 - zlen (@nil Z))) with 4. now rewrite IH.
Qed.

(** ** C36: registers *)
(** For every sequence of notes and any threads: asked for a thread that has a NT_PRSTATUS note, the result is made
    from that thread's own notes - its general registers, or the first of its notes of the requested type,
    cut to the caller's size - and is empty if it has no such note. *)
Theorem C36_get_regs_own_thread : forall pre ts1 t ts2 p size r code,
  Forall (fun n => ~ isStatus n) pre -> Forall wfThread (ts1 ++ t :: ts2) ->
  pidIs (ndData (thStatus t)) p -> 0 <= size ->
  (forall t', In t' ts2 -> exists p', pidIs (ndData (thStatus t')) p' /\ p' <> p) ->
  (regsAre (ndData (thStatus t)) r -> getRegs (coreNotes pre (ts1 ++ t :: ts2)) p 1 size = Ok (ztake size r)) /\
  (code <> 1 -> forall n, firstOfType code (threadNotes t) n -> getRegs (coreNotes pre (ts1 ++ t :: ts2)) p code size = Ok (ztake size (ndData n))) /\
  (code <> 1 -> (forall n, ~ firstOfType code (threadNotes t) n) -> getRegs (coreNotes pre (ts1 ++ t :: ts2)) p code size = Ok []).
Proof.
  intros pre ts1 t ts2 p size r code Hpre Hw Hp Hs Hd.
  assert (Hstart : forall code, getRegs (coreNotes pre (ts1 ++ t :: ts2)) p code size = regsFrom (threadNotes t ++ flat_map threadNotes ts2) code size).
  { intros c. apply getRegs_start; auto.
    - intros t' Hi Hp'. destruct (Hd t' Hi) as (p' & A & Ne). apply pid_value in A, Hp'. congruence.
    - intros t' Hi. destruct (Hd t' Hi) as (p' & A & _). eauto. }
  rewrite !Hstart. assert (Hwt : wfThread t). { rewrite Forall_forall in Hw. apply Hw. apply in_app_iff. right. now left. }
  destruct Hwt as ((Hn & Ht) & Hlen & Hrest).
  assert (Hmin : forall d : list Z, ztake (Z.min size (zlen d)) d = ztake size d).
  { intros d. destruct (Z_le_dec size (zlen d)); [now rewrite Z.min_l by lia|]. rewrite Z.min_r by lia. rewrite !ztake_all by lia. reflexivity. }
  split; [|split].
  - intros R. apply regs_value in R as [R L]. unfold threadNotes. cbn [app regsFrom]. rewrite Ht. change (1 =? 1) with true. change (1 =? NT_PRSTATUS) with true. cbv iota.
    replace (_ <? prSize) with false by (unfold prSize; lia). rewrite R. rewrite <- (Hmin r), L. reflexivity.
  - intros Hc n F. rewrite (regsFrom_type code size Hc _ n _ F Hrest). now rewrite Hmin.
  - intros Hc N. apply regsFrom_none; auto; [discriminate|]. destruct ts2 as [|t2 ts2]; [exact I|]. cbn.
    rewrite Forall_forall in Hw. apply (Hw t2). apply in_app_iff. right. right. now left.
Qed.
(** A thread the core does not know has no registers. *)
Theorem C36_get_regs_unknown_thread : forall pre ts p code size,
  Forall (fun n => ~ isStatus n) pre -> Forall wfThread ts ->
  (forall t, In t ts -> exists p', pidIs (ndData (thStatus t)) p' /\ p' <> p) ->
  getRegs (coreNotes pre ts) p code size = Ok [].
Proof.
  intros pre ts p code size Hpre Hw Hd. unfold getRegs, coreNotes. rewrite lwpIndex_none by exact Hpre. rewrite lwpIndex_ts by exact Hw. cbn [bind app].
  rewrite lwpFind_absent; [reflexivity|]. rewrite in_map_iff. intros (t & E & Hi). destruct (Hd t Hi) as (p' & A & Ne). apply pid_value in A. congruence.
Qed.
(** Two threads, each with a NT_PRSTATUS and a NT_FPREGSET (2) note. *)
Definition exStatus (pid v : Z) : ndesc := mkNd CORE 1 (repeat 0 32 ++ leBytes 4 pid ++ repeat 0 76 ++ repeat v 216 ++ repeat 0 8).
Definition exTh (pid v : Z) : thread := mkTh (exStatus pid v) [mkNd CORE 2 [v; v + 1]].
Lemma exTh_wf pid v : wfThread (exTh pid v).
Proof.
  split; [now split|]. split; [|constructor; [|constructor]; intros [_ H]; discriminate].
  cbn [exTh thStatus ndData exStatus]. rewrite !zlen_app. unfold zlen. rewrite !repeat_length. cbn [leBytes length]. lia.
Qed.
Lemma exTh_pid pid v : 0 <= pid < 2 ^ 31 -> pidIs (ndData (thStatus (exTh pid v))) pid.
Proof. intros H. exists (repeat 0 32), (repeat 0 76 ++ repeat v 216 ++ repeat 0 8). auto. Qed.
Lemma exTh_regs pid v : regsAre (ndData (thStatus (exTh pid v))) (repeat v 216).
Proof.
  exists (repeat 0 32 ++ leBytes 4 pid ++ repeat 0 76), (repeat 0 8). cbn [exTh thStatus ndData exStatus]. split; [now rewrite <- !app_assoc|].
  split; [|unfold zlen; now rewrite repeat_length]. rewrite !zlen_app. unfold zlen. rewrite !repeat_length. reflexivity.
Qed.
Example C36_get_regs_own_thread_case :
  let ns := coreNotes [mkNd CORE 3 [9]] [exTh 7 1; exTh 8 2; exTh 9 3] in
  getRegs ns 8 1 4 = Ok [2; 2; 2; 2] /\ getRegs ns 8 2 10 = Ok [2; 3] /\ getRegs ns 8 514 10 = Ok [] /\ getRegs ns 10 1 10 = Ok [].
Proof.
  cbv zeta. assert (W : Forall wfThread [exTh 7 1; exTh 8 2; exTh 9 3]) by (repeat (constructor; [apply exTh_wf|]); constructor).
  assert (Pre : Forall (fun n => ~ isStatus n) [mkNd CORE 3 [9]]) by (constructor; [intros [_ H]; discriminate|constructor]).
  assert (D : forall t', In t' [exTh 9 3] -> exists p', pidIs (ndData (thStatus t')) p' /\ p' <> 8).
  { intros t' [<-|[]]. exists 9. split; [apply exTh_pid; lia|discriminate]. }
  pose proof (fun size r code Hs => C36_get_regs_own_thread [mkNd CORE 3 [9]] [exTh 7 1] (exTh 8 2) [exTh 9 3] 8 size r code Pre W (exTh_pid 8 2 ltac:(lia)) Hs D) as G.
  split; [|split; [|split]].
  - destruct (G 4 (repeat 2 216) 1 ltac:(lia)) as (A & _). cbn [app] in A. rewrite A by apply exTh_regs. reflexivity.
  - destruct (G 10 [] 2 ltac:(lia)) as (_ & A & _). cbn [app] in A. rewrite (A ltac:(lia) (mkNd CORE 2 [2; 3])); [reflexivity|].
    apply FLater; [cbn; lia|]. now apply FHere.
  - destruct (G 10 [] 514 ltac:(lia)) as (_ & _ & A). cbn [app] in A. apply A; [lia|]. intros n F. inversion F as [? ? E|? ? ? _ F2]; subst; [cbn in E; lia|].
    inversion F2 as [? ? E|? ? ? _ F3]; subst; [cbn in E; lia|inversion F3].
  - apply C36_get_regs_unknown_thread; auto. intros t [<-|[<-|[<-|[]]]]; [exists 7|exists 8|exists 9]; (split; [apply exTh_pid; lia|discriminate]).
Qed.

(** ** C37: address to object and segment *)
(** Any answer is right: the object is loaded there and the segment maps the address. *)
Theorem C37_find_segment_sound : forall objs a, objsOk objs -> 0 <= a < 2 ^ 64 ->
  match findSegment objs a with
  | Ok (Some (k, o, h)) => In (k, Some o) objs /\ In h (imLoads o) /\ maps k h a /\
      forall k' o' h', In (k', Some o') objs -> In h' (imLoads o') -> maps k' h' a -> k' = k /\ o' = o /\ h' = h
  | Ok None => True
  | _ => False
  end.
Proof.
  intros objs a Ho Ha. pose proof (findSegment_spec objs a Ho Ha) as F. destruct (findSegment objs a) as [[[[k o] h]|]| | |]; try contradiction; [|exact I].
  destruct F as (A & B & C & _). repeat (split; [assumption|]). intros k' o' h' A' B' C'. now apply (objs_unique objs Ho k' o' h' k o h a).
Qed.
(** Every mapped address other than an object's load address itself is found.  Missing: that address. *)
Theorem C37_find_segment_complete_partial : forall objs a k o h, objsOk objs -> 0 <= a < 2 ^ 64 ->
  In (k, Some o) objs -> In h (imLoads o) -> maps k h a -> a <> k -> findSegment objs a = Ok (Some (k, o, h)).
Proof.
  intros objs a k o h Ho Ha Hi Hh M Hne. pose proof (findSegment_spec objs a Ho Ha) as F. destruct (findSegment objs a) as [[[[k' o'] h']|]| | |]; try contradiction.
  - destruct F as (A & B & C & _). destruct (objs_unique objs Ho k o h k' o' h' a) as (-> & -> & ->); auto.
  - exfalso. apply Hne. symmetry. eapply F; eauto.
Qed.
(** At its load address an object is never found, for any set of objects: the property is false there. *)
Theorem C37_find_segment_at_base_refuted : forall objs k o h, objsOk objs -> k < 2 ^ 64 ->
  In (k, Some o) objs -> In h (imLoads o) -> maps k h k -> findSegment objs k = Ok None.
Proof.
  intros objs k o h Ho Hk Hi Hh M. destruct (objs_in objs Ho k o Hi) as (K & _ & _).
  pose proof (findSegment_spec objs k Ho ltac:(lia)) as F. destruct (findSegment objs k) as [[[[k' o'] h']|]| | |]; try contradiction; [|reflexivity].
  exfalso. destruct F as (A & B & C & L). destruct (objs_unique objs Ho k o h k' o' h' k) as (-> & _ & _); auto. lia.
Qed.
Definition exTwo : objmap := [(4096, Some exObj); (8192, None); (12288, Some exObj)].
Lemma exTwo_ok : objsOk exTwo.
Proof.
  assert (L : loadsOk (imLoads exObj)) by (destruct (objs_in exObjs exObjs_ok 4096 exObj (or_introl eq_refl)) as (_ & L & _); exact L).
  split.
  - constructor; [|constructor; [|constructor; [|constructor]]]; (split; [cbn; lia|]; intros o E; injection E as <-; split; [exact L|split; [discriminate|vm_compute; congruence]]) || (split; [cbn; lia|intros o E; discriminate]).
  - constructor; [constructor; [constructor; [constructor|constructor]|]|]; repeat (constructor; [split; [cbn; lia|intros o E; try discriminate; injection E as <-; vm_compute; congruence]|]); constructor.
Qed.
Example C37_find_segment_case : findSegment exTwo 4102 = Ok (Some (4096, exObj, mkPh 1 0 0 6 7)) /\ findSegment exTwo 4103 = Ok None /\
  findSegment exTwo 12289 = Ok (Some (12288, exObj, mkPh 1 0 0 6 7)) /\ findSegment exTwo 12288 = Ok None /\ maps 12288 (mkPh 1 0 0 6 7) 12288.
Proof. repeat (split; [vm_compute; reflexivity|]). unfold maps, covers. cbn. lia. Qed.

(** ** C64: the address space of a core *)
(** One range per PT_LOAD header, in order, with that header's bounds; it carries a file name, and that entry's
    offset in bytes, exactly when the NT_FILE note has an entry that starts where the segment starts and ends
    within it (entries having distinct starts). *)
Theorem C64_core_address_space : forall pg es loads i h,
  Forall loadOk loads -> NoDup (map feStart es) -> nth_error loads i = Some h -> p_vaddr h + p_memsz h < 2 ^ 64 ->
  exists r, nth_error (addressSpace pg es loads) i = Some r /\ length (addressSpace pg es loads) = length loads /\
    arStart r = p_vaddr h /\ arEnd r = p_vaddr h + p_memsz h /\ arFileEnd r = p_vaddr h + p_filesz h /\
    (forall e, In e es -> feStart e = p_vaddr h -> feEnd e <= p_vaddr h + p_memsz h -> 0 <= feOff e * pg < 2 ^ 64 ->
       arName r = feName e /\ arOffset r = feOff e * pg /\ arInode r = 1) /\
    ((forall e, In e es -> ~ (feStart e = p_vaddr h /\ feEnd e <= p_vaddr h + p_memsz h)) -> arName r = [] /\ arInode r = 0).
Proof.
  intros pg es loads i h Hl Hn Hi Ht. exists (coreRange pg es h). unfold addressSpace. rewrite map_length. split; [now apply map_nth_error|]. split; [reflexivity|].
  rewrite Forall_forall in Hl. destruct (Hl h (nth_error_In _ _ Hi)) as ((V1 & V2 & V3) & [F1 F2] & _). change (2 ^ 64) with W64 in *.
  assert (U1 : u64 (p_vaddr h + p_memsz h) = p_vaddr h + p_memsz h) by (apply u64_id; unfold isU64; lia).
  assert (U2 : u64 (p_vaddr h + p_filesz h) = p_vaddr h + p_filesz h) by (apply u64_id; unfold isU64; lia).
  unfold coreRange. rewrite U1, U2.
  assert (L : forall es best, (forall b, best = Some b -> feStart b <= p_vaddr h) ->
     match entryAtOrBelow es (p_vaddr h) best with
     | Some e => feStart e <= p_vaddr h /\ (In e es \/ best = Some e) /\ (forall e', In e' es \/ best = Some e' -> feStart e' <= p_vaddr h -> feStart e' <= feStart e)
     | None => best = None /\ forall e', In e' es -> feStart e' > p_vaddr h
     end).
  { clear. induction es as [|e es IH]; intros best Hb; cbn [entryAtOrBelow].
    - destruct best as [b|]; [|split; [reflexivity|intros ? []]]. split; [now apply Hb|]. split; [now right|]. intros e' [[]|E]. injection E as <-. lia.
    - set (nb := if feStart e <=? p_vaddr h then _ else best). assert (Hnb : forall b, nb = Some b -> feStart b <= p_vaddr h).
      { subst nb. intros b. destruct (feStart e <=? p_vaddr h) eqn:E1; [|apply Hb]. destruct best as [b0|]; [destruct (feStart b0 <=? feStart e)|]; intros E; try (injection E as <-; lia); now apply Hb. }
      specialize (IH nb Hnb). destruct (entryAtOrBelow es (p_vaddr h) nb) as [x|].
      + destruct IH as (A & B & C). split; [exact A|].
        assert (Nb : forall e', (e = e' \/ best = Some e') -> feStart e' <= p_vaddr h -> exists y, nb = Some y /\ feStart e' <= feStart y).
        { subst nb. intros e' Hor Hle. destruct Hor as [<-| ->].
          - replace (feStart e <=? p_vaddr h) with true by lia. destruct best as [b0|]; [destruct (feStart b0 <=? feStart e) eqn:?|]; eexists; (split; [reflexivity|lia]).
          - destruct (feStart e <=? p_vaddr h); [destruct (feStart e' <=? feStart e) eqn:?|]; eexists; (split; [reflexivity|lia]). }
        split.
        * destruct B as [B|B]; [left; now right|]. subst nb. destruct (feStart e <=? p_vaddr h); [|now right]. destruct best as [b0|]; [destruct (feStart b0 <=? feStart e)|]; injection B as <-; auto; left; now left.
        * intros e' [[<-|Hi]|E] Hle.
          -- destruct (Nb e (or_introl eq_refl) Hle) as (y & Ey & Hy). specialize (C y (or_intror Ey) (Hnb y Ey)). lia.
          -- apply C; auto.
          -- destruct (Nb e' (or_intror E) Hle) as (y & Ey & Hy). specialize (C y (or_intror Ey) (Hnb y Ey)). lia.
      + destruct IH as (A & B). subst nb. destruct (feStart e <=? p_vaddr h) eqn:E1.
        * destruct best as [b0|]; [destruct (feStart b0 <=? feStart e)|]; discriminate.
        * split; [exact A|]. intros e' [<-|Hi]; [lia|now apply B]. }
  specialize (L es None ltac:(intros b E; discriminate)). destruct (entryAtOrBelow es (p_vaddr h) None) as [e|].
  - destruct L as (A & [B|B] & C); [|discriminate]. destruct ((feStart e >=? p_vaddr h) && (feEnd e <=? p_vaddr h + p_memsz h)) eqn:E; cbn [arStart arEnd arFileEnd arName arOffset arInode].
    + repeat (split; [reflexivity|]). split.
      * intros e' Hi' Es Ee Eo. assert (e' = e); [|subst; split; [reflexivity|]; split; [now apply u64_id|reflexivity]].
        assert (feStart e' = feStart e) by lia. clear -Hn B Hi' H. induction es as [|x es IH]; [destruct B|]. cbn in Hn. inversion Hn as [|? ? N1 N2]; subst.
        destruct B as [<-|B], Hi' as [<-|Hi']; auto; exfalso; apply N1, in_map_iff; eauto.
      * intros N. exfalso. apply (N e B). lia.
    + repeat (split; [reflexivity|]). split; [|now split]. intros e' Hi' Es Ee Eo. exfalso. specialize (C e' (or_introl Hi') ltac:(lia)).
      assert (Heq : feStart e' = feStart e) by lia. assert (e' = e); [|subst; lia].
      clear -Hn B Hi' Heq. induction es as [|x es IH]; [destruct B|]. cbn in Hn. inversion Hn as [|? ? N1 N2]; subst.
      destruct B as [<-|B], Hi' as [<-|Hi']; auto; exfalso; apply N1, in_map_iff; eauto.
  - destruct L as [_ L]. cbn [arStart arEnd arFileEnd arName arOffset arInode]. repeat (split; [reflexivity|]). split; [|now split].
    intros e Hi' Es. specialize (L e Hi'). lia.
Qed.
Example C64_core_address_space_case :
  addressSpace 4096 [mkFE [97] 8192 12288 2; mkFE [98] 4096 8192 0] [mkPh 1 0 4096 10 4096; mkPh 1 10 8192 4096 8192; mkPh 1 20 65536 4096 4096] =
  [mkAR 4096 8192 4106 0 1 [98]; mkAR 8192 16384 12288 8192 1 [97]; mkAR 65536 69632 69632 0 0 []].
Proof. vm_compute. reflexivity. Qed.

Print Assumptions C35_core_read_sourced. Print Assumptions C35_core_read_exact_partial. Print Assumptions C35_holds_unique.
Print Assumptions C35_core_read_prefers_core_refuted. Print Assumptions C35_core_read_zeroes_file_refuted. Print Assumptions C35_core_read_terminates_refuted.
Print Assumptions C36_get_regs_own_thread. Print Assumptions C36_get_regs_unknown_thread.
Print Assumptions C37_find_segment_sound. Print Assumptions C37_find_segment_complete_partial. Print Assumptions C37_find_segment_at_base_refuted.
Print Assumptions C64_core_address_space.
