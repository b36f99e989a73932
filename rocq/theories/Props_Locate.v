(** Property C165: unwinding through what is remembered of the images' frame sections. *)
From Verif Require Import Base Leb LebSpec DwarfReader DwarfReaderProofs Regs Cfi CfiSpec CfiProofs Expr ExprSpec ExprProofs ArgsSpec Unwind UnwindSpec UnwindProofs UnwindProofs2
  Frames FramesSpec ElfObj ElfObjProofs Core CoreSpec CoreProofs StackUsersProofs Locate LocateSpec LocateProofs Props_Unwind Props_Frames.

(** A process: its loaded objects are well formed, and so is the frame section of every image ([imageFrames], LocateSpec.v);
    [fuel] bounds the length of those sections. *)
Definition goodProcess (fuel : nat) (objs : objmap) (sects : Z -> sections) (F : Z -> option frames) : Prop :=
  objsOk objs /\ (forall i, imageFrames (sects i) (F i)) /\ (forall i m, F i = Some m -> (2 * length (fmData m) + 2 < fuel)%nat).

(** Whatever stacks are unwound first, a stack is what it would have been had nothing been read before. *)
Theorem C165_history : forall fuel objs ident sects isExec mem F maxframes l, goodProcess fuel objs sects F ->
  snd (stacksS fuel objs ident sects isExec mem state0 maxframes l) =
  map (fun regs => snd (unwindStackS fuel objs ident sects isExec mem state0 maxframes regs)) l.
Proof.
  intros fuel objs ident sects isExec mem F mf l (HO & HF & HL). destruct (stacksS_pure fuel objs ident sects isExec mem F HO HF HL mf l state0 (SInv0 _ _ _)) as (s & E & _). rewrite E. cbn [snd]. apply map_ext. intros r.
  destruct (unwindStackS_pure fuel objs ident sects isExec mem F HO HF HL state0 mf r (SInv0 _ _ _)) as (s' & E' & _). now rewrite E'.
Qed.
Print Assumptions C165_history.

(** The stacks are those of a process (Unwind.v; C20, C21, C38, C88 and C89 are about those) that knows, about every address,
    what the frame section of the image loaded there says about it, and nothing if it says nothing. *)
Theorem C165_process : forall fuel objs ident sects isExec mem F, goodProcess fuel objs sects F ->
  exists p, pMem p = mem /\ (forall a, 0 <= a < 2 ^ 64 -> toldAbout objs ident F a (pInfo p a)) /\
    (forall a, 0 <= a < 2 ^ 64 -> (pExec p a = true <-> exists k h, loadedAt objs a k h /\ isExec h = true)) /\
    forall maxframes l, snd (stacksS fuel objs ident sects isExec mem state0 maxframes l) = map (unwindStack fuel p maxframes) l.
Proof.
  intros fuel objs ident sects isExec mem F (HO & HF & HL). exists (pureProc fuel objs ident sects isExec mem). split; [reflexivity|]. split; [intros a Ha; now apply (pure_told fuel objs ident sects F HO HF HL)|]. split; [intros a Ha; now apply exec_told|].
  intros mf l. destruct (stacksS_pure fuel objs ident sects isExec mem F HO HF HL mf l state0 (SInv0 _ _ _)) as (s & E & _). now rewrite E.
Qed.
Print Assumptions C165_process.

(** The caller of a frame, after any stacks [l] have been unwound: the FDE [x] of the image loaded at [k] covers the frame's
    address; its and its CIE's instructions are the programs [fdeP] and [cieP]; [w] is the row of the table they define
    that is in force there.  The registers of the caller are what that row says they are (see C20; partial as C20 is). *)
Theorem C165_caller_partial : forall fuel objs ident sects isExec mem F maxframes l f ip k m x c cieP fdeP ct rows w se C,
  goodProcess fuel objs sects F -> 0 <= fRegs f U_rip < 2 ^ 64 ->
  scopeAddr objs ident F f ip -> describedBy objs ident F ip k m x c ->
  scInsns c = encodeP cieP -> sfInsns (snd x) = encodeP fdeP ->
  let ca := scCode c in let da := scData c in let rar := scRar c in
  forallb (wfI ca da) cieP = true -> forallb (wfI ca da) fdeP = true ->
  runS ca da noRules (emptyRow, []) cieP = Some ct -> rowLoc (fst ct) < 2 ^ 64 ->
  table ca da (rowRule (fst ct)) (mkRow (startOf (fmAddr m) (fmEntries m) x) (rowRule (fst ct)) (rowCfa (fst ct)), []) fdeP = Some rows ->
  locsFit rows -> rowAt (ip - k) rows = Some w ->
  envRel (mkEnv (fRegs f) (fCfa f) mem k None) se -> sFrameBase se = 0 ->
  cfaValue se (rowCfa w) C ->
  (forall r, ~ gp r -> rowRule w r = RuleDefault \/ rowRule w r = RuleUndefined \/ exists n off, saveWidth r = Some n /\ rowRule w r = RuleOffset off) ->
  (forall r, gp r -> rowRule w r = RuleUndefined \/ exists v, ruleValue (withCfa se C) r (rowRule w r) v) ->
  gp rar ->
  exists s' f' o, unwindS fuel objs ident sects mem (fst (stacksS fuel objs ident sects isExec mem state0 maxframes l)) f = (s', f', Ok o) /\ fCfa f' = C /\ fRegs f' = fRegs f /\
    match o with
    | None => rowRule w rar = RuleUndefined \/ C = 0
    | Some out => rowRule w rar <> RuleUndefined /\ C <> 0 /\
        (forall r v, 0 <= r <= 15 -> ruleValue (withCfa se C) r (rowRule w r) v -> gpGet out r = Ok v) /\
        (forall v, ruleValue (withCfa se C) rar (rowRule w rar) v -> gpGet out 16 = Ok v) /\
        (forall r n, saveWidth r = Some n -> match rowRule w r with
           | RuleOffset off => forall bs, length bs = n -> ArgsSpec.holds mem ((C + off) mod 2 ^ 64) bs -> exists kd, getDwarf out r = Ok (kd, leValue bs)
           | _ => getDwarf out r = getDwarf (fRegs f) r end)
    end.
Proof.
  intros fuel objs ident sects isExec mem F mf l f ip k m x c cieP fdeP ct rows w se C (HO & HF & HL) Hr SC D EC EF ca da rar W1 W2 RC LC TB LF RA EN FB CV D1 D2 GR.
  destruct (stacksS_pure fuel objs ident sects isExec mem F HO HF HL mf l state0 (SInv0 _ _ _)) as (s & E & I). rewrite E. cbn [fst].
  set (p := pureProc fuel objs ident sects isExec mem).
  assert (IP : scopeIP p f = ip) by now apply (scope_told fuel objs ident sects isExec mem F HO HF HL).
  assert (IR : 0 <= ip < 2 ^ 64). { destruct SC as [[_ ->]|[_ ->]]; [exact Hr|]. apply Z.mod_pos_bound. lia. }
  destruct (described_told fuel objs ident sects F HO HF HL ip k m x c IR D) as (ci & PI).
  destruct (told_described fuel objs ident sects F HO HF HL ip ci IR PI k m x c D) as (T1 & T2 & T3 & T4 & T5 & T6 & T7 & T8 & T9 & T10).
  destruct D as ((h & o & IO & IH & M & NE) & EM & IX & CV2 & CO). destruct (objs_in objs HO k o IO) as (K0 & LO & ET).
  pose proof (F_ok sects F HF _ m EM) as (SEC & SA & _ & _). pose proof SEC as (HB & HW & HE & _).
  assert (OC : 0 <= scCode c < 2 ^ 32). { unfold cieOf in CO. destruct (find (fun e => fst e =? sfCie (snd x)) (fmEntries m)) as [[o0 [c0|f0]]|] eqn:EFI; try discriminate. injection CO as ->. apply find_some in EFI as [EFI _]. rewrite Forall_forall in HE. apply (HE _ EFI). }
  assert (PC : u64 (ip - k) = ip - k).
  { apply u64_id. unfold isU64. change W64 with (2 ^ 64). unfold maps, covers in M. pose proof (loadsOk_in _ _ LO IH) as ((S0 & _) & _). lia. }
  destruct (unwindS_pure fuel objs ident sects isExec mem F HO HF HL s f I) as (s' & EU & _). fold p in EU.
  edestruct (C20_unwind_step_partial p f ci cieP fdeP ct rows w se C fuel) as (f' & o' & U & R1 & R2 & R3).
  - now rewrite IP.
  - now rewrite T2.
  - rewrite T2. unfold W64. lia.
  - rewrite T2. now apply (HL _ m EM).
  - rewrite T3. cbn [codeAlign]. lia.
  - rewrite T2, <- EC. exact T7.
  - rewrite <- EC. exact T8.
  - rewrite T2, <- EF. exact T9.
  - rewrite <- EF. exact T10.
  - rewrite T3. exact W1.
  - rewrite T3. exact W2.
  - rewrite T3. exact RC.
  - exact LC.
  - rewrite T3, T6. exact TB.
  - exact LF.
  - rewrite IP, T1, T6, PC. apply CV2.
  - rewrite IP, T1, PC. exact RA.
  - rewrite T1. exact EN.
  - exact FB.
  - exact CV.
  - exact D1.
  - exact D2.
  - rewrite T4. exact GR.
  - exists s', f', o'. rewrite U in EU. cbn [fst snd] in EU. split; [exact EU|]. rewrite T4 in R3. auto.
Qed.
Print Assumptions C165_caller_partial.

(** The section of Props_Frames.v with its index, in an image that is loaded twice.  The innermost frame is in the first copy, its
    caller in the second. *)
Definition exImg : image := mkImg [] [mkPh 1 0 0 0 65536].
Definition exLoaded : objmap := [(65536, Some exImg); (4194304, Some exImg)].
Definition exSects : Z -> sections := fun i => if i =? 7 then mkSecs (Some (exData, 8192)) (Some (hdrBytes exHdr, 7936)) None else mkSecs None None None.
Definition exFrames : Z -> option frames := fun i => if i =? 7 then Some (mkFrm exData true 8192 exEs exOrder) else None.
Definition exStack : memory := fun a => znth (a - 4096) (leBytes 8 5 ++ leBytes 8 (4194304 + 3250) ++ leBytes 8 0).
Definition exRegs (ip : Z) : coreRegs := fun c => if cell_eq_dec c U_rsp then 4096 else if cell_eq_dec c U_rip then ip else 11.
Lemma exGood : goodProcess 1000 exLoaded exSects exFrames.
Proof.
  split; [|split].
  - assert (L : loadsOk (imLoads exImg)).
    { unfold loadsOk, loadOk, segOk, exImg. cbn [imLoads]. repeat (split || constructor); cbn [p_vaddr p_memsz p_filesz p_offset]; try (vm_compute; congruence); lia. }
    split.
    + constructor; [|constructor; [|constructor]]; (split; [cbn; lia|]; intros o E; injection E as <-; split; [exact L|split; [discriminate|cbn; lia]]).
    + constructor; [constructor; [constructor|constructor]|]. constructor; [|constructor]. split; [cbn; lia|]. intros o E. injection E as <-. cbn. lia.
  - intros i. unfold exSects, exFrames. destruct (i =? 7); [|now apply NoFrames].
    destruct C105_nonvacuous as (SEC & OK & DJ & SUB & _).
    eapply (EhIndexed _ exData 8192 exEs exOrder (hdrBytes exHdr) 7936 exHdr []); cbn [sEh sHdr]; try reflexivity.
    + split; [exact SEC|]. split; [cbn [fmAddr]; lia|]. split; [exact SUB|exact DJ].
    + apply bytes_ok. vm_compute. reflexivity.
    + lia.
    + exact OK.
  - intros i m E. unfold exFrames in E. destruct (i =? 7); [|discriminate]. injection E as <-. vm_compute. lia.
Qed.
Example C165_nonvacuous : goodProcess 1000 exLoaded exSects exFrames /\
  describedBy exLoaded (fun _ => 7) exFrames (65536 + 4225) 65536 (mkFrm exData true 8192 exEs exOrder) (22, exF1) exC1 /\
  map (fun x => match x with Ok (l, b) => (map rawIP l, b) | _ => ([], true) end)
    (snd (stacksS 1000 exLoaded (fun _ => 7) exSects (fun _ => true) exStack state0 9 [exRegs (65536 + 4225); exRegs (4194304 + 4225); exRegs (65536 + 4225)])) =
  [([65536 + 4225; 4194304 + 3250; 0], false); ([4194304 + 4225; 4194304 + 3250; 0], false); ([65536 + 4225; 4194304 + 3250; 0], false)].
Proof.
  split; [exact exGood|]. split.
  - split; [exists (mkPh 1 0 0 0 65536), exImg; cbn [exLoaded exImg imLoads In]; split; [now left|]; split; [now left|]; split; [unfold maps, ElfObjProofs.covers; cbn; lia|lia]|]. split; [reflexivity|]. split; [cbn; tauto|]. split; [vm_compute; split; congruence|reflexivity].
  - vm_compute. reflexivity.
Qed.

(** Only one of an image's frame sections is used: code that .debug_frame describes is not found if the image also has an
    .eh_frame, which has nothing about it; without that .eh_frame it is. *)
Definition exDc : scie := mkSC 1 None 1 (-8) 16 [12; 7; 8; 144; 1] false.
Definition exDf : sfde := mkSF 0 20480 64 [] [65; 14; 16] false.
Definition exDebug : list Z := cieBytes false exDc ++ fdeBytes false (zlen (cieBytes false exDc)) exDc exDf.
Theorem C165_both_sections_refuted :
  let found s := match lookup 1000 exLoaded (fun _ => 7) (fun _ => s) state0 (65536 + 20490) with (_, Ok (Some _)) => true | _ => false end in
  found (mkSecs None None (Some (exDebug, 0))) = true /\ found (mkSecs (Some (exData, 8192)) None (Some (exDebug, 0))) = false.
Proof. vm_compute. split; reflexivity. Qed.
Print Assumptions C165_both_sections_refuted.
