(** Property C160: the report of the program stackusers. *)
From Coq Require Import Sorting.Sorted Sorting.Permutation.
From Verif Require ElfObjProofs JsonDocProofs.
From Verif Require Import Base LebSpec MapsSpec Args ArgsSpec ArgsProofs Cfi CfiSpec CfiProofs Frames FramesSpec FramesProofs ElfObj StackUsers StackUsersSpec StackUsersProofs Props_Frames.

(** The image's segments that are loaded, in order; which addresses are in one, and in an executable one. *)
Definition loadable (loads : list phdr) : Prop :=
  Forall ElfObjProofs.segOk loads /\ StronglySorted (fun x y => p_vaddr x <= p_vaddr y) loads /\ NoDup loads /\ (forall x y, In x loads -> In y loads -> x = y \/ ElfObjProofs.segDisjoint x y).
Definition mapped (loads : list phdr) (a : Z) : Prop := exists h, In h loads /\ p_vaddr h <= a < p_vaddr h + p_memsz h.
Definition code (loads : list phdr) (isExec : phdr -> bool) (a : Z) : Prop := exists h, (In h loads /\ p_vaddr h <= a < p_vaddr h + p_memsz h) /\ isExec h = true.
Definition func_of (y : usym) : func := mkFn (uValue y) (uSize y) (uName y).
Definition symsOk (syms : list usym) : Prop := Forall (fun y => 0 <= uValue y < 2 ^ 64 /\ 0 <= uSize y < 2 ^ 64) syms.

(** C160.  Frame information without a search table: the report is that of all its FDEs.  [Report] needs each
    symbol with a size to be in a segment, and each function shown to have an FDE with a valid program; what
    happens otherwise is shown below. *)
Theorem C160_report_partial data eh sa es fuel hdr loads isExec names syms t :
  section eh data es -> 0 <= sa < 2 ^ 64 -> disjointFdes sa es (fdesOf es) -> (length es + 2 <= fuel)%nat -> (length data < fuel)%nat -> eh = false \/ hdr = None ->
  loadable loads -> symsOk syms -> Report sa es (fdesOf es) (mapped loads) (code loads isExec) names (map func_of syms) t ->
  stackUsers data eh sa loads isExec fuel hdr names syms = Ok t.
Proof.
  intros SEC SA DJ Hf Hl HH (L1 & L2 & L3 & L4) SY RP. destruct (full_Right data eh sa es fuel hdr SEC SA DJ Hf HH) as (k & E & RK). unfold stackUsers. rewrite E. cbn [bind].
  apply (usersLoop_spec data eh sa es SEC (fdesOf es)) with (1 := fun x Hx => proj1 (FramesProofs2.in_fdesOf es (fst x) (snd x)) ltac:(destruct x; exact Hx)); try assumption; try lia. intros x; discriminate.
Qed.
(** The same with a search table that lists the FDEs [fs]. *)
Theorem C160_search_table_partial data sa es fuel h H rest ha fs loads isExec names syms t :
  section true data es -> 0 <= sa < 2 ^ 64 -> (2 <= fuel)%nat -> (length data < fuel)%nat ->
  H = hdrBytes h ++ rest -> Forall isByte H -> zlen H < 2 ^ 63 -> 0 <= ha < 2 ^ 64 ->
  (forall x, In x fs -> In (fst x, EFde (snd x)) es) -> disjointFdes sa es fs -> hdrOk sa es ha h fs ->
  loadable loads -> symsOk syms -> Report sa es fs (mapped loads) (code loads isExec) names (map func_of syms) t ->
  stackUsers data true sa loads isExec fuel (Some (H, ha)) names syms = Ok t.
Proof.
  intros SEC SA Hf Hl EH HB HW HA SUB DJ OK (L1 & L2 & L3 & L4) SY RP. destruct (hdr_Right data sa es fuel h H rest ha fs SEC SA ltac:(lia) EH HB HW HA SUB DJ OK) as (k & E & RK). unfold stackUsers. rewrite E. cbn [bind].
  apply (usersLoop_spec data true sa es SEC fs SUB); try assumption; try lia. intros x; discriminate.
Qed.
(** A symbol with a size outside every segment (a thread local variable's value is an offset in its block)
    is used as if it were in one: the null segment is dereferenced. *)
Theorem C160_no_segment_refuted data eh sa loads isExec fuel names y syms k : loadable loads -> 0 <= uValue y < 2 ^ 64 -> uSize y <> 0 -> ~ mapped loads (uValue y) ->
  usersLoop data eh sa loads isExec fuel names (y :: syms) k None = UB.
Proof.
  intros (L1 & L2 & L3 & L4) RV NZ NM. cbn [usersLoop]. replace (uSize y =? 0) with false by lia.
  destruct (ElfObjProofs.getSegment_spec loads L1 L2 L3 L4 None (uValue y) ltac:(intros x; discriminate) RV) as [_ G]. destruct (getSegment loads None (uValue y)) as [sc [h|]]; [|reflexivity]. cbn [snd] in G. elim NM. now exists h.
Qed.
(** So is an executable function without an FDE. *)
Theorem C160_no_fde_refuted data eh sa fuel k k' y : find_fde data eh sa fuel k (uValue y) = (k', Ok None) -> userOf data eh sa fuel k y = (k', UB).
Proof. intros E. unfold userOf. now rewrite E. Qed.

(** The section of Props_Frames: two functions and a datum, with and without the search table. *)
Definition exLoads : list phdr := [mkPh 1 0 3000 2000 2000; mkPh 1 2000 8000 1000 1000].
Definition exExec (h : phdr) : bool := p_vaddr h =? 3000.
Definition exSyms : list usym := [mkU 0 0 []; mkU 4222 60 [102]; mkU 8000 8 [100]; mkU 3242 30 [103]].
Definition exText : list Z := [49; 54; 9; 50; 9; 54; 48; 9; 102; 10; 56; 9; 49; 9; 51; 48; 9; 103; 10].
Example exLoadable : loadable exLoads.
Proof.
  split; [repeat constructor; cbn; lia|]. split; [repeat constructor; cbn; lia|]. split.
  - repeat constructor; cbn; intuition congruence.
  - intros x y Ix Iy. unfold exLoads in *. cbn [In] in *. destruct Ix as [<-|[<-|[]]], Iy as [<-|[<-|[]]]; (try now left); right; unfold ElfObjProofs.segDisjoint; cbn; lia.
Qed.
Lemma digits (s : list Z) (v : Z) : intText v = s -> 0 <= v < 2 ^ 64 -> decimal s v.
Proof. intros <- R. apply JsonDocProofs.intText_decimal64. lia. Qed.
Lemma passes_nil ca da ini t w : passes ca da ini t [] w -> w = fst t.
Proof. intros (p1 & p2 & st & E & R). symmetry in E. apply app_eq_nil in E as [-> _]. cbn [runS] in R. now injection R as ->. Qed.
Lemma passes_cons ca da ini t i p t1 w : stepS ca da ini t i = Some t1 -> passes ca da ini t (i :: p) w -> w = fst t \/ passes ca da ini t1 p w.
Proof. intros S (p1 & p2 & st & E & R). destruct p1 as [|j p1]; cbn [runS] in R; [injection R as ->; now left|]. cbn [app] in E. injection E as <- ->. rewrite S in R. right. now exists p1, p2, st. Qed.
Lemma passes_in ca da ini t p1 p2 t' : runS ca da ini t p1 = Some t' -> passes ca da ini t (p1 ++ p2) (fst t').
Proof. intros R. destruct t' as [w st]. now exists p1, p2, st. Qed.
Ltac offs := match goal with H : offsetIn _ _ |- _ => destruct H as [(rr & H)|(rr & H)]; cbn in H; unfold upd in H; repeat match type of H with context [if ?c then _ else _] => destruct c end; try discriminate H; injection H; lia end.
Definition exCieP : list sinsn := [SDefCfa 7 8; SOffset 16 1].
Lemma exDescribes1 : describes 4222 exC1 exF1 16 4223.
Proof.
  exists exCieP, [SAdvanceLoc 1; SDefCfaOffset 16]. do 2 eexists. split; [vm_compute; reflexivity|]. split; [vm_compute; reflexivity|]. split; [reflexivity|]. split; [reflexivity|]. split; [reflexivity|]. split; [reflexivity|].
  cbv zeta. split; [reflexivity|]. split; [reflexivity|]. split; [reflexivity|]. split; [lia|]. split.
  - intros w n P ON. eapply passes_cons in P as [->|P]; [offs| |reflexivity]. eapply passes_cons in P as [->|P]; [offs| |reflexivity]. apply passes_nil in P as ->. offs.
  - right. eexists. split; [eapply (passes_in _ _ _ _ [SAdvanceLoc 1; SDefCfaOffset 16] []); reflexivity|]. right. exists 7. reflexivity.
Qed.
Lemma exDescribes2 : describes 3242 exC1 exF2 8 3242.
Proof.
  exists exCieP, []. do 2 eexists. split; [vm_compute; reflexivity|]. split; [vm_compute; reflexivity|]. split; [reflexivity|]. split; [reflexivity|]. split; [reflexivity|]. split; [reflexivity|].
  cbv zeta. split; [reflexivity|]. split; [reflexivity|]. split; [reflexivity|]. split; [lia|]. split.
  - intros w n P ON. apply passes_nil in P as ->. offs.
  - right. eexists. split; [eapply (passes_in _ _ _ _ [] []); reflexivity|]. right. exists 7. reflexivity.
Qed.
Lemma exReport fs : (forall x, In x (fdesOf exEs) -> In x fs) -> Report 8192 exEs fs (mapped exLoads) (code exLoads exExec) [] (map func_of exSyms) exText.
Proof.
  intros SUB. change exText with (functionLine (mkFn 4222 60 [102]) [49; 54] [50] [54; 48] ++ functionLine (mkFn 3242 30 [103]) [56] [49] [51; 48] ++ []). cbn [exSyms map func_of uValue uSize uName]. unfold func_of. cbn [uValue uSize uName].
  assert (M1 : forall a, 3000 <= a < 5000 -> code exLoads exExec a) by (intros a Ha; exists (mkPh 1 0 3000 2000 2000); split; [split; [now left|cbn; lia]|reflexivity]).
  apply ReNoSize; [reflexivity|]. apply (ReLine 8192 exEs fs (mapped exLoads) (code exLoads exExec) [] (mkFn 4222 60 [102]) _ _ (22, exF1) exC1 16 4223); cbn [fnSize fnStart fnName snd].
  - discriminate.
  - apply M1. lia.
  - now left.
  - apply SUB. now left.
  - vm_compute. split; [discriminate|reflexivity].
  - reflexivity.
  - exact exDescribes1.
  - apply digits; [reflexivity|lia].
  - apply digits; [reflexivity|lia].
  - apply digits; [reflexivity|lia].
  - apply ReData; [discriminate|exists (mkPh 1 2000 8000 1000 1000); split; [right; now left|cbn; lia]| |].
    + intros (h & [I C] & X). unfold exLoads in I. cbn [In] in I. destruct I as [<-|[<-|[]]]; [cbn in C; lia|discriminate X].
    + apply (ReLine 8192 exEs fs (mapped exLoads) (code exLoads exExec) [] (mkFn 3242 30 [103]) _ _ (42, exF2) exC1 8 3242); cbn [fnSize fnStart fnName snd].
      * discriminate.
      * apply M1. lia.
      * now left.
      * apply SUB. right. now left.
      * vm_compute. split; [discriminate|reflexivity].
      * reflexivity.
      * exact exDescribes2.
      * apply digits; [reflexivity|lia].
      * apply digits; [reflexivity|lia].
      * apply digits; [reflexivity|lia].
      * apply ReNone.
Qed.
Example C160_nonvacuous : section true exData exEs /\ disjointFdes 8192 exEs (fdesOf exEs) /\ loadable exLoads /\ symsOk exSyms /\
  Report 8192 exEs (fdesOf exEs) (mapped exLoads) (code exLoads exExec) [] (map func_of exSyms) exText /\ Report 8192 exEs exOrder (mapped exLoads) (code exLoads exExec) [] (map func_of exSyms) exText /\
  stackUsers exData true 8192 exLoads exExec 200 None [] exSyms = Ok exText /\ stackUsers exData true 8192 exLoads exExec 200 (Some (hdrBytes exHdr, 7936)) [] exSyms = Ok exText /\
  stackUsers exData true 8192 exLoads exExec 200 None [[103]; [120]] exSyms = Ok [56; 9; 49; 9; 51; 48; 9; 103; 10].
Proof.
  split; [exact exSection|]. split; [exact exDisjoint|]. split; [exact exLoadable|]. split; [unfold symsOk, exSyms; repeat constructor; cbn; lia|].
  split; [apply exReport; auto|]. split; [apply exReport; cbn [fdesOf exEs flat_map snd fst app In]; unfold exOrder; cbn [In]; tauto|]. split; [vm_compute; reflexivity|]. split; vm_compute; reflexivity.
Qed.
Print Assumptions C160_report_partial.
Print Assumptions C160_search_table_partial.
Print Assumptions C160_no_segment_refuted.
Print Assumptions C160_no_fde_refuted.
