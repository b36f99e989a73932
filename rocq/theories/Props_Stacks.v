From Verif Require Import Base Leb LebSpec DwarfReader DwarfReaderProofs Regs Cfi CfiSpec Expr Unwind UnwindProofs2 Stacks StacksSpec StacksProofs Props_Unwind.

(** C88.  Every link of a stack is made by call frame information, by the frame pointer convention or
    by undoing a call to an address that is not code; the latter two link frames as
    [framePointerLink] and [badCallLink] say, and a bad call is undone only in the innermost frame
    or in one interrupted by a signal. *)
Theorem C88_links : forall fuel p maxframes regs l b l1 x y l2,
  unwindStack fuel p maxframes regs = Ok (l, b) -> l = l1 ++ x :: y :: l2 ->
  fMech y = Dwarf \/ (fMech y = FramePointer /\ framePointerLink p x y) \/
  (fMech y = BadIpRecovery /\ badCallLink p x y /\ (l1 = [] \/ exists l0 s, l1 = l0 ++ [s] /\ fSigTramp s = true)).
Proof.
  intros fuel p maxframes regs l b l1 x y l2 H ->. unfold unwindStack in H. apply walk_tr in H as (t & E & T). cbn [rev app] in E. subst t.
  destruct (tr_link _ _ _ _ _ _ _ _ _ T) as [Q|[Q|(Q1 & Q2 & Q3)]]; [auto|auto|]. right. right. split; [exact Q1|]. split; [exact Q2|]. destruct Q3 as [[Q3 _]|Q3]; auto.
Qed.
Print Assumptions C88_links.
(** A stack that ends before the frame limit ends for a reason: call frame information says its last
    frame has no caller, or, there being none for that frame, its pc or frame pointer is 0 or the
    return address the frame pointer leads to is not in code - and, if it is also the innermost frame
    and not in code, the top of its stack cannot be read. *)
Theorem C88_end_of_stack : forall fuel p maxframes regs l1 x,
  unwindStack fuel p maxframes regs = Ok (l1 ++ [x], false) -> zlen (l1 ++ [x]) <= maxframes ->
  (exists f, fRegs f = fRegs x /\ snd (unwindFrame fuel p f) = Ok None) \/
  ((fRegs x U_rip = 0 \/ fRegs x U_rbp = 0 \/ exists ip, wordAt (pMem p) (u64 (fRegs x U_rbp + 8)) ip /\ pExec p ip = false) /\
   (l1 = [] -> pExec p (fRegs x U_rip) = false -> unreadable (pMem p) (fRegs x U_rsp))).
Proof.
  intros fuel p maxframes regs l1 x H L. unfold unwindStack in H. apply walk_tr in H as (t & E & T). cbn [rev app] in E. subst t.
  destruct (tr_end _ _ _ _ _ _ _ T) as (f0 & k0 & T0 & K & F0). unfold zlen in L. rewrite app_length in L. cbn [length] in L.
  inversion T0 as [Z1 Z2 Z3|? ? ? U|? ? ? rg ? ? U T1|? ? f1 g ? ? ? U G T1|? ? ? U ST|]; subst.
  - cbn in K. lia.
  - left. exists f0. rewrite U. cbn [snd]. split; [symmetry; apply (unwindFrame_same _ _ _ _ _ U)|reflexivity].
  - now apply tr_nonempty in T1.
  - now apply tr_nonempty in T1.
  - right. destruct (unwindFrame_same _ _ _ _ _ U) as (M & _ & _). unfold fallbackStep in ST.
    match type of ST with context [if ?c then word8 ?m ?a else None] => destruct (if c then word8 m a else None) as [ip|] eqn:B0 end; [discriminate|]. split.
    + unfold rawIP in ST. destruct (fRegs x U_rip =? 0) eqn:R; [left; lia|]. destruct (fRegs x U_rbp =? 0) eqn:BP; [right; left; lia|]. right. right.
      destruct (word8 (pMem p) (u64 (fRegs x U_rbp + 8))) as [ip|] eqn:W; [|discriminate]. destruct (word8 _ (fRegs x U_rbp)); [|discriminate].
      destruct (pExec p ip) eqn:X; [discriminate|]. exists ip. split; [now apply word8_some|exact X].
    + intros ->. rewrite (F0 eq_refl) in M. cbn in M. intros X. rewrite M, X in B0. cbn [negb andb] in B0. now apply word8_none.
Qed.
Print Assumptions C88_end_of_stack.
(** A process without call frame information: three frames by frame pointer after a call to 1. *)
Definition C88_mem : memory := fun a => znth (a - 4096) (leBytes 8 65800 ++ leBytes 8 0 ++ leBytes 8 4128 ++ leBytes 8 65900 ++ leBytes 8 0 ++ leBytes 8 66000).
Definition C88_proc : process := mkProc C88_mem (fun _ => None) (fun a => (65536 <=? a) && (a <? 69632)).
Definition C88_regs : coreRegs := fun c => if cell_eq_dec c U_rbp then 4112 else if cell_eq_dec c U_rsp then 4096 else if cell_eq_dec c U_rip then 1 else 7.
Example C88_nonvacuous :
  match unwindStack 10 C88_proc 9 C88_regs with
  | Ok (l, b) => map fMech l = [MachineRegs; BadIpRecovery; FramePointer; FramePointer] /\ map rawIP l = [1; 65800; 65900; 66000] /\
                 map (fun f => fRegs f U_rsp) l = [4096; 4104; 4128; 4144] /\ map (fun f => fRegs f U_rbp) l = [4112; 4112; 4128; 0] /\ b = false
  | _ => False
  end.
Proof. vm_compute. repeat split. Qed.

(** ** C89: every thread is listed *)
Lemma emplace_keeps m id l e : In e m -> In e (emplace m id l).
Proof. unfold emplace. destruct (existsb _ m); [auto|]. intros H. apply in_or_app. now left. Qed.
Lemma emplace_id m id l : In id (map fst (emplace m id l)).
Proof.
  unfold emplace. destruct (existsb (fun e => fst e =? id) m) eqn:E.
  - apply existsb_exists in E as (e & I & E). replace id with (fst e) by lia. now apply in_map.
  - rewrite map_app. apply in_or_app. right. now left.
Qed.
Lemma emplace_new m id l : ~ In id (map fst m) -> In (id, l) (emplace m id l).
Proof.
  unfold emplace. intros H. destruct (existsb (fun e => fst e =? id) m) eqn:E; [|apply in_or_app; right; now left].
  apply existsb_exists in E as (e & I & E). exfalso. apply H. replace id with (fst e) by lia. now apply in_map.
Qed.
Lemma emplace_inv m id l e : In e (emplace m id l) -> In e m \/ e = (id, l).
Proof. unfold emplace. destruct (existsb _ m); [auto|]. intros H. apply in_app_or in H as [H|[<-|[]]]; auto. Qed.
Lemma stacks_keeps fuel p mf : forall ts m m', getStacks fuel p mf ts m = Ok m' -> forall e, In e m -> In e m'.
Proof.
  induction ts as [|t ts IH]; intros m m' H e I; cbn [getStacks] in H; [inversion H; now subst|]. destruct (oneStack fuel p mf m t) as [m1| | |] eqn:E; cbn [bind] in H; try discriminate.
  apply (IH _ _ H). unfold oneStack in E. destruct (snd t) as [rg|]; [|inversion E; now subst]. destruct (unwindStack fuel p mf rg) as [[l b]| | |]; cbn [bind] in E; try discriminate.
  inversion E; subst. destruct b; [exact I|now apply emplace_keeps].
Qed.
Lemma stacks_inv fuel p mf : forall ts m m', getStacks fuel p mf ts m = Ok m' -> forall e, In e m' ->
  In e m \/ exists rg, In (fst e, Some rg) ts /\ unwindStack fuel p mf rg = Ok (snd e, false).
Proof.
  induction ts as [|t ts IH]; intros m m' H e I; cbn [getStacks] in H; [inversion H; subst; now left|]. destruct (oneStack fuel p mf m t) as [m1| | |] eqn:E; cbn [bind] in H; try discriminate.
  destruct (IH _ _ H e I) as [J|(rg & J & K)]; [|right; exists rg; split; [now right|exact K]].
  unfold oneStack in E. destruct t as [id [rg|]]; cbn [fst snd] in E; [|inversion E; subst; now left]. destruct (unwindStack fuel p mf rg) as [[l b]| | |] eqn:U; cbn [bind] in E; try discriminate.
  inversion E; subst. destruct b; [now left|]. apply emplace_inv in J as [J|J]; [now left|]. subst e. right. exists rg. split; [now left|exact U].
Qed.
Lemma NoDup_snoc {A} (l : list A) a : NoDup l -> ~ In a l -> NoDup (l ++ [a]).
Proof.
  induction l as [|x l IH]; intros H N; cbn [app]; [constructor; [easy|constructor]|]. inversion H; subst. constructor; [|apply IH; [assumption|intros X; apply N; now right]].
  intros X. apply in_app_or in X as [X|[->|[]]]; [contradiction|]. apply N. now left.
Qed.
Lemma stacks_nodup fuel p mf : forall ts m m', getStacks fuel p mf ts m = Ok m' -> NoDup (map fst m) -> NoDup (map fst m').
Proof.
  induction ts as [|t ts IH]; intros m m' H I; cbn [getStacks] in H; [inversion H; now subst|]. destruct (oneStack fuel p mf m t) as [m1| | |] eqn:E; cbn [bind] in H; try discriminate.
  apply (IH _ _ H). unfold oneStack in E. destruct (snd t) as [rg|]; [|inversion E; now subst]. destruct (unwindStack fuel p mf rg) as [[l b]| | |]; cbn [bind] in E; try discriminate.
  inversion E; subst. destruct b; [exact I|]. unfold emplace. destruct (existsb (fun e => fst e =? fst t) m) eqn:X; [exact I|]. rewrite map_app. cbn [map fst].
  apply NoDup_snoc; [exact I|]. intros Ha. apply in_map_iff in Ha as (e & Ee & Ie).
  assert (existsb (fun e => fst e =? fst t) m = true) by (apply existsb_exists; exists e; split; [exact Ie|lia]). congruence.
Qed.
(** Each thread whose registers can be had is listed, once, with its own stack - or its walk came to a
    frame whose (nonzero) frame pointer leads outside readable memory; only existing threads are
    listed.  Partial: that exception, see [C89_thread_lost_refuted]. *)
Theorem C89_threads_partial : forall fuel p maxframes lwps stacks,
  getStacks fuel p maxframes lwps [] = Ok stacks ->
  NoDup (map fst stacks) /\
  (forall id l, In (id, l) stacks -> exists regs, In (id, Some regs) lwps /\ unwindStack fuel p maxframes regs = Ok (l, false)) /\
  (NoDup (map fst lwps) -> forall id regs, In (id, Some regs) lwps ->
     (exists l, unwindStack fuel p maxframes regs = Ok (l, false) /\ In (id, l) stacks) \/
     (exists l x, unwindStack fuel p maxframes regs = Ok (l ++ [x], true) /\ fRegs x U_rip <> 0 /\ fRegs x U_rbp <> 0 /\
        (unreadable (pMem p) (fRegs x U_rbp) \/ unreadable (pMem p) (u64 (fRegs x U_rbp + 8))))).
Proof.
  intros fuel p mf lwps stacks H. split; [apply (stacks_nodup _ _ _ _ _ _ H); constructor|]. split.
  - intros id l I. destruct (stacks_inv _ _ _ _ _ _ H _ I) as [[]|(rg & J & K)]. exists rg. auto.
  - intros ND id rg I. assert (G : forall ts m, getStacks fuel p mf ts m = Ok stacks -> NoDup (map fst ts) -> (forall i, In i (map fst m) -> ~ In i (map fst ts)) -> In (id, Some rg) ts ->
      (exists l, unwindStack fuel p mf rg = Ok (l, false) /\ In (id, l) stacks) \/ (exists l, unwindStack fuel p mf rg = Ok (l, true))).
    { clear. induction ts as [|t ts IH]; intros m H ND D I; [easy|]. cbn [getStacks] in H. destruct (oneStack fuel p mf m t) as [m1| | |] eqn:E; cbn [bind] in H; try discriminate.
      cbn [map] in ND. inversion ND as [|? ? N1 N2]; subst. destruct I as [->|I].
      - unfold oneStack in E. cbn [fst snd] in E. destruct (unwindStack fuel p mf rg) as [[l b]| | |] eqn:U; cbn [bind] in E; try discriminate. inversion E; subst. destruct b; [right; eauto|].
        left. exists l. split; [reflexivity|]. apply (stacks_keeps _ _ _ _ _ _ H). apply emplace_new. intros X. apply (D _ X). now left.
      - apply (IH m1 H N2); [|exact I]. intros i X Y. unfold oneStack in E. destruct t as [j [rg'|]]; cbn [fst snd] in *; [|inversion E; subst; apply (D _ X); now right].
        destruct (unwindStack fuel p mf rg') as [[l b]| | |] eqn:U; cbn [bind] in E; try discriminate. inversion E; subst. destruct b; [apply (D _ X); now right|].
        apply in_map_iff in X as (e & Ee & Ie). apply emplace_inv in Ie as [Ie|Ie]; [apply (D i); [rewrite <- Ee; now apply in_map|now right]|]. subst e. cbn [fst] in Ee. subst. now apply N1. }
    destruct (G _ _ H ND) as [X|(l & U)]; [now intros i []|exact I|now left|]. right. pose proof U as U0. unfold unwindStack in U. apply walk_tr in U as (t & E & T). cbn [rev app] in E. subst t.
    destruct (exists_last (l := l)) as (l1 & x & ->); [intros ->; now apply tr_nonempty in T|]. exists l1, x. split; [exact U0|].
    destruct (tr_end _ _ _ _ _ _ _ T) as (f0 & k0 & T0 & _). inversion T0 as [ | |? ? ? rg1 ? ? U T1|? ? f1 g ? ? ? U G1 T1| |? ? ? U ES]; subst; try (now apply tr_nonempty in T1).
    unfold fallbackStep in ES. match type of ES with context [if ?c then word8 ?m ?a else None] => destruct (if c then word8 m a else None) as [ip|] end; [discriminate|].
    unfold rawIP in ES. destruct (fRegs x U_rip =? 0) eqn:R; [discriminate|]. destruct (fRegs x U_rbp =? 0) eqn:BP; [discriminate|].
    split; [lia|]. split; [lia|]. destruct (word8 (pMem p) (u64 (fRegs x U_rbp + 8))) as [ip|] eqn:W1; [|right; now apply word8_none]. destruct (word8 _ (fRegs x U_rbp)) eqn:W2; [|left; now apply word8_none].
    destruct (pExec p ip); discriminate.
Qed.
Print Assumptions C89_threads_partial.
Example C89_nonvacuous : match getStacks 10 C88_proc 9 [(5, Some C88_regs); (6, None)] [] with Ok [(i, l)] => i = 5 /\ length l = 4%nat | _ => False end.
Proof. vm_compute. split; reflexivity. Qed.
(** Refuted: a thread with two good frames, the outer one with a frame pointer that is not one (7,
    used as an ordinary register, say), is not listed at all. *)
Theorem C89_thread_lost_refuted :
  let mem := fun a => znth (a - 4096) (leBytes 8 7 ++ leBytes 8 65900) in
  let p := mkProc mem (fun _ => None) (fun a => (65536 <=? a) && (a <? 69632)) in
  let regs := fun c => if cell_eq_dec c U_rbp then 4096 else if cell_eq_dec c U_rip then 65800 else 7 in
  getStacks 10 p 9 [(5, Some regs)] [] = Ok [] /\
  match unwindStack 10 p 9 regs with Ok (l, b) => map rawIP l = [65800; 65900] /\ b = true | _ => False end.
Proof. vm_compute. repeat split. Qed.
Print Assumptions C89_thread_lost_refuted.
