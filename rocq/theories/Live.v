(** Model of stopping and resuming the threads of a live process: live.cc, proc.h. *)
From Verif Require Import Base.

(** LiveProcess::Lwp proc.h:350-354 (stoppedAt is left out). *)
Record lwp : Type := mkLwp { stopCount : Z; ptraceErr : Z }.
(** What the debugger does to the kernel's view of a thread.  Successful PT_ATTACH, PT_DETACH, PTRACE_CONT
    with a signal, and kill(SIGCONT); a PT_ATTACH that fails has no effect. *)
Inductive kact : Type := KAttach (t : Z) | KDetach (t : Z) | KCont (t sig : Z) | KKill (t : Z).
(** stoppedLWPs, a std::map in key order, and the effects so far. *)
Record live : Type := mkLive { lwps : list (Z * lwp); trace : list kact }.

(** What the kernel answers to one LiveProcess::stop: PT_ATTACH fails with an errno, or works and then waitpid
    returns these results in turn. *)
Inductive wres : Type :=
| WIntr                      (* -1, EINTR *)
| WErr (e : Z)               (* -1, another errno *)
| WNotStopped                (* not WIFSTOPPED *)
| WSig (sig contErr : Z)     (* stopped by a signal other than SIGSTOP; errno of PTRACE_CONT or 0 *)
| WStop.                     (* stopped by SIGSTOP *)
Inductive outcome : Type := AttachErr (e : Z) | Attached (ws : list wres).

(** std::map operations *)
Fixpoint lfind (m : list (Z * lwp)) (t : Z) : option lwp :=
  match m with [] => None | (k, v) :: r => if k =? t then Some v else lfind r t end.
Fixpoint lset (m : list (Z * lwp)) (t : Z) (v : lwp) : list (Z * lwp) :=
  match m with
  | [] => [(t, v)]
  | (k, w) :: r => if k =? t then (t, v) :: r else if t <? k then (t, v) :: m else (k, w) :: lset r t v
  end.

(** live.cc:199-227: wait for the thread to stop; gives the final ptraceErr and the effects (newest first).
    The list of results running out means waitpid has not returned. *)
Fixpoint waitStop (t : Z) (ws : list wres) (acts : list kact) : res (Z * list kact) :=
  match ws with
  | [] => OutOfFuel
  | WIntr :: r => waitStop t r acts
  | WErr e :: r => if e =? 0 then waitStop t r acts else Ok (e, acts)
  | WNotStopped :: _ => Ok (22, acts)
  | WSig s e :: r => if e =? 0 then waitStop t r (KCont t s :: acts) else Ok (e, acts)
  | WStop :: _ => Ok (0, acts)
  end.
(** LiveProcess::stop live.cc:179-231 *)
Definition stop (s : live) (t : Z) (o : outcome) : res live :=
  let tcb := match lfind (lwps s) t with Some l => l | None => mkLwp 0 0 end in
  let tcb' := mkLwp (stopCount tcb + 1) (ptraceErr tcb) in
  if negb (stopCount tcb =? 0) then Ok (mkLive (lset (lwps s) t tcb') (trace s))
  else match o with
       | AttachErr e => Ok (mkLive (lset (lwps s) t (mkLwp (stopCount tcb + 1) e)) (trace s))
       | Attached ws =>
           let* (e, acts) := waitStop t ws (KAttach t :: trace s) in
           Ok (mkLive (lset (lwps s) t (mkLwp (stopCount tcb + 1) e))
                      (if e =? 0 then acts else KDetach t :: KKill t :: acts))
       end.
(** LiveProcess::resume live.cc:59-84 (the memory cache is flushed at the same time as the detach) *)
Definition resume (s : live) (t : Z) : live :=
  match lfind (lwps s) t with
  | None => s
  | Some tcb =>
      let m := lset (lwps s) t (mkLwp (stopCount tcb - 1) (ptraceErr tcb)) in
      if negb (stopCount tcb - 1 =? 0) then mkLive m (trace s)
      else if negb (ptraceErr tcb =? 0) then mkLive m (trace s)
      else mkLive m (KDetach t :: trace s)
  end.
(** LiveProcess::stopProcess live.cc:126-169.  [scans]: what the successive readings of /proc/<pid>/task list,
    with the kernel's answer for each thread should it have to be stopped; exactly those readings are made. *)
Fixpoint stopScan (s : live) (suspended : list Z) (entries : list (Z * outcome)) : res (live * list Z) :=
  match entries with
  | [] => Ok (s, suspended)
  | (t, o) :: r => if existsb (Z.eqb t) suspended then stopScan s suspended r
                   else let* s' := stop s t o in stopScan s' (t :: suspended) r
  end.
Fixpoint stopScans (s : live) (suspended : list Z) (scans : list (list (Z * outcome))) : res live :=
  match scans with
  | [] => OutOfFuel
  | es :: r =>
      let* (s', susp') := stopScan s suspended es in
      if length suspended =? length susp' then match r with [] => Ok s' | _ => OutOfFuel end
      else stopScans s' susp' r
  end%nat.
Definition stopProcess (s : live) (pid : Z) (o : outcome) (scans : list (list (Z * outcome))) : res live :=
  let* s' := stop s pid o in stopScans s' [pid] scans.
(** LiveProcess::resumeProcess live.cc:171-177 *)
Definition resumeProcess (s : live) : live :=
  let s' := fold_left (fun s e => resume s (fst e)) (lwps s) s in
  mkLive (filter (fun e => negb (stopCount (snd e) =? 0)) (lwps s')) (trace s').
(** LiveProcess::~LiveProcess live.cc:117-124 *)
Definition destroy (s : live) : live :=
  fold_left (fun s e =>
    match lfind (lwps s) (fst e) with
    | Some l => if stopCount l >? 0 then resume (mkLive (lset (lwps s) (fst e) (mkLwp 1 (ptraceErr l))) (trace s)) (fst e) else s
    | None => s
    end) (lwps s) s.

(** Uses of the interface: StopLWP (proc.h:456-466), StopProcess (437-453), and the calls themselves. *)
Inductive ev : Type :=
| EStop (t : Z) (o : outcome)
| EResume (t : Z)
| EStopProc (o : outcome) (scans : list (list (Z * outcome)))
| EResumeProc.
Definition step (pid : Z) (s : live) (e : ev) : res live :=
  match e with
  | EStop t o => stop s t o
  | EResume t => Ok (resume s t)
  | EStopProc o scans => stopProcess s pid o scans
  | EResumeProc => Ok (resumeProcess s)
  end.
Fixpoint runEvents (pid : Z) (s : live) (es : list ev) : res live :=
  match es with [] => Ok s | e :: r => let* s' := step pid s e in runEvents pid s' r end.
(** LiveProcess::LiveProcess live.cc:38-45 without alreadyStopped *)
Definition newLive : live := mkLive [] [].
