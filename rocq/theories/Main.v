(** Model of the top level: Process::load (process.cc:1199-1220), the arguments of pstack
    (pstack.cc:153-193 and 392-444), symbols of a process by name (process.cc:940-970, proc_service.cc:44-66), and
    the texts of signals and wait statuses (process.cc:1284-1438). *)
From Coq Require Import Ascii String.
From Verif Require Import Base DwarfReader DwarfReaderProofs Json Args FrameText.

(** ** What an argument is *)
(** std::from_chars for digits: the value and the number of digits, and what is left. *)
Fixpoint digitsOf (acc : Z) (l : list Z) : Z * list Z :=
  match l with
  | c :: r => if (48 <=? c) && (c <=? 57) then digitsOf (acc * 10 + (c - 48)) r else (acc, l)
  | [] => (acc, [])
  end.
(** process.cc:1201-1204: [from_chars] of a pid_t (int), and the test that it took all.  No digits: invalid_argument;
    not an int: result_out_of_range. *)
Definition parsePid (s : list Z) : option Z :=
  let '(neg, body) := match s with c :: r => if c =? 45 then (true, r) else (false, s) | [] => (false, []) end in
  let '(v, rest) := digitsOf 0 body in
  if (zlen rest =? 0) && negb (zlen body =? 0) then
    let x := if neg then - v else v in
    if (- 2 ^ 31 <=? x) && (x <? 2 ^ 31) then Some x else None
  else None.

Section World.
Context {img proc : Type}.
(** The world: whether a process can be signalled; what attaching to a process gives; the type (e_type)
    of a file read as ELF; what loading it as a core gives; Context::openImage; and the traces of a process, native and Python, at a
    time (the count of iterations done so far: a live process moves on). *)
Context (killOk : Z -> bool) (attach : option img -> Z -> res proc) (fileType : list Z -> res Z)
        (core : option img -> list Z -> res proc) (openImg : list Z -> res (option img))
        (native : proc -> nat -> wr) (pyTrace : proc -> nat -> list Z * res bool) (interrupted : nat -> bool).

(** Process::load process.cc:1199-1220.  ET_CORE is 4. *)
Definition load (exec : option img) (id : list Z) : res (option proc) :=
  match parsePid id with
  | Some pid => if killOk pid then let* p := attach exec pid in Ok (Some p) else Throw
  | None =>
      let* t := fileType id in
      if negb (t =? 4) then Ok None
      else let* p := core exec id in Ok (Some p)
  end.

(** The options: -p, -A, and whether -b gave a non-zero delay. *)
Record mopts : Type := mkMO { moPython : bool; moAll : bool; moRepeat : bool }.
(** One iteration of doStack, pstack.cc:413-424 (built with Python). *)
Definition oneRound (o : mopts) (p : proc) (t : nat) : wr :=
  andThen (if moPython o || moAll o then
             match pyTrace p t with
             | (x, Ok isPy) => if moPython o && negb isPy then (x, Throw) else (x, Ok tt)
             | (x, Throw) => (x, Throw) | (x, UB) => (x, UB) | (x, OutOfFuel) => (x, OutOfFuel)
             end
           else emit [])
          (if negb (moPython o) then native p t else emit []).
(** doStack pstack.cc:411-430; [t] counts the iterations, of all arguments.  The answer has the next time. *)
Fixpoint doStack (n : nat) (o : mopts) (p : proc) (t : nat) : nat * wr :=
  match n with
  | O => (t, ([], OutOfFuel))
  | S m =>
      if interrupted t then (t, emit [])
      else
        match oneRound o p t with
        | (x, Ok _) => if moRepeat o then let '(t', w) := doStack m o p (S t) in (t', andThen (emit x) w) else (S t, emit x)
        | w => (S t, w)
        end
  end.
(** The loop over the arguments, pstack.cc:431-443: what is written, the arguments reported as failed on stderr, the exit
    status (EX_SOFTWARE is 70).  [Throw] of an argument is caught; the others end the program. *)
Fixpoint argLoop (n : nat) (o : mopts) (exec : option img) (t : nat) (args : list (list Z)) : list Z * list (list Z) * res unit :=
  match args with
  | [] => ([], [], Ok tt)
  | a :: r =>
      let '(exec', t', (x, e)) :=
        match load exec a with
        | Ok None => match openImg a with
                     | Ok i => (i, t, ([], Ok tt))
                     | Throw => (exec, t, ([], Throw)) | UB => (exec, t, ([], UB)) | OutOfFuel => (exec, t, ([], OutOfFuel))
                     end
        | Ok (Some p) => let '(t', w) := doStack n o p t in (exec, t', w)
        | Throw => (exec, t, ([], Throw)) | UB => (exec, t, ([], UB)) | OutOfFuel => (exec, t, ([], OutOfFuel))
        end in
      match e with
      | UB => (x, [], UB)
      | OutOfFuel => (x, [], OutOfFuel)
      | Ok _ => let '(out, failed, z) := argLoop n o exec' t' r in (x ++ out, failed, z)
      | Throw => let '(out, failed, z) := argLoop n o exec' t' r in (x ++ out, a :: failed, z)
      end
  end.
Definition exitStatus (failed : list (list Z)) : Z := match failed with [] => 0 | _ => 70 end.
End World.

(** ** Symbols of a process by name *)
(** A symbol: section index and value; SHN_UNDEF is 0.  An object: what findDynamicSymbol and findDebugSymbol
    answer (C115). *)
Record symv : Type := mkSymv { svShndx : Z; svValue : Z }.
Record sobj : Type := mkSobj { soDyn : list Z -> res symv; soDebug : list Z -> res symv }.
(** The objects in the order of their load addresses (std::map): name, and the object if it can be found. *)
Definition sobjs : Type := list (Z * (list Z * option sobj)).
(** Process::resolveSymbolDetail process.cc:940-960; the object's address and the symbol. *)
Fixpoint resolveDetail (name : list Z) (debug : bool) (accept : list Z -> bool) (l : sobjs) : res (Z * symv) :=
  match l with
  | [] => Throw
  | (base, (n, x)) :: r =>
      if negb (accept n) then resolveDetail name debug accept r
      else match x with
           | None => resolveDetail name debug accept r
           | Some ob =>
               let* y := soDyn ob name in
               if negb (svShndx y =? 0) then Ok (base, y)
               else if debug then
                 let* y := soDebug ob name in
                 if negb (svShndx y =? 0) then Ok (base, y) else resolveDetail name debug accept r
               else resolveDetail name debug accept r
           end
  end.
(** Process::resolveSymbol process.cc:962-970. *)
Definition resolveSym (name : list Z) (debug : bool) (accept : list Z -> bool) (l : sobjs) : res Z :=
  let* (base, y) := resolveDetail name debug accept l in Ok (u64 (base + svValue y)).
(** std::filesystem::path::filename: what follows the last separator. *)
Fixpoint fileName (s : list Z) : list Z :=
  match s with
  | [] => []
  | c :: r => if existsb (Z.eqb 47) r then fileName r else if c =? 47 then r else s
  end.
Fixpoint beqs (a b : list Z) : bool :=
  match a, b with
  | [], [] => true
  | x :: a', y :: b' => (x =? y) && beqs a' b'
  | _, _ => false
  end.
(** ps_pglobal_lookup proc_service.cc:44-66: [None] is PS_ERR (anything thrown is caught). *)
Definition globalLookup (object : option (list Z)) (name : list Z) (l : sobjs) : option Z :=
  let accept n := match object with
                  | None => true
                  | Some ob => beqs (fileName n) ob || beqs (fileName n) (txt "libc.so.6")
                  end in
  match resolveSym name true accept l with Ok a => Some a | _ => None end.

(** ** The text of a signal *)
Definition codeTable : Type := list (Z * string).
(** process.cc:1300-1414, with Linux's values on x86-64: all the conditional codes are defined. *)
Definition codes : list (Z * codeTable) :=
  [ (11, [(1, "address not mapped to object"); (2, "invalid permissions for mapped object"); (3, "address failed bouds checks");
          (5, "ADI not enabled"); (6, "disrupting MCD error"); (7, "precise MCD exception"); (8, "asynchronous ARM MTE error")]);
    (0, [(0, "sent by kill/sigsend/raise"); (0x80, "sent by kernel"); (-1, "sent by sigqueue"); (-2, "sent by timer expiration");
         (-3, "sent by real time mesq state change"); (-4, "sent by AIO completion"); (-5, "sent by queued SIGIO");
         (-6, "sent by tkill syscall"); (-7, "sent by execve killing subsidiary threads"); (-60, "sent by glibc async name lookup completion");
         (1, "data input available"); (2, "output buffers available"); (3, "input message available"); (4, "I/O error");
         (5, "high priority input available"); (6, "device disconnected")]);
    (4, [(1, "illegal opcode"); (2, "illegal operand"); (3, "illegal address mode"); (4, "illegal trap"); (5, "privileged opcode");
         (6, "privileged register"); (7, "coprocessor error"); (8, "internal stack error"); (9, "unimplemented instruction address")]);
    (8, [(1, "integer divide by zero"); (2, "integer overflow"); (3, "floating point divide by zero"); (4, "floating point overflow");
         (5, "floating point underflow"); (6, "floating point inexact result"); (7, "floating point invalid operation");
         (8, "subscript out of range"); (14, "undiagnosed floating point exception"); (15, "trap condition")]);
    (7, [(1, "invalid address alignment"); (2, "non-existent physical address"); (3, "object specific hardware error");
         (4, "hardware memory error consumed on a machine check: action required");
         (5, "hardware memory error consumed on a machine check: action optional")]);
    (5, [(1, "process breakpoint"); (2, "process trace trap"); (3, "process taken branch trap"); (4, "hardware breakpoint/watchpoint");
         (5, "undiagnosed trap"); (6, "perf event with sigtrap=1")]);
    (31, []) ]%string.
Fixpoint assoc {V : Type} (k : Z) (l : list (Z * V)) : option V :=
  match l with [] => None | (k', v) :: r => if k' =? k then Some v else assoc k r end.
(** process.cc:1428-1438. *)
Definition codeText (signo code : Z) : list Z :=
  match (match assoc signo codes with Some t => Some t | None => assoc 0 codes end) with
  | Some t => match assoc code t with Some s => txt " - " ++ txt s | None => [] end
  | None => []
  end.
(** operator << (SigInfo) process.cc:1299-1438; [si] are the bytes of a siginfo_t of x86-64: si_signo at 0, si_code at 8, and from 16 a union,
    of which si_pid is the first int, si_addr the first pointer and si_fd the third int.  HAVE_SIGXX_NP (1420) is never defined: 1416 defines
    HAVE_SIGXXX_NP. *)
Definition sigInfoText (si : list Z) : list Z :=
  let int at' := leSigned (ztake 4 (zdrop at' si)) in
  txt "si_signo " ++ intText (int 0) ++ txt ", si_code " ++ intText (int 8) ++ txt ", si_pid " ++ intText (int 16) ++
  txt ", si_fd " ++ intText (int 24) ++ txt ", si_addr " ++ ptrText (leValue (ztake 8 (zdrop 16 si))) ++ codeText (int 0) (int 8).

(** ** The text of a wait status *)
(** operator << (WaitStatus) process.cc:1284-1297 with glibc's macros; [name] is strsignal.  WIFSIGNALED is
    ((signed char)((status & 0x7f) + 1) >> 1) > 0. *)
Definition waitText (name : Z -> list Z) (st : Z) : list Z :=
  let low := Z.land st 0x7f in
  let sc := let x := (low + 1) mod 256 in if x <? 128 then x else x - 256 in
  if sc / 2 >? 0 then txt "signal(" ++ name low ++ txt ")" ++ (if Z.land st 0x80 =? 0 then [] else txt "(core dumped)")
  else if Z.land st 0xff =? 0x7f then txt "stop(" ++ name (Z.land (Z.shiftr st 8) 0xff) ++ txt ")"
  else if low =? 0 then txt "exit(" ++ intText (Z.land (Z.shiftr st 8) 0xff) ++ txt ")"
  else [].

(** pstack() pstack.cc:32-50 in text: the first line of a process and its threads' stacks. *)
Definition pstackText (io : list Z) (sig : option (list Z)) (stacks : list wr) : wr :=
  andThen (emit (txt "process: " ++ io ++ (match sig with Some si => txt " (terminated with " ++ sigInfoText si ++ txt ")" | None => [] end) ++ [10]))
          (fold_right (fun w r => andThen w (andThen (emit [10]) r)) (emit []) stacks).
