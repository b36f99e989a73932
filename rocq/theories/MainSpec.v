(** Specification for the top level of pstack. *)
From Coq Require Import Ascii String.
From Verif Require Import Base MapsSpec CfiSpec FrameTextSpec.

(** A process id as written: an optional minus sign and decimal digits, an int. *)
Inductive PidText : list Z -> Z -> Prop :=
| PtPos s v : numeral 10 s v -> v < 2 ^ 31 -> PidText s v
| PtNeg s v : numeral 10 s v -> v <= 2 ^ 31 -> PidText (45 :: s) (- v).

Section World.
Context {img proc : Type} (killOk : Z -> bool) (attach : option img -> Z -> res proc) (fileType : list Z -> res Z)
        (core : option img -> list Z -> res proc) (openImg : list Z -> res (option img)).
(** An argument that is an image: not a process id, the file is ELF but not a core, and can be opened. *)
Definition Image (a : list Z) (i : option img) : Prop :=
  (forall v, ~ PidText a v) /\ (exists t, fileType a = Ok t /\ t <> 4) /\ openImg a = Ok i.
(** An argument that is a process, when the executable is [e]. *)
Definition Process (e : option img) (a : list Z) (p : proc) : Prop :=
  (exists v, PidText a v /\ killOk v = true /\ attach e v = Ok p) \/
  ((forall v, ~ PidText a v) /\ fileType a = Ok 4 /\ core e a = Ok p).
(** An argument that cannot be read. *)
Definition Unreadable (e : option img) (a : list Z) : Prop :=
  (exists v, PidText a v /\ (killOk v = false \/ attach e v = Throw)) \/
  ((forall v, ~ PidText a v) /\ (fileType a = Throw \/ (fileType a = Ok 4 /\ core e a = Throw) \/ (exists t, fileType a = Ok t /\ t <> 4 /\ openImg a = Throw))).
(** The executable in force after the arguments [pre]: the last image among them. *)
Inductive LastImage (e0 : option img) (pre : list (list Z)) : option img -> Prop :=
| LiNone : (forall a i, In a pre -> ~ Image a i) -> LastImage e0 pre e0
| LiSome p1 a p2 i : pre = p1 ++ a :: p2 -> Image a i -> (forall b j, In b p2 -> ~ Image b j) -> LastImage e0 pre i.
End World.

(** sigaction(2): the reasons of the fault signals SIGILL (4), SIGTRAP (5), SIGBUS (7), SIGFPE (8) and SIGSEGV (11). *)
Definition faultReasons : list (Z * Z * string) :=
  [ (4, 1, "illegal opcode"); (4, 2, "illegal operand"); (4, 3, "illegal address mode"); (4, 4, "illegal trap");
    (4, 5, "privileged opcode"); (4, 6, "privileged register"); (4, 7, "coprocessor error"); (4, 8, "internal stack error");
    (8, 1, "integer divide by zero"); (8, 2, "integer overflow"); (8, 3, "floating point divide by zero"); (8, 4, "floating point overflow");
    (8, 5, "floating point underflow"); (8, 6, "floating point inexact result"); (8, 7, "floating point invalid operation"); (8, 8, "subscript out of range");
    (11, 1, "address not mapped to object"); (11, 2, "invalid permissions for mapped object");
    (7, 1, "invalid address alignment"); (7, 2, "non-existent physical address"); (7, 3, "object specific hardware error");
    (7, 4, "hardware memory error consumed on a machine check: action required");
    (7, 5, "hardware memory error consumed on a machine check: action optional");
    (5, 1, "process breakpoint"); (5, 2, "process trace trap"); (5, 3, "process taken branch trap"); (5, 4, "hardware breakpoint/watchpoint") ]%string.
(** Any signal: who sent it. *)
Definition senders : list (Z * string) :=
  [ (0, "sent by kill/sigsend/raise"); (0x80, "sent by kernel"); (-1, "sent by sigqueue"); (-2, "sent by timer expiration");
    (-3, "sent by real time mesq state change"); (-4, "sent by AIO completion"); (-5, "sent by queued SIGIO"); (-6, "sent by tkill syscall") ]%string.
(** A siginfo_t: number, errno, code, then the fields of the kind of signal. *)
Definition siginfo (signo errno code : Z) (rest : list Z) : list Z :=
  leBytes 4 (signo mod 2 ^ 32) ++ leBytes 4 (errno mod 2 ^ 32) ++ leBytes 4 (code mod 2 ^ 32) ++ [0; 0; 0; 0] ++ rest.
(** The fields of a fault: the address; and of a signal sent by a process: its pid and user id. *)
Definition faultFields (addr : Z) (r : list Z) : list Z := leBytes 8 addr ++ r.
Definition senderFields (pid uid : Z) (r : list Z) : list Z := leBytes 4 (pid mod 2 ^ 32) ++ leBytes 4 (uid mod 2 ^ 32) ++ r.
