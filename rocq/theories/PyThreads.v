(** Model of the headings of a Python process' threads: pthreadTidOffset (python.cc:110-143), printThread (python.tcc:402-419), the loops of printInterp and printInterpreters
    (python.tcc:425-453, 276-281; the modules are left out), for the processes traced by one run of pstack, one after the other.
    What print says of a thread's frame is a parameter (it is modelled in Python.v; it catches what is thrown). *)
From Coq Require Import Ascii String.
From Verif Require Import Base Json Args Python Main FrameText PyFind.
Open Scope Z_scope.
Notation length := List.length.

(** "static size_t offset" and "static enum { notDone, notFound, found } status" 112-113: one for the whole run *)
Inductive tidStatus : Type := NotDone | NotFound | Found (offset : Z).
(** A traced process: its memory, objects, and interpreter list head; the size of PyThreadState in its Python and where thread_id, frame and next are in it;
    what print says of the frame, given the thread state's address and the frame's *)
Record pyproc : Type := mkPP { ppMem : memory; ppObjs : sobjs; ppHead : Z; ppSize : Z; ppIdOff : Z; ppFrameOff : Z; ppNextOff : Z; ppShow : Z -> Z -> list Z }.

(** What is written, the static variables afterwards, and the result or what was thrown *)
Definition T (A : Type) : Type := tidStatus -> list Z * tidStatus * res A.
Definition retT {A} (a : A) : T A := fun s => ([], s, Ok a).
Definition liftT {A} (r : res A) : T A := fun s => ([], s, r).
Definition say (x : list Z) : T unit := fun s => (x, s, Ok tt).
Definition bindT {A B} (x : T A) (f : A -> T B) : T B := fun s =>
  match x s with
  | (o, s1, Ok a) => match f a s1 with (o2, s2, r) => (o ++ o2, s2, r) end
  | (o, s1, Throw) => (o, s1, Throw)
  | (o, s1, UB) => (o, s1, UB)
  | (o, s1, OutOfFuel) => (o, s1, OutOfFuel)
  end.
Notation "x <~ e ; f" := (bindT e (fun x => f)) (at level 60, e at next level, right associativity).
Definition readT (m : memory) (a n : Z) : T (list Z) := liftT (match memread m (u64 a) (Z.to_nat n) with Some b => Ok b | None => Throw end).

(** the objects that may have the descriptor 118-122 *)
Definition threadLib (n : list Z) : bool := has (FrameText.txt "libc.") n || has (FrameText.txt "libpthread") n || has (FrameText.txt "libthread") n.
(** pthreadTidOffset 110-143; None: it returns false *)
Definition tidOffset (p : pyproc) : T (option Z) := fun st =>
  match st with
  | Found k => ([], st, Ok (Some k))
  | NotFound => ([], st, Ok None)
  | NotDone =>
      match (let* a := resolveSym (FrameText.txt "_thread_db_pthread_tid") true threadLib (ppObjs p) in
             match memread (ppMem p) (u64 a) 12 with Some b => Python.fld b 8 4 | None => Throw end) with
      | Ok k => ([], Found k, Ok (Some k))
      | Throw => ([], NotFound, Ok None)
      | UB => ([], NotDone, UB)
      | OutOfFuel => ([], NotDone, OutOfFuel)
      end
  end.
Definition s32 (v : Z) : Z := if v <? 2147483648 then v else v - 4294967296.
(** printThread 404-419 *)
Definition printThread (p : pyproc) (t : Z) : T Z :=
  b <~ readT (ppMem p) t (ppSize p);
  id <~ liftT (Python.fld b (ppIdOff p) 8); f <~ liftT (Python.fld b (ppFrameOff p) 8); n <~ liftT (Python.fld b (ppNextOff p) 8);
  off <~ (if id =? 0 then retT None else tidOffset p);
  _ <~ match off with
       | Some k => w <~ readT (ppMem p) (id + k) 4; say (FrameText.txt "pthread: 0x" ++ hexText 16 id ++ FrameText.txt ", lwp " ++ intText (s32 (le w)))
       | None => say (FrameText.txt "anonymous thread")
       end;
  _ <~ say [10]; _ <~ say (ppShow p t f); retT n.
(** printInterp 437-446: the threads of an interpreter *)
Fixpoint threadLoop (n : nat) (p : pyproc) (seen : list Z) (t : Z) : T unit :=
  match n with
  | O => liftT OutOfFuel
  | S k =>
      if t =? 0 then retT tt
      else t' <~ printThread p t;
           if existsb (Z.eqb t') seen then retT tt
           else if Z.of_nat (S (length seen)) >? 128 then retT tt
           else _ <~ say [10]; threadLoop k p (t' :: seen) t'
  end.
(** printInterp 427-453 without the modules *)
Definition printInterp (fuel : nat) (p : pyproc) (a : Z) : T Z :=
  b <~ readT (ppMem p) a 24; next <~ liftT (Python.fld b 0 8); head <~ liftT (Python.fld b 8 8);
  _ <~ say (FrameText.txt "---- interpreter @" ++ hexText 16 a ++ FrameText.txt " -----" ++ [10]);
  _ <~ threadLoop fuel p [head] head; retT next.
(** printInterpreters 276-281 *)
Fixpoint interpLoop (n : nat) (p : pyproc) (a : Z) : T unit :=
  match n with O => liftT OutOfFuel | S k => if a =? 0 then retT tt else q <~ printInterp k p a; interpLoop k p q end.
Definition traceProc (fuel : nat) (p : pyproc) : T unit := b <~ readT (ppMem p) (ppHead p) 8; a <~ liftT (Python.fld b 0 8); interpLoop fuel p a.
(** the processes of one run, in order, each with what it made pstack write and how it ended; an exception ends one process only (pstack.cc 411-440) *)
Fixpoint traceAll (fuel : nat) (ps : list pyproc) (st : tidStatus) : list (list Z * res unit) :=
  match ps with [] => [] | p :: r => match traceProc fuel p st with (o, st', x) => (o, x) :: match x with UB | OutOfFuel => [] | _ => traceAll fuel r st' end end end.
