(** Model of what a core's notes say of how the process ended and how it was started: CoreProcess::getSignalInfo (dead.cc:336-345) and CoreProcess::getAUXV (97-109),
    and pstack()'s first line with them (pstack.cc:32-50). *)
From Coq Require Import Ascii String.
From Verif Require Import Base DwarfReaderProofs CfiSpec Json ElfHash ElfObj Core Args FrameText Main.
Open Scope Z_scope.

(** NT_SIGINFO and NT_AUXV of elf.h, sizeof (siginfo_t) *)
Definition NT_SIGINFO : Z := 0x53494749.
Definition NT_AUXV : Z := 6.
Definition sigSize : Z := 128.
(** getSignalInfo: the first such note; readObj throws if it is shorter *)
Fixpoint signalInfo (notes : list ndesc) : res (option (list Z)) :=
  match notes with
  | [] => Ok None
  | n :: r => if beq (ndName n) CORE && (ndType n =? NT_SIGINFO)
              then if zlen (ndData n) <? sigSize then Throw else Ok (Some (ztake sigSize (ndData n)))
              else signalInfo r
  end.
(** getAUXV: a null pointer if there is none *)
Fixpoint coreAuxv (notes : list ndesc) : option (list Z) :=
  match notes with
  | [] => None
  | n :: r => if beq (ndName n) CORE && (ndType n =? NT_AUXV) then Some (ndData n) else coreAuxv r
  end.
(** pstack() of a core whose notes are in the segments [phs] of [file] (coreImage->notes()): the stacks have been made by then, the name of the core is already written when the notes
    are looked at *)
Definition coreText (fuel : nat) (file : list Z) (phs : list phdr) (io : list Z) (stacks : list wr) : wr :=
  match (let* ns := segNotes fuel file phs 0 in signalInfo ns) with
  | Ok sig => pstackText io sig stacks
  | Throw => andThen (emit (txt "process: " ++ io)) ([], Throw)
  | UB => ([], UB)
  | OutOfFuel => ([], OutOfFuel)
  end.
