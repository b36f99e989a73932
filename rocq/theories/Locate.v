(** Model of unwinding with everything that is remembered on the way: the frame information of an image, made
    when it is first needed (Info::getCFI dwarf_info.cc:8-19, CFI::CFI dwarf_frame.cc:139-158) and read as it is
    searched; the rows of its table that have been computed (Info::callFrameForAddr, dwarfproc.cc:529-534);
    what a code address is associated with (ProcessLocation, CodeLocation dwarfproc.cc:659-735).  x86-64. *)
From Verif Require Import Base DwarfReader Regs Cfi Expr Unwind Frames ElfObj Core.

(** The sections of an image that have frame information: contents and sh_addr of each that is there
    (getDebugSection and getSection, dwarf_frame.cc:144-146; NO_EH_FRAME_HDR is not set). *)
Record sections : Type := mkSecs { sEh : option (list Z * Z); sHdr : option (list Z * Z); sDebug : option (list Z * Z) }.
(** The constructor for FI_EH_FRAME, the first candidate for FI_BEST: .eh_frame, or .debug_frame if there is none (151-158).
    Without either there is no frame information, and none for the second candidate (dwarf_info.cc:15-18). *)
Definition frameOf (s : sections) : option (list Z * bool * Z) :=
  match sEh s with
  | Some (d, a) => Some (d, true, a)
  | None => match sDebug s with Some (d, a) => Some (d, false, a) | None => None end
  end.
(** A Dwarf::Info: cfi[FI_EH_FRAME], callFrameForAddr. *)
Record dwinfo : Type := mkDI { diCfi : option cfi; diRows : list (Z * frame) }.
Definition state : Type := Z -> dwinfo.
(** Nothing has been read. *)
Definition state0 : state := fun _ => mkDI None [].
Definition put (s : state) (i : Z) (d : dwinfo) : state := fun j => if j =? i then d else s j.

Section Locate.
(** The loaded objects; the image at each load address (an image may be loaded more than once: it is the same
    Elf::Object and Dwarf::Info then); the sections of each image; PF_X of p_flags; memory. *)
Context (fuel : nat) (objs : objmap) (ident : Z -> Z) (sects : Z -> sections) (isExec : phdr -> bool) (mem : memory).

(** Info::getCFI(FI_BEST) dwarf_info.cc:8-19 for an image with a frame section; if the constructor throws
    nothing is remembered. *)
Definition getCfi (s : state) (i : Z) (d : list Z) (eh : bool) (sa : Z) : state * res cfi :=
  match diCfi (s i) with
  | Some k => (s, Ok k)
  | None => match makeCfi d eh sa fuel (sHdr (sects i)) with
            | Ok k => (put s i (mkDI (Some k) (diRows (s i))), Ok k)
            | Throw => (s, Throw)
            | UB => (s, UB)
            | OutOfFuel => (s, OutOfFuel)
            end
  end.
(** ProcessLocation::ProcessLocation 680-689, then cfi(), fde() and cie() (659-667, 691-697, 721-735): what the address
    [a] is associated with, and the image.  Simplification: fde() searches again if asked again after it found nothing. *)
Definition lookup (s : state) (a : Z) : state * res (option (Z * codeInfo)) :=
  match findSegment objs a with
  | Ok None => (s, Ok None)
  | Ok (Some (k, _, _)) =>
      let i := ident k in
      match frameOf (sects i) with
      | None => (s, Ok None)
      | Some (d, eh, sa) =>
          match getCfi s i d eh sa with
          | (s1, Ok c) =>
              let (c', r) := find_fde d eh sa fuel c (u64 (a - k)) in
              (put s1 i (mkDI (Some c') (diRows (s1 i))),
               let* o := r in
               match o with
               | None => Ok None
               | Some f => match cieFind (fCie f) (kCies c') with
                           | None => UB
                           | Some e => Ok (Some (i, mkCI d (mkCie (cCode e) (cData e)) (cInsns e) (cEnd e) (fInsns f) (fEnd f) (fLoc f) (cRar e) (cSignal e) k))
                           end
               end)
          | (s1, Throw) => (s1, Throw)
          | (s1, UB) => (s1, UB)
          | (s1, OutOfFuel) => (s1, OutOfFuel)
          end
      end
  | Throw => (s, Throw)
  | UB => (s, UB)
  | OutOfFuel => (s, OutOfFuel)
  end.

(** StackFrame::scopeIP 35-75 *)
Definition scope (s : state) (f : sframe) : state * res Z :=
  let raw := rawIP f in
  if raw =? 0 then (s, Ok raw)
  else match fMech f with
  | MachineRegs | Trampoline => (s, Ok raw)
  | _ =>
      if fSigTramp f then (s, Ok raw)
      else if fFromTramp f then (s, Ok raw)
      else let (s', r) := lookup s raw in
           (s', let* o := r in
                match o with
                | Some (_, ci) => if ciSignal ci then Ok raw else Ok (u64 (raw - 1))
                | None => Ok (u64 (raw - 1))
                end)
  end.
(** The row for an address 529-536: from callFrameForAddr, or computed and put there; if that throws nothing is put there. *)
Definition rowFor (s : state) (i : Z) (ci : codeInfo) (objaddr : Z) : state * res frame :=
  match find (fun e => fst e =? objaddr) (diRows (s i)) with
  | Some (_, r) => (s, Ok r)
  | None =>
      match fdeExec fuel (ciData ci) (ciParams ci) (ciCieInsns ci) (ciCieEnd ci) (ciFdeInsns ci) (ciFdeEnd ci) (ciIloc ci) objaddr with
      | Ok r => (put s i (mkDI (diCfi (s i)) (diRows (s i) ++ [(objaddr, r)])), Ok r)
      | Throw => (s, Throw)
      | UB => (s, UB)
      | OutOfFuel => (s, OutOfFuel)
      end
  end.
(** StackFrame::unwind 513-641 *)
Definition unwindS (s : state) (f : sframe) : state * sframe * res (option coreRegs) :=
  match scope s f with
  | (s1, Ok ip) =>
      match lookup s1 ip with
      | (s2, Ok None) => (s2, f, Throw)
      | (s2, Ok (Some (i, ci))) =>
          let f1 := mkFr (fMech f) (fRegs f) (fCfa f) (fSigTramp f || ciSignal ci) (fFromTramp f) in
          let e := mkEnv (fRegs f) (fCfa f) mem (ciReloc ci) None in
          match rowFor s2 i ci (u64 (ip - ciReloc ci)) with
          | (s3, x) =>
              match (let* dcf := x in unwindRegs fuel (ciData ci) dcf (ciRar ci) e) with
              | Ok (cfa, o) => (s3, mkFr (fMech f1) (fRegs f1) cfa (fSigTramp f1) (fFromTramp f1), Ok o)
              | Throw => (s3, f1, Throw)
              | UB => (s3, f1, UB)
              | OutOfFuel => (s3, f1, OutOfFuel)
              end
          end
      | (s2, Throw) => (s2, f, Throw)
      | (s2, UB) => (s2, f, UB)
      | (s2, OutOfFuel) => (s2, f, OutOfFuel)
      end
  | (s1, Throw) => (s1, f, Throw)
  | (s1, UB) => (s1, f, UB)
  | (s1, OutOfFuel) => (s1, f, OutOfFuel)
  end.
(** Whether an address is in an executable segment (process.cc:1051, 1169-1171). *)
Definition execAt (a : Z) : bool := match findSegment objs a with Ok (Some (_, _, h)) => isExec h | _ => false end.
(** The fallbacks (Unwind.v) do not use frame information. *)
Definition bare : process := mkProc mem (fun _ => None) execAt.
(** Lwp::unwind process.cc:980-1197 *)
Fixpoint walkS (count : nat) (s : state) (done : list sframe) (prev : sframe) : state * res (list sframe * bool) :=
  match count with
  | O => (s, Ok (rev (prev :: done), false))
  | S k =>
      match unwindS s prev with
      | (s', prev', Ok None) => (s', Ok (rev (prev' :: done), false))
      | (s', prev', Ok (Some regs)) => walkS k s' (prev' :: done) (mkFr Dwarf regs 0 false (fSigTramp prev'))
      | (s', prev', Throw) =>
          match fallbackStep bare prev' with
          | Give f prev'' => walkS k s' (prev'' :: done) f
          | Stop => (s', Ok (rev (prev' :: done), false))
          | Escapes => (s', Ok (rev (prev' :: done), true))
          end
      | (s', _, UB) => (s', UB)
      | (s', _, OutOfFuel) => (s', OutOfFuel)
      end
  end.
Definition unwindStackS (s : state) (maxframes : Z) (regs : coreRegs) : state * res (list sframe * bool) :=
  walkS (Z.to_nat maxframes) s [] (newFrame MachineRegs regs).
(** Stacks one after the other, of one process or of several snapshots of its registers (process.cc:1227-1247). *)
Fixpoint stacksS (s : state) (maxframes : Z) (l : list coreRegs) : state * list (res (list sframe * bool)) :=
  match l with
  | [] => (s, [])
  | r :: l' => let (s', x) := unwindStackS s maxframes r in let (s'', xs) := stacksS s' maxframes l' in (s'', x :: xs)
  end.
End Locate.
