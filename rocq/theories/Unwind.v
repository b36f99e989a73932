(** Model of one unwinding step, StackFrame::unwind and StackFrame::scopeIP (dwarfproc.cc:35-75,
    513-641), and of the stack walk Lwp::unwind (process.cc:980-1197), for x86-64. *)
From Verif Require Import Base Leb DwarfReader DwarfReaderProofs Regs Cfi Expr.

(** What a code address is associated with: its object's frame section, CIE and FDE
    (ProcessLocation::cfi/fde/cie), load bias. *)
Record codeInfo : Type := mkCI {
  ciData : list Z; ciParams : cieParams; ciCieInsns : Z; ciCieEnd : Z;
  ciFdeInsns : Z; ciFdeEnd : Z; ciIloc : Z; ciRar : Z; ciSignal : bool; ciReloc : Z }.

(** The process as the unwinder sees it: memory, frame information by address, and whether an
    address is in an executable segment of a loaded object. *)
Record process : Type := mkProc {
  pMem : memory; pInfo : Z -> option codeInfo; pExec : Z -> bool }.

(** enum UnwindMechanism proc.h:43-72 (the members used on x86-64). *)
Inductive mechanism : Type := MachineRegs | Dwarf | FramePointer | BadIpRecovery | Trampoline.
(** StackFrame proc.h. *)
Record sframe : Type := mkFr {
  fMech : mechanism; fRegs : coreRegs; fCfa : Z; fSigTramp : bool; fFromTramp : bool }.
(** StackFrame::StackFrame dwarfproc.cc:506-511 *)
Definition newFrame (m : mechanism) (r : coreRegs) : sframe := mkFr m r 0 false false.

Definition rawIP (f : sframe) : Z := fRegs f U_rip.

(** StackFrame::scopeIP dwarfproc.cc:35-75 *)
Definition scopeIP (p : process) (f : sframe) : Z :=
  let raw := rawIP f in
  if raw =? 0 then raw
  else match fMech f with
  | MachineRegs | Trampoline => raw
  | _ =>
      if fSigTramp f then raw
      else if fFromTramp f then raw
      else match pInfo p raw with
           | Some ci => if ciSignal ci then raw else u64 (raw - 1)
           | None => u64 (raw - 1)
           end
  end.

(** CFA computation dwarfproc.cc:540-571.  The other CFA value types never come out of execInsns.
    The evaluator is given no frame base: DW_OP_fbreg is not allowed in call frame information. *)
Definition cfaOf (fuel : nat) (data : list Z) (f : frame) (e : env) : res Z :=
  match cfaT f with
  | CUndef => gpGet (eRegs e) (cfaReg f)
  | COffset => let* v := gpGet (eRegs e) (cfaReg f) in Ok (u64 (v + cfaWord f))
  | CExpr => evalE fuel data e [] (cfaWord f) (u64 (cfaWord f + cfaLen f))
  end.

(** Bytes of a register's storage type (arch-x86_64.h). *)
Definition kindSize (k : kind) : nat :=
  match k with KU64 => 8 | KU32 => 4 | KU16 => 2 | KSimd128 | KSimd64 | KI387 => 16 | KChar => 1 end.

(** catch (const Exception &): the register is left alone.  Exceptions of the register accessors are
    std::logic_error and std::bad_variant_access, which are not caught here.  Simplification: an
    invalid register number inside an expression is treated as caught. *)
Definition caught {A} (x : res A) (old : res coreRegs) (k : A -> res coreRegs) : res coreRegs :=
  match x with Ok v => k v | Throw => old | UB => UB | OutOfFuel => OutOfFuel end.

(** One entry of the loop dwarfproc.cc:580-623. *)
Definition applyRule (fuel : nat) (data : list Z) (e : env) (cfa : Z) (out : coreRegs) (kv : Z * rule) : res coreRegs :=
  let '(regno, u) := kv in
  match u with
  | Offset n =>
      match opReg regno with
      | Rejected => Throw
      | InCell _ k => caught (match memread (eMem e) (u64 (cfa + n)) (kindSize k) with Some bs => Ok (leValue bs) | None => Throw end)
                             (Ok out) (fun v => setDwarf out regno (k, v))
      | NotUsed => Ok out
      end
  | Reg r => let* v := getDwarf (eRegs e) r in setDwarf out regno v
  | Expression o l =>
      caught (let* a := evalE fuel data e [cfa] o (u64 (o + l)) in readAddr (eMem e) a) (Ok out)
             (fun v => setDwarf out regno (KU64, v))
  | ValExpression o l =>
      caught (evalE fuel data e [cfa] o (u64 (o + l))) (Ok out) (fun v => setDwarf out regno (KU64, v))
  | Same => let* v := getDwarf (eRegs e) regno in setDwarf out regno v
  | Undef | Arch => Ok out
  end.
Fixpoint applyRules (fuel : nat) (data : list Z) (e : env) (cfa : Z) (l : list (Z * rule)) (out : coreRegs) : res coreRegs :=
  match l with
  | [] => Ok out
  | kv :: r => let* out' := applyRule fuel data e cfa out kv in applyRules fuel data e cfa r out'
  end.

(** The rest of StackFrame::unwind once the row [f] is known, dwarfproc.cc:536-641: the new CFA and
    the caller's registers if there is a caller. *)
Definition unwindRegs (fuel : nat) (data : list Z) (f : frame) (rar : Z) (e : env) : res (Z * option coreRegs) :=
  let* cfa := cfaOf fuel data f e in
  let* out0 := setDwarf (eRegs e) 7 (KU64, cfa) in
  let e' := mkEnv (eRegs e) cfa (eMem e) (eReloc e) (eFb e) in
  let* out := applyRules fuel data e' cfa (registers f) out0 in
  if (match findReg rar (registers f) with Some Undef => true | _ => false end) || (cfa =? 0) then Ok (cfa, None)
  else if rar =? 16 then Ok (cfa, Some out)
  else let* v := getDwarf out rar in
       let* out' := setDwarf out 16 v in Ok (cfa, Some out').

(** StackFrame::unwind: the frame as left behind (trampoline flag and CFA set as far as it got) and
    the outcome.  The per-object memo callFrameForAddr is modelled in Locate.v. *)
Definition unwindFrame (fuel : nat) (p : process) (f : sframe) : sframe * res (option coreRegs) :=
  let ip := scopeIP p f in
  match pInfo p ip with
  | None => (f, Throw)
  | Some ci =>
      let f1 := mkFr (fMech f) (fRegs f) (fCfa f) (fSigTramp f || ciSignal ci) (fFromTramp f) in
      let e := mkEnv (fRegs f) (fCfa f) (pMem p) (ciReloc ci) None in
      match (let* dcf := fdeExec fuel (ciData ci) (ciParams ci) (ciCieInsns ci) (ciCieEnd ci)
                           (ciFdeInsns ci) (ciFdeEnd ci) (ciIloc ci) (u64 (ip - ciReloc ci)) in
             unwindRegs fuel (ciData ci) dcf (ciRar ci) e) with
      | Ok (cfa, o) => (mkFr (fMech f1) (fRegs f1) cfa (fSigTramp f1) (fFromTramp f1), Ok o)
      | Throw => (f1, Throw)
      | UB => (f1, UB)
      | OutOfFuel => (f1, OutOfFuel)
      end
  end.

(** What the fallbacks in the catch block decide (process.cc:1016-1192). *)
Inductive fallback : Type := Give (f : sframe) (prev : sframe) | Stop | Escapes.
Definition word8 (m : memory) (a : Z) : option Z :=
  match memread m a 8 with Some bs => Some (leValue bs) | None => None end.
Definition fallbackStep (p : process) (prev : sframe) : fallback :=
  let r := fRegs prev in
  let special := match fMech prev with MachineRegs | Trampoline => true | _ => fFromTramp prev end in
  let badip := if special && negb (pExec p (r U_rip)) then word8 (pMem p) (r U_rsp) else None in
  match badip with
  | Some ip => Give (newFrame BadIpRecovery (upd (upd r U_rsp (u64 (r U_rsp + 8))) U_rip ip)) prev
  | None =>
      if rawIP prev =? 0 then Stop
      else
        let bp := r U_rbp in
        if bp =? 0 then Stop
        else match word8 (pMem p) (u64 (bp + 8)), word8 (pMem p) bp with
             | Some ip, Some nbp =>
                 if pExec p ip
                 then let r' := upd (upd (upd r U_rsp (u64 (bp + 16))) U_rip ip) U_rbp nbp in
                      Give (newFrame FramePointer r')
                           (mkFr (fMech prev) (fRegs prev) (r' U_rsp) (fSigTramp prev) (fFromTramp prev))
                 else Stop
             | _, _ => Escapes             (* readObj throws out of the handler *)
             end
  end.

(** The walk: [stack] is kept youngest frame last in the code; here the current frame [prev] and the
    finished frames before it (reversed).  The flag tells whether an exception escaped. *)
Fixpoint walk (count : nat) (fuel : nat) (p : process) (done : list sframe) (prev : sframe) : res (list sframe * bool) :=
  match count with
  | O => Ok (rev (prev :: done), false)
  | S k =>
      match unwindFrame fuel p prev with
      | (prev', Ok None) => Ok (rev (prev' :: done), false)
      | (prev', Ok (Some regs)) =>
          walk k fuel p (prev' :: done) (mkFr Dwarf regs 0 false (fSigTramp prev'))
      | (prev', Throw) =>
          match fallbackStep p prev' with
          | Give f prev'' => walk k fuel p (prev'' :: done) f
          | Stop => Ok (rev (prev' :: done), false)
          | Escapes => Ok (rev (prev' :: done), true)
          end
      | (_, UB) => UB
      | (_, OutOfFuel) => OutOfFuel
      end
  end.
(** Lwp::unwind: a negative option maxframes (an int) behaves as 0. *)
Definition unwindStack (fuel : nat) (p : process) (maxframes : Z) (regs : coreRegs) : res (list sframe * bool) :=
  walk (Z.to_nat maxframes) fuel p [] (newFrame MachineRegs regs).
