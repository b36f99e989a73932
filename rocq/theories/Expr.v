(** Model of ExpressionStack::eval over a block of operations (dwarfproc.cc:213-503). *)
From Verif Require Import Base Leb DwarfReader DwarfReaderProofs Regs Cfi.

(** What evaluation can consult: the frame's registers and CFA, the process's memory, the load
    bias, and the DW_AT_frame_base block of the function (dwarfproc.cc:77-90), if it has one.
    Simplification: frame_base is an expression block in the same section as the expression. *)
Record env : Type := mkEnv {
  eRegs : coreRegs; eCfa : Z; eMem : memory; eReloc : Z; eFb : option (Z * Z) }.

(** proc.io->readObj<Elf::Addr>(addr): 8 bytes little-endian, or throw. *)
Definition readAddr (m : memory) (a : Z) : res Z :=
  match memread m a 8 with Some bs => Ok (leValue bs) | None => Throw end.

(** Operations with decoded operands; immediate operands already converted to the value pushed. *)
Inductive eop : Type :=
| OPush (v : Z) | ODeref | OMinus | OPlus | OPlusU (n : Z) | OBreg (r n : Z)
| ONot | OAbs | ONeg | OAnd | ODiv | OMul | OMod | OOr | OXor
| OLe | OGe | OEq | OLt | OGt | ONe | OShl | OShr | OShra
| OAddr (v : Z) | OCfa | OFbreg (n : Z) | OReg (r : Z) | ORegx (r : Z)
| OEntry (off end_ : Z) | OPiece (n : Z) | OStackValue | OParamRef.

(** The decoding half: op codes from libpstack/dwarf/ops.h.  push() converts to uintmax_t. *)
Definition decodeE (data : list Z) (off : Z) : res (eop * Z) :=
  let* (op, o1) := getu8 data off in
  if op =? 6 then Ok (ODeref, o1)
  else if op =? 17 then let* (n, o2) := getsleb data o1 in Ok (OPush (u64 n), o2)       (* consts *)
  else if op =? 16 then let* (n, o2) := getuleb data o1 in Ok (OPush n, o2)             (* constu *)
  else if op =? 11 then let* (n, o2) := getu16 data o1 in Ok (OPush (u64 (s16 n)), o2)  (* const2s *)
  else if op =? 12 then let* (n, o2) := getu32 data o1 in Ok (OPush n, o2)              (* const4u *)
  else if op =? 13 then let* (n, o2) := getu32 data o1 in Ok (OPush (u64 (s32 n)), o2)  (* const4s *)
  else if op =? 28 then Ok (OMinus, o1)
  else if op =? 34 then Ok (OPlus, o1)
  else if op =? 35 then let* (n, o2) := getuleb data o1 in Ok (OPlusU n, o2)
  else if (112 <=? op) && (op <=? 143) then let* (n, o2) := getsleb data o1 in Ok (OBreg (op - 112) n, o2)
  else if (48 <=? op) && (op <=? 79) then Ok (OPush (op - 48), o1)
  else if op =? 32 then Ok (ONot, o1)
  else if op =? 25 then Ok (OAbs, o1)
  else if op =? 31 then Ok (ONeg, o1)
  else if op =? 26 then Ok (OAnd, o1)
  else if op =? 27 then Ok (ODiv, o1)
  else if op =? 30 then Ok (OMul, o1)
  else if op =? 29 then Ok (OMod, o1)
  else if op =? 33 then Ok (OOr, o1)
  else if op =? 39 then Ok (OXor, o1)
  else if op =? 44 then Ok (OLe, o1)
  else if op =? 42 then Ok (OGe, o1)
  else if op =? 41 then Ok (OEq, o1)
  else if op =? 45 then Ok (OLt, o1)
  else if op =? 43 then Ok (OGt, o1)
  else if op =? 46 then Ok (ONe, o1)
  else if op =? 36 then Ok (OShl, o1)
  else if op =? 37 then Ok (OShr, o1)
  else if op =? 38 then Ok (OShra, o1)
  else if op =? 3 then let* (v, o2) := getuint data o1 8 in Ok (OAddr v, o2)
  else if op =? 156 then Ok (OCfa, o1)
  else if op =? 145 then let* (n, o2) := getsleb data o1 in Ok (OFbreg n, o2)
  else if (80 <=? op) && (op <=? 111) then Ok (OReg (op - 80), o1)
  else if op =? 144 then let* (n, o2) := getsleb data o1 in Ok (ORegx n, o2)
  else if (op =? 163) || (op =? 243) then
    let* (len, o2) := getuleb data o1 in Ok (OEntry o2 (u64 (o2 + len)), o2)   (* the cursor is not moved past the block *)
  else if op =? 147 then let* (n, o2) := getuleb data o1 in Ok (OPiece n, o2)
  else if op =? 159 then Ok (OStackValue, o1)
  else if op =? 250 then Ok (OParamRef, o1)
  else Throw.

(** State of an ExpressionStack plus eval's local [piece]. *)
Record est : Type := mkE { estk : list Z; isVal : bool; inReg : Z; piece : Z }.
Definition est0 (s : list Z) : est := mkE s false 0 0.

(** poptop(): top() of an empty std::stack is undefined (proc.h:32). *)
Definition pop1 {A} (s : list Z) (k : Z -> list Z -> res A) : res A :=
  match s with [] => UB | x :: r => k x r end.
Definition b2z (b : bool) : Z := if b then 1 else 0.

(** Stack operations that need no environment: dwarfproc.cc:254-273, 298-420, 459-475.
    Signed overflow, division by 0 and shifts outside 0..63 are undefined. *)
Definition sarith (x : Z) : res Z := if inS64 x then Ok (u64 x) else UB.
Definition stackOp (o : eop) (s : list Z) : res (list Z) :=
  let un f := pop1 s (fun x r => let* v := f x in Ok (v :: r)) in
  let bin f := pop1 s (fun x s1 => pop1 s1 (fun y r => let* v := f x y in Ok (v :: r))) in
  match o with
  | OPush v => Ok (v :: s)
  | OMinus => bin (fun tos second => Ok (u64 (second - tos)))
  | OPlus => bin (fun tos second => Ok (u64 (second + tos)))
  | OPlusU n => un (fun tos => Ok (u64 (n + tos)))
  | ONot => un (fun x => Ok (W64 - 1 - x))
  | OAbs => un (fun x => sarith (Z.abs (s64 x)))
  | ONeg => un (fun x => sarith (- s64 x))
  | OAnd => bin (fun a b => Ok (Z.land a b))
  | OOr => bin (fun a b => Ok (Z.lor a b))
  | OXor => bin (fun a b => Ok (Z.lxor a b))
  | ODiv => bin (fun d n => if s64 d =? 0 then UB else sarith (Z.quot (s64 n) (s64 d)))
  | OMod => bin (fun d n => if s64 d =? 0 then UB
                            else if inS64 (Z.quot (s64 n) (s64 d)) then Ok (u64 (Z.rem (s64 n) (s64 d))) else UB)
  | OMul => bin (fun a b => sarith (s64 a * s64 b))
  | OLe => bin (fun rhs lhs => Ok (b2z (lhs <=? rhs)))
  | OGe => bin (fun rhs lhs => Ok (b2z (lhs >=? rhs)))
  | OEq => bin (fun rhs lhs => Ok (b2z (lhs =? rhs)))
  | OLt => bin (fun rhs lhs => Ok (b2z (lhs <? rhs)))
  | OGt => bin (fun rhs lhs => Ok (b2z (lhs >? rhs)))
  | ONe => bin (fun rhs lhs => Ok (b2z (negb (lhs =? rhs))))
  | OShl => bin (fun rhs lhs => if rhs <? 64 then Ok (u64 (Z.shiftl lhs rhs)) else UB)
  | OShr => bin (fun rhs lhs => if rhs <? 64 then Ok (Z.shiftr lhs rhs) else UB)
  | OShra => bin (fun rhs lhs => if (0 <=? s64 rhs) && (s64 rhs <? 64) then Ok (u64 (Z.shiftr (s64 lhs) (s64 rhs))) else UB)
  | OStackValue => Ok s
  | _ => UB
  end.

(** eval dwarfproc.cc:213-503; returns the popped value and the remaining stack object.
    DW_OP_GNU_parameter_ref returns -1 (its debug output and DIE lookups are not modelled). *)
Fixpoint evalLoop (fuel : nat) (data : list Z) (e : env) (end_ off : Z) (s : est) : res (Z * est) :=
  match fuel with
  | O => OutOfFuel
  | S f =>
      if off =? end_ then pop1 (estk s) (fun v r => Ok (v, mkE r (isVal s) (inReg s) (piece s)))
      else
        let* (o, off') := decodeE data off in
        let continue s' := evalLoop f data e end_ off' s' in
        let push v := continue (mkE (v :: estk s) (isVal s) (inReg s) (piece s)) in
        match o with
        | ODeref => pop1 (estk s) (fun a r => let* v := readAddr (eMem e) a in
                                    continue (mkE (v :: r) (isVal s) (inReg s) (piece s)))
        | OBreg r n => let* v := gpGet (eRegs e) r in push (u64 (v + n))
        | OAddr v => push (u64 (v + eReloc e))
        | OCfa => push (eCfa e)
        | OFbreg n =>
            (* StackFrame::getFrameBase dwarfproc.cc:77-90: a fresh stack *)
            let* fb := match eFb e with
                       | None => Ok 0
                       | Some (o1, e1) => let* (v, _) := evalLoop f data e e1 o1 (est0 []) in Ok v
                       end in
            push (u64 (fb + n))
        | OReg r => let* v := gpGet (eRegs e) r in
                    continue (mkE (v :: estk s) true r (piece s))
        | ORegx r => let* v := gpGet (eRegs e) (s32 r) in push v
        | OEntry o1 e1 =>
            (* recursion on the same object: isValue is reset, the stack is shared *)
            let* (v, s') := evalLoop f data e e1 o1 (mkE (estk s) false (inReg s) 0) in
            continue (mkE (v :: estk s') (isVal s') (inReg s') (piece s))
        | OPiece n =>
            pop1 (estk s) (fun v r =>
              let v1 := if n <? 8 then Z.land v (2 ^ (8 * n) - 1) else v in
              if piece s =? 0 then continue (mkE (v1 :: r) (isVal s) (inReg s) (piece s + 1))
              else pop1 r (fun ex r2 =>
                if u64 (8 * n) <? 64
                then continue (mkE (Z.lor v1 (u64 (Z.shiftl ex (u64 (8 * n)))) :: r2) (isVal s) (inReg s) (piece s + 1))
                else UB))
        | OParamRef => Ok (W64 - 1, s)
        | _ => let* r := stackOp o (estk s) in continue (mkE r (isVal s) (inReg s) (piece s))
        end
  end.

(** A top-level evaluation: the initial stack, the block [off, end). *)
Definition evalE (fuel : nat) (data : list Z) (e : env) (stk0 : list Z) (off end_ : Z) : res Z :=
  let* (v, _) := evalLoop fuel data e end_ off (est0 stk0) in Ok v.
