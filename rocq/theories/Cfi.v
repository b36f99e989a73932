(** Model of call frame information: dwarf_frame.cc and CIE::execInsns (libpstack/dwarf.h:986-1183). *)
From Verif Require Import Base DwarfReader.

(** ** Encoded pointers *)

(** CFI::decodeAddress dwarf_frame.cc:6-65.  Returns (value modulo 2^64, indirect flag, cursor).
    [base] is an intmax_t; adding the unsigned offset/addresses is arithmetic modulo 2^64.
    sizeof(Elf::Word) is 4 (line 37).  Encodings: libpstack/dwarf/ehpe.h. *)
Definition decodeAddress (data : list Z) (off enc sectionAddr sectionVa : Z) : res (Z * bool * Z) :=
  let fmt := Z.land enc 15 in
  let* (base, off') :=
    (if fmt =? 10 then getint data off 2            (* DW_EH_PE_sdata2 *)
     else if fmt =? 11 then getint data off 4       (* DW_EH_PE_sdata4 *)
     else if fmt =? 12 then getint data off 8       (* DW_EH_PE_sdata8 *)
     else if fmt =? 2 then getuint data off 2       (* DW_EH_PE_udata2 *)
     else if fmt =? 3 then getuint data off 4       (* DW_EH_PE_udata4 *)
     else if fmt =? 4 then getuint data off 8       (* DW_EH_PE_udata8 *)
     else if fmt =? 9 then getsleb data off         (* DW_EH_PE_sleb128 *)
     else if fmt =? 1 then getuleb data off         (* DW_EH_PE_uleb128 *)
     else if fmt =? 0 then getint data off 4        (* DW_EH_PE_absptr: getint(sizeof (Elf::Word)) *)
     else Throw) in
  let app := Z.land enc 112 in                      (* 0xf0 & ~DW_EH_PE_indirect *)
  let indirect := negb (Z.land enc 128 =? 0) in
  if app =? 0 then Ok (u64 base, indirect, off')
  else if app =? 16 then Ok (u64 (base + (off + sectionAddr)), indirect, off')   (* pcrel *)
  else if app =? 32 then Ok (u64 (base + sectionVa), indirect, off')             (* textrel *)
  else if app =? 48 then Ok (u64 (base + sectionVa), indirect, off')             (* datarel *)
  else Throw.

(** ** CIE/FDE headers *)

(** CFI::isCIE dwarf_frame.cc:82-86; [eh] says the section is .eh_frame. *)
Definition isCIE (eh : bool) (id : Z) : bool :=
  (negb eh && (id =? 4294967295)) || (eh && (id =? 0)).

(** CFI::decodeCIEFDEHdr dwarf_frame.cc:67-80: (end of entry, associated CIE, cursor); the end is 0
    for a terminator, the CIE offset is 2^64-1 for a CIE. *)
Definition decodeHdr (data : list Z) (eh : bool) (off : Z) : res (Z * Z * Z) :=
  let* (length, addrLen, off1) := getlength data off in
  if length =? 0 then Ok (0, 0, off1)
  else
    let* (id, off2) := getuint data off1 addrLen in
    let cieOff := if negb (isCIE eh id) then (if eh then u64 (off1 - id) else id) else W64 - 1 in
    Ok (u64 (off1 + length), cieOff, off2).

(** ** FDE table *)

(** FDE dwarf.h:497-507: the fields the lookup uses. *)
Record fde : Type := mkFde { iloc : Z; irange : Z }.

(** CFI::findFDE dwarf_frame.cc:249-269.  The lazily loaded table is modelled as already loaded
    (ensureFDE only replaces a null entry by the decoded FDE).  [fuel] bounds the loop. *)
Fixpoint findFDEloop (fuel : nat) (fdes : list fde) (addr start end_ : Z) : res (option fde) :=
  match fuel with
  | O => OutOfFuel
  | S f =>
      if start <? end_ then
        let mid := start + (end_ - start) / 2 in
        match znth mid fdes with
        | None => UB
        | Some e =>
            if iloc e <=? addr then
              if addr <? u64 (iloc e + irange e) then Ok (Some e)
              else findFDEloop f fdes addr (mid + 1) end_
            else findFDEloop f fdes addr start mid
        end
      else Ok None
  end.
Definition findFDE (fdes : list fde) (addr : Z) : res (option fde) :=
  findFDEloop (S (length fdes)) fdes addr 0 (zlen fdes).

(** ** Call frame instructions *)

(** RegisterUnwind dwarf.h:522-531 (the union member that the type selects). *)
Inductive rule : Type :=
| Undef | Same | Offset (n : Z) | Expression (off len : Z) | ValExpression (off len : Z)
| Reg (r : Z) | Arch.

(** cfaValue's type and the union's two words: [u.offset] aliases [u.expression.offset]. *)
Inductive cfaType : Type := CUndef | COffset | CExpr.
(** CallFrame dwarf.h:536-541.  [registers] is the unordered_map: at most one entry per key. *)
Record frame : Type := mkFrame {
  registers : list (Z * rule);
  cfaReg : Z;
  cfaT : cfaType;
  cfaWord : Z;
  cfaLen : Z }.
(** CallFrame::CallFrame dwarf_frame.cc:271-277 *)
Definition frame0 : frame := mkFrame [] 0 CUndef 0 0.

Fixpoint findReg (r : Z) (l : list (Z * rule)) : option rule :=
  match l with
  | [] => None
  | (k, v) :: t => if k =? r then Some v else findReg r t
  end.
Definition dropReg (r : Z) (l : list (Z * rule)) : list (Z * rule) :=
  filter (fun kv => negb (fst kv =? r)) l.
Definition putReg (r : Z) (v : rule) (l : list (Z * rule)) : list (Z * rule) := (r, v) :: dropReg r l.
Definition setReg (f : frame) (r : Z) (v : rule) : frame :=
  mkFrame (putReg (s32 r) v (registers f)) (cfaReg f) (cfaT f) (cfaWord f) (cfaLen f).

(** A decoded instruction: operands as read, before scaling. *)
Inductive insn : Type :=
| IAdvance (delta : Z)
| IOffset (r off : Z)            (* DW_CFA_offset *)
| IOffsetExt (r off : Z)         (* DW_CFA_offset_extended *)
| IOffsetExtSf (r off : Z)
| IRestore (r : Z)
| INop
| ISetLoc (a : Z)
| IUndefined (r : Z)
| ISame (r : Z)
| IRegister (r1 r2 : Z)
| IRemember
| IRestoreState
| IDefCfa (r off : Z)
| IDefCfaSf (r off : Z)
| IDefCfaRegister (r : Z)
| IDefCfaOffset (off : Z)
| IDefCfaOffsetSf (off : Z)
| IValExpression (r off len : Z)
| IExpression (r off len : Z)
| IDefCfaExpression (off len : Z)
| IArgsSize (n : Z).

(** The decoding half of the loop body, dwarf.h:998-1175 (x86-64: no AARCH64 case).  [r.skip]
    adds modulo 2^64 (dwarf.h:981). *)
Definition decodeInsn (data : list Z) (off : Z) : res (insn * Z) :=
  let* (raw, o1) := getu8 data off in
  let low := Z.land raw 63 in
  let op := Z.land raw 192 in
  if op =? 64 then Ok (IAdvance low, o1)
  else if op =? 128 then let* (n, o2) := getuleb data o1 in Ok (IOffset low n, o2)
  else if op =? 192 then Ok (IRestore low, o1)
  else (* op = 0 *)
    if low =? 0 then Ok (INop, o1)
    else if low =? 1 then let* (a, o2) := getuint data o1 8 in Ok (ISetLoc a, o2)
    else if low =? 2 then let* (d, o2) := getu8 data o1 in Ok (IAdvance d, o2)
    else if low =? 3 then let* (d, o2) := getu16 data o1 in Ok (IAdvance d, o2)
    else if low =? 4 then let* (d, o2) := getu32 data o1 in Ok (IAdvance d, o2)
    else if low =? 5 then
      let* (r, o2) := getuleb data o1 in let* (n, o3) := getuleb data o2 in Ok (IOffsetExt r n, o3)
    else if low =? 17 then
      let* (r, o2) := getuleb data o1 in let* (n, o3) := getsleb data o2 in Ok (IOffsetExtSf r n, o3)
    else if low =? 6 then let* (r, o2) := getuleb data o1 in Ok (IRestore r, o2)
    else if low =? 7 then let* (r, o2) := getuleb data o1 in Ok (IUndefined r, o2)
    else if low =? 8 then let* (r, o2) := getuleb data o1 in Ok (ISame r, o2)
    else if low =? 9 then
      let* (r, o2) := getuleb data o1 in let* (n, o3) := getuleb data o2 in Ok (IRegister r n, o3)
    else if low =? 10 then Ok (IRemember, o1)
    else if low =? 11 then Ok (IRestoreState, o1)
    else if low =? 12 then
      let* (r, o2) := getuleb data o1 in let* (n, o3) := getuleb data o2 in Ok (IDefCfa r n, o3)
    else if low =? 18 then
      let* (r, o2) := getuleb data o1 in let* (n, o3) := getsleb data o2 in Ok (IDefCfaSf r n, o3)
    else if low =? 13 then let* (r, o2) := getuleb data o1 in Ok (IDefCfaRegister r, o2)
    else if low =? 14 then let* (n, o2) := getuleb data o1 in Ok (IDefCfaOffset n, o2)
    else if low =? 19 then let* (n, o2) := getsleb data o1 in Ok (IDefCfaOffsetSf n, o2)
    else if low =? 22 then
      let* (r, o2) := getuleb data o1 in let* (n, o3) := getuleb data o2 in
      Ok (IValExpression r o3 n, u64 (o3 + n))
    else if low =? 16 then
      let* (r, o2) := getuleb data o1 in let* (n, o3) := getuleb data o2 in
      Ok (IExpression r o3 n, u64 (o3 + n))
    else if low =? 15 then
      let* (n, o2) := getuleb data o1 in Ok (IDefCfaExpression o2 n, u64 (o2 + n))
    else if low =? 46 then let* (n, o2) := getsleb data o1 in Ok (IArgsSize n, o2)
    else Throw.

(** CIE fields used by execution: [codeAlign] is unsigned (32 bits), [dataAlign] int. *)
Record cieParams : Type := mkCie { codeAlign : Z; dataAlign : Z }.

(** Machine state of the loop: current location, frame, state stack. *)
Record cfst : Type := mkSt { loc : Z; fr : frame; stk : list frame }.

(** The executing half of the loop body.  Products: [reg * codeAlign], [getuN() * codeAlign] are
    32-bit unsigned; [offset * dataAlign] is 64-bit (for DW_CFA_offset and the _sf forms a signed
    product, whose overflow - undefined - is modelled as [UB]; for the others modulo 2^64). *)
Definition inS64 (x : Z) : bool := (- (W64 / 2) <=? x) && (x <? W64 / 2).
Definition smul (a b : Z) : res Z := if inS64 (a * b) then Ok (a * b) else UB.

Definition restoreRule (d : frame) (r : Z) : rule :=
  match findReg (s32 r) (registers d) with Some v => v | None => Arch end.

Definition execInsn (c : cieParams) (dframe : frame) (s : cfst) (i : insn) : res cfst :=
  let f := fr s in
  let set r v := Ok (mkSt (loc s) (setReg f r v) (stk s)) in
  let setCfa r t w l := Ok (mkSt (loc s) (mkFrame (registers f) r t w l) (stk s)) in
  match i with
  | IAdvance d => Ok (mkSt (u64 (loc s + u32 (d * codeAlign c))) f (stk s))
  | IOffset r n => let* v := smul (s64 n) (dataAlign c) in set r (Offset v)
  | IOffsetExt r n => set r (Offset (s64 (n * dataAlign c)))
  | IOffsetExtSf r n => let* v := smul n (dataAlign c) in set r (Offset v)
  | IRestore r => set r (restoreRule dframe r)
  | INop => Ok s
  | ISetLoc a => Ok (mkSt a f (stk s))
  | IUndefined r => set r Undef
  | ISame r => set r Same
  | IRegister r1 r2 => set r1 (Reg r2)
  | IRemember => Ok (mkSt (loc s) f (f :: stk s))
  | IRestoreState => match stk s with
                     | [] => UB                       (* stack.top() of an empty std::stack *)
                     | g :: t => Ok (mkSt (loc s) g t)
                     end
  | IDefCfa r n => setCfa (s32 r) COffset (s64 n) (cfaLen f)
  | IDefCfaSf r n => let* v := smul n (dataAlign c) in setCfa (s32 r) COffset v (cfaLen f)
  | IDefCfaRegister r => setCfa (s32 r) COffset (cfaWord f) (cfaLen f)
  | IDefCfaOffset n => setCfa (cfaReg f) COffset (s64 n) (cfaLen f)
  | IDefCfaOffsetSf n => let* v := smul n (dataAlign c) in setCfa (cfaReg f) COffset v (cfaLen f)
  | IValExpression r o l => set r (ValExpression o l)
  | IExpression r o l => set r (Expression o l)
  | IDefCfaExpression o l => setCfa (cfaReg f) CExpr o l
  | IArgsSize _ => Ok s
  end.

(** CIE::execInsns dwarf.h:990-1183.  [stop loc] is the yield function; the end test is
    [off == end] (DWARFReader::empty, dwarf.h:976-978). *)
Fixpoint execLoop (fuel : nat) (data : list Z) (c : cieParams) (dframe : frame)
         (stop : Z -> bool) (end_ off : Z) (s : cfst) : res frame :=
  match fuel with
  | O => OutOfFuel
  | S f =>
      if stop (loc s) || (off =? end_) then Ok (fr s)
      else
        let* (i, off') := decodeInsn data off in
        let* s' := execInsn c dframe s i in
        execLoop f data c dframe stop end_ off' s'
  end.

(** FDE::defaultFrame dwarf_frame.cc:279-289 and FDE::execInsns 291-297. *)
Definition defaultFrame (fuel : nat) (data : list Z) (c : cieParams) (cieInsns cieEnd : Z) : res frame :=
  execLoop fuel data c frame0 (fun _ => false) cieEnd cieInsns (mkSt 0 frame0 []).
Definition fdeExec (fuel : nat) (data : list Z) (c : cieParams) (cieInsns cieEnd fdeInsns fdeEnd iloc0 addr : Z)
  : res frame :=
  let* d := defaultFrame fuel data c cieInsns cieEnd in
  execLoop fuel data c d (fun l => addr <? l) fdeEnd fdeInsns (mkSt iloc0 d []).
