(** Model of the location-list half of ExpressionStack::eval (dwarfproc.cc:113-212): which
    expression block is evaluated for an attribute of class loclist. *)
From Verif Require Import Base Leb DwarfReader DwarfReaderProofs Cfi Regs Expr.

(** r.skip(len): the cursor is a 64-bit Elf::Off (dwarf.h, DWARFReader::skip). *)
Definition skip (off len : Z) : Z := u64 (off + len).

(** dwarfproc.cc:130-179, DWARF 5 .debug_loclists.  [base] is the run-time base address, [ip] the
    scope pc of the frame.  unit->addrlen is taken to be 8.  The answer is the block [start, end)
    handed to the evaluator, or none ("return 0").
    Codes: libpstack/dwarf/lle.h. *)
Fixpoint sel5 (fuel : nat) (sec addrsec : list Z) (reloc ip base off : Z) : res (option (Z * Z)) :=
  match fuel with
  | O => OutOfFuel
  | S f =>
      let* (lle, o1) := getu8 sec off in
      if lle =? 0 then Ok None
      else if lle =? 4 then
        let* (start, o2) := getuleb sec o1 in
        let* (end_, o3) := getuleb sec o2 in
        let* (len, o4) := getuleb sec o3 in
        if (u64 (base + start) <=? ip) && (ip <? u64 (base + end_)) then Ok (Some (o4, u64 (o4 + len)))
        else sel5 f sec addrsec reloc ip base (skip o4 len)
      else if lle =? 6 then
        let* (a, o2) := getuint sec o1 8 in
        sel5 f sec addrsec reloc ip (u64 (reloc + a)) o2
      else if lle =? 1 then
        let* (idx, o2) := getuleb sec o1 in
        (* addrsec.io()->readObj(idx * addrlen, &base): no DW_AT_addr_base, no relocation *)
        let* (b, _) := getuint addrsec (u64 (idx * 8)) 8 in
        sel5 f sec addrsec reloc ip b o2
      else if lle =? 8 then
        let* (start, o2) := getuint sec o1 8 in
        let* (n, o3) := getuleb sec o2 in
        let end_ := u64 (start + n) in
        let* (len, o4) := getuleb sec o3 in
        if (u64 (base + start) <=? ip) && (ip <? u64 (base + end_)) then Ok (Some (o4, u64 (o4 + len)))
        else sel5 f sec addrsec reloc ip base (skip o4 len)
      else Throw
  end.

(** dwarfproc.cc:180-198, DWARF 2-4 .debug_loc.  [Elf::Addr start = r.getint(8)]: the 64-bit pattern. *)
Fixpoint sel4 (fuel : nat) (sec : list Z) (ip base off : Z) : res (option (Z * Z)) :=
  match fuel with
  | O => OutOfFuel
  | S f =>
      let* (s, o1) := getint sec off 8 in
      let* (e, o2) := getint sec o1 8 in
      let start := u64 s in let end_ := u64 e in
      if (start =? 0) && (end_ =? 0) then Ok None
      else
        let* (len, o3) := getuint sec o2 2 in
        if (ip >=? u64 (base + start)) && (ip <? u64 (base + end_)) then Ok (Some (o3, u64 (o3 + u32 len)))
        else sel4 f sec ip base (skip o3 len)
  end.

(** dwarfproc.cc:122-130: the initial base and the choice by unit version. *)
Definition selectLoc (fuel : nat) (version : Z) (sec addrsec : list Z) (reloc unitLow ip off : Z) : res (option (Z * Z)) :=
  let base := u64 (reloc + unitLow) in
  if version >=? 5 then sel5 fuel sec addrsec reloc ip base off else sel4 fuel sec ip base off.

(** The whole of dwarfproc.cc:113-201 for a DW_FORM_sec_offset attribute: evaluate the selected
    block in the list's section, or return 0. *)
Definition evalLoclist (fuel : nat) (version : Z) (sec addrsec : list Z) (reloc unitLow ip off : Z) (e : env) : res Z :=
  let* sel := selectLoc fuel version sec addrsec reloc unitLow ip off in
  match sel with
  | None => Ok 0
  | Some (o, end_) => evalE fuel sec e [] o end_
  end.
