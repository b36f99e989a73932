(** Model of the dump of call frame information: dump.cc:53-234. *)
From Coq Require Import Ascii String.
From Verif Require Import Base DwarfReader Args FrameText JsonDoc.

Definition nf (k : string) (n : Z) : list Z * jval := (txt k, VInt n).
(** int(x) of an unsigned 32-bit number *)
Definition int32 (n : Z) : Z := if n <? 2147483648 then n else n - 4294967296.

(** the object of one instruction dump.cc:58, 75 (type) and its fields; [done] also returns the cursor *)
Definition done (name : string) (fields : list (list Z * jval)) (o : Z) : res (jval * Z) := Ok (VObj ((txt "type", VStr (txt name)) :: fields), o).
(** one unsigned operand, two unsigned operands, an unsigned and a signed one: the cases of dump.cc:103-201 that differ in the names only *)
Definition one (data : list Z) (o1 : Z) (name k : string) : res (jval * Z) := let* (a, o2) := getuleb data o1 in done name [nf k a] o2.
Definition two (data : list Z) (o1 : Z) (name k k' : string) : res (jval * Z) :=
  let* (a, o2) := getuleb data o1 in let* (b, o3) := getuleb data o2 in done name [nf k a; nf k' b] o3.
Definition twoS (data : list Z) (o1 : Z) (name k k' : string) : res (jval * Z) :=
  let* (a, o2) := getuleb data o1 in let* (b, o3) := getsleb data o2 in done name [nf k a; nf k' b] o3.

(** dumpCFAInsn dump.cc:53-217: one object; the names are those of libpstack/dwarf/cfainsns.h (json of a CFAInstruction, dump.cc:39-50).
    [addrLen] of the reader is 8 (dwarf.h DWARFReader, ELF_BYTES on x86-64); [reg] of val_expression is an Elf::Word, 32 bits; [skip] adds modulo 2^64.
    A throw leaves a document that ends in the middle. *)
Definition dumpInsn (data : list Z) (off : Z) : res (jval * Z) :=
  let* (op, o1) := getu8 data off in
  let insn := if Z.land op 192 =? 0 then op else Z.land op 192 in
  if insn =? 64 then done "DW_CFA_advance_loc" [nf "delta" (Z.land op 63)] o1
  else if insn =? 128 then let* (n, o2) := getuleb data o1 in done "DW_CFA_offset" [nf "register" (Z.land op 63); nf "offset" n] o2
  else if insn =? 192 then done "DW_CFA_restore" [nf "register" (Z.land op 63)] o1
  else if insn =? 1 then let* (a, o2) := getuint data o1 8 in done "DW_CFA_set_loc" [nf "arg" a] o2
  else if insn =? 2 then let* (a, o2) := getu8 data o1 in done "DW_CFA_advance_loc1" [nf "arg" a] o2
  else if insn =? 3 then let* (a, o2) := getu16 data o1 in done "DW_CFA_advance_loc2" [nf "arg" a] o2
  else if insn =? 4 then let* (a, o2) := getu32 data o1 in done "DW_CFA_advance_loc4" [nf "arg" (int32 a)] o2
  else if insn =? 5 then two data o1 "DW_CFA_offset_extended" "reg" "arg"
  else if insn =? 6 then one data o1 "DW_CFA_restore_extended" "reg"
  else if insn =? 7 then one data o1 "DW_CFA_undefined" "reg"
  else if insn =? 8 then one data o1 "DW_CFA_same_value" "reg"
  else if insn =? 9 then two data o1 "DW_CFA_register" "reg1" "reg2"
  else if insn =? 12 then two data o1 "DW_CFA_def_cfa" "reg" "offset"
  else if insn =? 13 then one data o1 "DW_CFA_def_cfa_register" "reg"
  else if insn =? 14 then one data o1 "DW_CFA_def_cfa_offset" "offset"
  else if insn =? 15 then let* (n, o2) := getuleb data o1 in done "DW_CFA_def_cfa_expression" [nf "len" n] (u64 (o2 + n))
  else if insn =? 16 then let* (r, o2) := getuleb data o1 in let* (n, o3) := getuleb data o2 in done "DW_CFA_expression" [nf "reg" r; nf "length" n] (u64 (o3 + n))
  else if insn =? 18 then two data o1 "DW_CFA_def_cfa_sf" "register" "offset"
  else if insn =? 19 then one data o1 "DW_CFA_def_cfa_offset_sf" "offset"
  else if insn =? 22 then
    let* (r, o2) := getuleb data o1 in let* (n, o3) := getuleb data o2 in
    done "DW_CFA_val_expression" [nf "register" (r mod 4294967296); nf "length" n; nf "offset" o3] (u64 (o3 + n))
  else if insn =? 46 then one data o1 "DW_CFA_GNU_args_size" "size"
  else if insn =? 47 then twoS data o1 "DW_CFA_GNU_negative_offset_extended" "register" "scale"
  else if insn =? 17 then twoS data o1 "DW_CFA_offset_extended_sf" "register" "scale"
  else if insn =? 0 then done "DW_CFA_nop" [] o1
  else if insn =? 10 then done "DW_CFA_remember_state" [] o1
  else if insn =? 11 then done "DW_CFA_restore_state" [] o1
  else if insn =? 45 then done "DW_CFA_GNU_window_save" [] o1
  else Throw.

(** The list of the instructions between two offsets dump.cc:219-234; the end is reached when the cursor equals it (DWARFReader::empty,
    dwarf.h:976-978).  [fuel] bounds the loop, whose cursor can go back when a length wraps around. *)
Fixpoint dumpLoop (fuel : nat) (data : list Z) (off end_ : Z) : res (list jval) :=
  match fuel with
  | O => OutOfFuel
  | S f =>
      if off =? end_ then Ok []
      else let* (v, o) := dumpInsn data off in let* r := dumpLoop f data o end_ in Ok (v :: r)
  end.
Definition dumpInsns (data : list Z) (start end_ : Z) : res jval :=
  let* l := dumpLoop (S (length data)) data start end_ in Ok (VSeq l).
