(** Model of DWARFReader (libpstack/dwarf.h:884-983, dwarf_reader.cc:74-84): a cursor over a
    section.  Each reader takes the section contents and the offset and returns the value and the
    advanced offset. *)
From Verif Require Import Base Reader Leb ReaderSpec.

(** The section's reader (an OffsetReader/MemReader of exactly these bytes): reads past the end
    throw, reads reaching the end are short. reader.cc:67-75, 258-265. *)
Definition secRead (data : list Z) (off count : Z) : res (list Z) :=
  if off >? zlen data then Throw else Ok (ztake count (zdrop off data)).

(** readObj of [n] single bytes (reader.h:81-92). *)
Definition secBytes (data : list Z) (off n : Z) : res (list Z) := readObj (secRead data) 1 off n.

(** Value of the shift/or loop [for i in 1..len: rc = rc << 8 | p[-i]], dwarf.h:928-930,941-943:
    bytes are consumed from the last to the first; arithmetic modulo 2^64. *)
Fixpoint shiftOr (rc : Z) (rbytes : list Z) : Z :=
  match rbytes with
  | [] => rc
  | b :: r => shiftOr (Z.lor (u64 (Z.shiftl rc 8)) b) r
  end.

(** getu8 dwarf.h:911-916, gets8 917-922, getu16 905-910, getu32 899-904. *)
Definition getu8 (data : list Z) (off : Z) : res (Z * Z) :=
  let* q := secBytes data off 1 in Ok (hd 0 q, off + 1).
Definition gets8 (data : list Z) (off : Z) : res (Z * Z) :=
  let* q := secBytes data off 1 in Ok (s8 (hd 0 q), off + 1).
Definition getu16 (data : list Z) (off : Z) : res (Z * Z) :=
  let* q := secBytes data off 2 in
  Ok (u16 (Z.lor (nth 0 q 0) (Z.shiftl (nth 1 q 0) 8)), off + 2).
Definition getu32 (data : list Z) (off : Z) : res (Z * Z) :=
  let* q := secBytes data off 4 in
  Ok (u32 (Z.lor (Z.lor (Z.lor (nth 0 q 0) (Z.shiftl (nth 1 q 0) 8)) (Z.shiftl (nth 2 q 0) 16))
                 (Z.shiftl (nth 3 q 0) 24)), off + 4).

(** getuint dwarf.h:923-933. *)
Definition getuint (data : list Z) (off len : Z) : res (Z * Z) :=
  if len >? 16 then Throw
  else let* q := secBytes data off len in Ok (shiftOr 0 (rev q), off + len).

(** getint dwarf.h:934-946: starts from -1 or 0 according to the top bit of the last byte; the
    result is the two's complement reading of the 64-bit pattern. *)
Definition getint (data : list Z) (off len : Z) : res (Z * Z) :=
  if (len >? 16) || (len <? 1) then Throw
  else let* q := secBytes data off len in
       let top := hd 0 (rev q) in
       let rc := if Z.land top 128 =? 0 then 0 else W64 - 1 in
       Ok (s64 (shiftOr rc (rev q)), off + len).

(** getuleb128/getsleb128 dwarf.h:948-957. Section readers throw at the end of data. *)
Definition getuleb (data : list Z) (off : Z) : res (Z * Z) :=
  let* v := readULEB Throw (zdrop off data) in Ok (fst v, off + snd v).
Definition getsleb (data : list Z) (off : Z) : res (Z * Z) :=
  let* v := readSLEB Throw (zdrop off data) in Ok (fst v, off + snd v).

(** getstring dwarf.h:964-968 on a section: text up to NUL, cursor after it.
    Simplification: a string that is not terminated inside the section ends at the section's end
    (an OffsetReader would go on into the file), and the "(null)" answer Reader::readString gives
    for file offset 0 does not arise for sections, whose file offset is not 0. *)
Definition getstring (data : list Z) (off : Z) : list Z * Z :=
  let s := untilNul (zdrop off data) in (s, off + zlen s + 1).

(** getlength dwarf_reader.cc:74-84: (length, offset size), cursor. *)
Definition getlength (data : list Z) (off : Z) : res (Z * Z * Z) :=
  let* (l, off1) := getu32 data off in
  if l =? 4294967295 then
    let* (l8, off2) := getuint data off1 8 in Ok (l8, 8, off2)
  else if l >=? 4294967280 then Ok (0, 0, off1)
  else Ok (l, 4, off1).
