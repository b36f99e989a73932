(** Model of debugging information entries: attribute values (dwarf_die.cc:181-326), abbreviations
    (dwarf_info.cc:215-236, dwarf_unit.cc:7-16), decoding and navigation (dwarf_die.cc:8-50,
    158-179, 347-405; dwarf_unit.cc:135-160). *)
From Verif Require Import Base DwarfReader.

(** ** Attribute values *)
(** The fields of a Unit (dwarf_unit.cc:87-125) that decoding uses.  [dDwarfLen] is 8 for version
    2 units whatever their format (line 99-100). *)
Record dunit : Type := mkUnit { dVersion : Z; dDwarfLen : Z; dAddrLen : Z; dOffset : Z; dEnd : Z; dRoot : Z }.

(** DIE::Attribute::Value, dwarf.h:746-754: a union.  [VWord] is its 64-bit pattern (addr, udata,
    sdata, signature), [VFlag] the bool, [VBlock offset length] the Block pointed to. *)
Inductive dval : Type := VWord (w : Z) | VFlag (b : bool) | VBlock (off len : Z).

(** DWARFReader::skip dwarf.h:982. *)
Definition word {A} (f : A -> Z) (x : res (A * Z)) : res (dval * Z) := let* (v, o) := x in Ok (VWord (f v), o).
Definition blk (x : res (Z * Z)) : res (dval * Z) := let* (n, o) := x in Ok (VBlock o n, u64 (o + n)).

(** DIE::Attribute::Value::Value dwarf_die.cc:181-326; [impl] is FormEntry::value.  Signed readers
    store their two's complement pattern in the union. *)
Definition readForm (data : list Z) (u : dunit) (off form impl : Z) : res (dval * Z) :=
  if form =? 0x1f21 then word u64 (getint data off (dDwarfLen u))                                   (* GNU_strp_alt *)
  else if (form =? 0x0e) || (form =? 0x1f) then                                                      (* strp, line_strp *)
    word u64 (getint data off (if dVersion u <=? 2 then 4 else dDwarfLen u))
  else if form =? 0x1f20 then word u64 (getuint data off (dDwarfLen u))                             (* GNU_ref_alt *)
  else if form =? 0x01 then word u64 (getuint data off (dAddrLen u))                                (* addr *)
  else if form =? 0x0b then word u64 (getu8 data off)                                               (* data1 *)
  else if form =? 0x05 then word u64 (getu16 data off)                                              (* data2 *)
  else if form =? 0x06 then word u64 (getu32 data off)                                              (* data4 *)
  else if form =? 0x07 then word u64 (getuint data off 8)                                           (* data8 *)
  else if form =? 0x0d then word u64 (getsleb data off)                                             (* sdata *)
  else if form =? 0x0f then word u64 (getuleb data off)                                             (* udata *)
  else if (form =? 0x1f02) || (form =? 0x1f01) || (form =? 0x1a) || (form =? 0x22) || (form =? 0x23) || (form =? 0x1b) || (form =? 0x15) then
    word u64 (getuleb data off)          (* GNU_str_index, GNU_addr_index, strx, loclistx, rnglistx, addrx, ref_udata *)
  else if (form =? 0x25) || (form =? 0x29) || (form =? 0x11) then word u64 (getu8 data off)         (* strx1, addrx1, ref1 *)
  else if (form =? 0x26) || (form =? 0x2a) || (form =? 0x12) then word u64 (getu16 data off)        (* strx2, addrx2, ref2 *)
  else if (form =? 0x2b) || (form =? 0x27) then word u64 (getuint data off 3)                       (* addrx3, strx3 *)
  else if (form =? 0x28) || (form =? 0x2c) || (form =? 0x13) then word u64 (getu32 data off)        (* strx4, addrx4, ref4 *)
  else if form =? 0x10 then word u64 (getuint data off (dDwarfLen u))                               (* ref_addr *)
  else if form =? 0x14 then word u64 (getuint data off 8)                                           (* ref8 *)
  else if form =? 0x08 then Ok (VWord off, snd (getstring data off))                                (* string *)
  else if form =? 0x0a then blk (getu8 data off)                                                    (* block1 *)
  else if form =? 0x03 then blk (getu16 data off)                                                   (* block2 *)
  else if form =? 0x04 then blk (getu32 data off)                                                   (* block4 *)
  else if (form =? 0x18) || (form =? 0x09) then blk (getuleb data off)                              (* exprloc, block *)
  else if form =? 0x0c then let* (b, o) := getu8 data off in Ok (VFlag (negb (b =? 0)), o)          (* flag *)
  else if form =? 0x19 then Ok (VFlag true, off)                                                    (* flag_present *)
  else if form =? 0x17 then word u64 (getint data off (dDwarfLen u))                                (* sec_offset *)
  else if form =? 0x20 then word u64 (getuint data off 8)                                           (* ref_sig8 *)
  else if form =? 0x21 then Ok (VWord (u64 impl), off)                                              (* implicit_const *)
  else Throw.

(** ** Abbreviations *)
(** Abbreviation dwarf.h:127-137: tag, hasChildren, and per attribute name, form, implicit value,
    in declaration order (attrName2Idx before sorting pairs each name with its index). *)
Record abbrev : Type := mkAbbrev { abTag : Z; abKids : bool; abAttrs : list (Z * Z * Z) }.
(** nextSibIdx: index of the last DW_AT_sibling, dwarf_info.cc:227-228. *)
Fixpoint sibIdx (i : nat) (l : list (Z * Z * Z)) : option nat :=
  match l with
  | [] => None
  | (n, _, _) :: r => match sibIdx (S i) r with Some k => Some k | None => if n =? 1 then Some i else None end
  end.
(** The loop of Abbreviation::Abbreviation, dwarf_info.cc:223-233. *)
Fixpoint readAttrs (fuel : nat) (data : list Z) (off : Z) : res (list (Z * Z * Z) * Z) :=
  match fuel with
  | O => OutOfFuel
  | S f =>
      let* (name, o1) := getuleb data off in
      let* (form, o2) := getuleb data o1 in
      if (name =? 0) && (form =? 0) then Ok ([], o2)
      else let* (v, o3) := (if form =? 0x21 then getsleb data o2 else Ok (0, o2)) in
           let* (r, o4) := readAttrs f data o3 in Ok ((name, form, v) :: r, o4)
  end.
(** dwarf_info.cc:215-236.  Simplification: tags, names and forms are not reduced to the width of
    their enumerations. *)
Definition readAbbrev (fuel : nat) (data : list Z) (off : Z) : res (abbrev * Z) :=
  let* (tag, o1) := getuleb data off in
  let* (ch, o2) := getu8 data o1 in
  let* (attrs, o3) := readAttrs fuel data o2 in
  Ok (mkAbbrev tag (ch =? 1) attrs, o3).
(** Unit::load dwarf_unit.cc:7-16; emplace keeps the first declaration of a code. *)
Fixpoint loadAbbrevs (fuel : nat) (data : list Z) (off : Z) (acc : list (Z * abbrev)) : res (list (Z * abbrev)) :=
  match fuel with
  | O => OutOfFuel
  | S f =>
      let* (code, o1) := getuleb data off in
      if code =? 0 then Ok acc
      else let* (a, o2) := readAbbrev f data o1 in
           loadAbbrevs f data o2 (acc ++ [(code, a)])
  end.
(** Unit::findAbbreviation dwarf_unit.cc:227-232. *)
Fixpoint findAbbrev (l : list (Z * abbrev)) (code : Z) : option abbrev :=
  match l with
  | [] => None
  | (c, a) :: r => if c =? code then Some a else findAbbrev r code
  end.

(** ** Entries *)
(** DIE::Raw dwarf_die.cc:8-14.  0 means "not known". *)
Record raw : Type := mkRaw { rAbbrev : abbrev; rVals : list dval; rParent : Z; rFirst : Z; rNext : Z }.

(** The value loop of Raw::Raw, dwarf_die.cc:164-171. *)
Fixpoint readVals (data : list Z) (u : dunit) (attrs : list (Z * Z * Z)) (off : Z) : res (list dval * Z) :=
  match attrs with
  | [] => Ok ([], off)
  | (_, form, impl) :: r =>
      let* (v, o) := readForm data u off form impl in
      let* (vs, o') := readVals data u r o in Ok (v :: vs, o')
  end.
(** What decoding at an offset finds: the null entry (with the cursor after it), or an entry. *)
Inductive decoded : Type := DNull (after : Z) | DRaw (r : raw).
(** DIE::decode dwarf_die.cc:372-385 and Raw::Raw 158-179, with parent 0.  An abbreviation code that
    is not declared is a null pointer followed (line 159, 165). *)
Definition decode (data : list Z) (u : dunit) (abbs : list (Z * abbrev)) (off : Z) : res decoded :=
  let* (code, o1) := getuleb data off in
  if code =? 0 then Ok (DNull o1)
  else match findAbbrev abbs code with
       | None => UB
       | Some a =>
           let* (vs, o2) := readVals data u (abAttrs a) o1 in
           let* sib := match sibIdx 0 (abAttrs a) with
                       | None => Ok 0
                       | Some i => match nth i vs (VFlag false) with VWord w => Ok (u64 (w + dOffset u)) | _ => UB end
                       end in
           Ok (DRaw (if abKids a then mkRaw a vs 0 o2 sib else mkRaw a vs 0 0 o2))
       end.

(** ** Navigation *)
(** Unit::allEntries: what has been decoded so far.  A DIE is a unit, an offset and the Raw of that
    offset; a Raw stays in the map (until Unit::purge), so the offset stands for the DIE and a
    null DIE is [None]. *)
Definition store : Type := Z -> option raw.
Definition upd (st : store) (o : Z) (r : raw) : store := fun k => if k =? o then Some r else st k.
Definition setNext (st : store) (o n : Z) : store :=
  match st o with Some r => upd st o (mkRaw (rAbbrev r) (rVals r) (rParent r) (rFirst r) n) | None => st end.
Definition setParent (st : store) (o p : Z) : store :=
  match st o with Some r => upd st o (mkRaw (rAbbrev r) (rVals r) p (rFirst r) (rNext r)) | None => st end.
Definition nextOf (st : store) (o : Z) : Z := match st o with Some r => rNext r | None => 0 end.
Definition firstOf (st : store) (o : Z) : Z := match st o with Some r => rFirst r | None => 0 end.
Definition parentField (st : store) (o : Z) : Z := match st o with Some r => rParent r | None => 0 end.
Definition ofOpt (p : option Z) : Z := match p with Some x => x | None => 0 end.

Section Nav.
Context (u : dunit) (dec : Z -> res decoded).

(** Unit::offsetToDIE and offsetToRawDIE dwarf_unit.cc:135-160, DIE::decode dwarf_die.cc:372-385. *)
Definition offToDie (st : store) (par : option Z) (off : Z) : store * res (option Z) :=
  if (off =? 0) || (off <? dOffset u) || (dEnd u <=? off) then (st, Ok None)
  else match st off with
       | Some _ => (st, Ok (Some off))
       | None => match dec off with
                 | Ok (DNull after) => (match par with Some p => setNext st p after | None => st end, Ok None)
                 | Ok (DRaw r) => (upd st off (mkRaw (rAbbrev r) (rVals r) (ofOpt par) (rFirst r) (rNext r)), Ok (Some off))
                 | Throw => (st, Throw) | UB => (st, UB) | OutOfFuel => (st, OutOfFuel)
                 end
       end.
(** Update of an unknown parent by the iterator, dwarf_die.cc:392-393, 402-403. *)
Definition fixParent (st : store) (cur : option Z) (par : Z) : store :=
  match cur with Some c => if parentField st c =? 0 then setParent st c par else st | None => st end.

(** DIE::nextSibling dwarf_die.cc:35-50 and the child iterator, 387-405, 649-657. *)
Fixpoint nextSib (fuel : nat) (st : store) (d : Z) (par : option Z) {struct fuel} : store * res (option Z) :=
  match fuel with
  | O => (st, OutOfFuel)
  | S f =>
      if nextOf st d =? 0 then
        match offToDie st (Some d) (firstOf st d) with
        | (st1, Ok first) =>
            match childLoop f (fixParent st1 first d) d first with
            | (st2, Ok kids) =>
                let st3 := match rev kids with l :: _ => setNext st2 l 0 | [] => st2 end in
                offToDie st3 par (nextOf st3 d)
            | (st2, Throw) => (st2, Throw) | (st2, UB) => (st2, UB) | (st2, OutOfFuel) => (st2, OutOfFuel)
            end
        | (st1, Throw) => (st1, Throw) | (st1, UB) => (st1, UB) | (st1, OutOfFuel) => (st1, OutOfFuel)
        end
      else offToDie st par (nextOf st d)
  end
with childLoop (fuel : nat) (st : store) (par : Z) (cur : option Z) {struct fuel} : store * res (list Z) :=
  match fuel with
  | O => (st, OutOfFuel)
  | S f =>
      match cur with
      | None => (st, Ok [])
      | Some c =>
          match nextSib f st c (Some par) with
          | (st1, Ok nxt) =>
              match childLoop f (fixParent st1 nxt par) par nxt with
              | (st2, Ok l) => (st2, Ok (c :: l))
              | (st2, x) => (st2, x)
              end
          | (st1, Throw) => (st1, Throw) | (st1, UB) => (st1, UB) | (st1, OutOfFuel) => (st1, OutOfFuel)
          end
      end
  end.
(** [for (auto c : d.children())] collecting the children. *)
Definition children (fuel : nat) (st : store) (d : Z) : store * res (list Z) :=
  match offToDie st (Some d) (firstOf st d) with
  | (st1, Ok first) => childLoop fuel (fixParent st1 first d) d first
  | (st1, Throw) => (st1, Throw) | (st1, UB) => (st1, UB) | (st1, OutOfFuel) => (st1, OutOfFuel)
  end.

(** walk dwarf_die.cc:346-348: the whole subtree, iterating and descending alternately. *)
Fixpoint walk (fuel : nat) (st : store) (d : Z) {struct fuel} : store * res unit :=
  match fuel with
  | O => (st, OutOfFuel)
  | S f =>
      match offToDie st (Some d) (firstOf st d) with
      | (st1, Ok first) => walkLoop f (fixParent st1 first d) d first
      | (st1, Throw) => (st1, Throw) | (st1, UB) => (st1, UB) | (st1, OutOfFuel) => (st1, OutOfFuel)
      end
  end
with walkLoop (fuel : nat) (st : store) (par : Z) (cur : option Z) {struct fuel} : store * res unit :=
  match fuel with
  | O => (st, OutOfFuel)
  | S f =>
      match cur with
      | None => (st, Ok tt)
      | Some c =>
          match walk f st c with
          | (st1, Ok _) =>
              match nextSib f st1 c (Some par) with
              | (st2, Ok nxt) => walkLoop f (fixParent st2 nxt par) par nxt
              | (st2, Throw) => (st2, Throw) | (st2, UB) => (st2, UB) | (st2, OutOfFuel) => (st2, OutOfFuel)
              end
          | x => x
          end
      end
  end.
(** DIE::getParentOffset dwarf_die.cc:351-370. *)
Definition getParent (fuel : nat) (st : store) (d : Z) : store * res Z :=
  if (parentField st d =? 0) && negb (d =? dRoot u) then
    match offToDie st None (dRoot u) with
    | (st1, Ok (Some r)) => match walk fuel st1 r with
                            | (st2, Ok _) => (st2, Ok (parentField st2 d))
                            | (st2, Throw) => (st2, Throw) | (st2, UB) => (st2, UB) | (st2, OutOfFuel) => (st2, OutOfFuel)
                            end
    | (st1, Ok None) => (st1, UB)
    | (st1, Throw) => (st1, Throw) | (st1, UB) => (st1, UB) | (st1, OutOfFuel) => (st1, OutOfFuel)
    end
  else (st, Ok (parentField st d)).
End Nav.
