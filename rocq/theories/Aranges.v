(** Model of the address-to-unit map: dwarf_info.cc:133-213 (Info::decodeARangeSet,
    Info::lookupUnit). *)
From Verif Require Import Base DwarfReader.

(** Info::ARanges, std::map<Addr, pair<Addr, Off>> (libpstack/dwarf.h): end address of an entry
    to (length, unit offset).  At most one entry per key; operator[] = replaces. *)
Definition amap : Type := list (Z * (Z * Z)).
Definition amInsert (k len unit : Z) (m : amap) : amap :=
  (k, (len, unit)) :: filter (fun e => negb (fst e =? k)) m.
(** std::map::upper_bound: the entry with the smallest key greater than [a]. *)
Fixpoint amUpper (m : amap) (a : Z) : option (Z * (Z * Z)) :=
  match m with
  | [] => None
  | e :: r => let b := amUpper r a in
              if fst e >? a then
                match b with
                | Some e' => if fst e' <? fst e then b else Some e
                | None => Some e
                end
              else b
  end.
(** dwarf_info.cc:183-185 and 210-212: [it->first - it->second.first <= addr], modulo 2^64. *)
Definition amHit (m : amap) (a : Z) : option Z :=
  match amUpper m a with
  | Some (k, (len, unit)) => if u64 (k - len) <=? a then Some unit else None
  | None => None
  end.

(** The tuple loop, dwarf_info.cc:165-169.  The map is updated in place, so what was inserted
    before an exception stays. *)
Fixpoint arTuples (fuel : nat) (data : list Z) (m : amap) (off next alen unit : Z) : amap * res Z :=
  match fuel with
  | O => (m, OutOfFuel)
  | S f =>
      if off <? next then
        match (let* (s, o1) := getuint data off alen in let* (l, o2) := getuint data o1 alen in Ok (s, l, o2)) with
        | Ok (s, l, o2) => arTuples f data (amInsert (u64 (s + l)) l unit m) o2 next alen unit
        | Throw => (m, Throw) | UB => (m, UB) | OutOfFuel => (m, OutOfFuel)
        end
      else (m, Ok off)
  end.
(** Info::decodeARangeSet dwarf_info.cc:133-170.  The unit offset is always read as 4 bytes (140);
    the alignment (162) skips a whole tuple if the cursor is already aligned; with a segment size
    the function returns with the cursor in the middle of the set (148-155).
    [addrlen * 2] and [used %] are done in [unsigned]/[Off] and cannot wrap. *)
Definition arSet (fuel : nat) (data : list Z) (m : amap) (off : Z) : amap * res Z :=
  match (let* (length, _, o1) := getlength data off in
         let* (_, o2) := getu16 data o1 in
         let* (unit, o3) := getu32 data o2 in
         let* (al, o4) := getu8 data o3 in
         let* (seg, o5) := getu8 data o4 in
         Ok (u64 (o1 + length), unit, (if al =? 0 then 1 else al), seg, o5)) with
  | Ok (next, unit, alen, seg, o5) =>
      if negb (seg =? 0) then (m, Ok o5)
      else let tupleLen := alen * 2 in
           let used := o5 - off in
           let align := tupleLen - used mod tupleLen in
           arTuples fuel data m (o5 + align) next alen unit
  | Throw => (m, Throw) | UB => (m, UB) | OutOfFuel => (m, OutOfFuel)
  end.
(** [while (!r.empty()) decodeARangeSet(r)], dwarf_info.cc:178-179; empty() is [off == end]
    (libpstack/dwarf.h, DWARFReader::empty). *)
Fixpoint arSection (fuel : nat) (data : list Z) (m : amap) (off : Z) : amap * res unit :=
  match fuel with
  | O => (m, OutOfFuel)
  | S f =>
      if off =? zlen data then (m, Ok tt)
      else match arSet (S f) data m off with
           | (m', Ok o) => arSection f data m' o
           | (m', Throw) => (m', Throw)
           | (m', UB) => (m', UB)
           | (m', OutOfFuel) => (m', OutOfFuel)
           end
  end.

(** What the fallback reads of a unit's root DIE (dwarf_info.cc:193-205): the unit's offset,
    DW_AT_low_pc and DW_AT_high_pc as uintmax_t with high's form, and the decoded DW_AT_ranges.
    Simplification: attribute decoding is modelled in Die.v; here it has succeeded. *)
Record rootUnit : Type := mkRoot {
  uOff : Z; uLow : option Z; uHigh : option (Z * Z) (* form, value *); uRanges : option (list (Z * Z)) }.
Definition DW_FORM_addr : Z := 1.
(** dwarf_info.cc:195-206. *)
Definition arUnit (m : amap) (u : rootUnit) : amap :=
  let m1 := match uLow u, uHigh u with
            | Some low, Some (form, h) =>
                let high := if form =? DW_FORM_addr then h else u64 (h + low) in
                amInsert high (u64 (high - low)) (uOff u) m
            | _, _ => m
            end in
  match uRanges u with
  | Some rs => fold_left (fun m r => amInsert (snd r) (fst r) (uOff u) m) rs m1
  | None => m1
  end.

(** Info::aranges and Info::unitRangesCached. *)
Record arState : Type := mkAR { arMap : option amap; arCached : bool }.
Definition arState0 : arState := mkAR None false.
(** Info::lookupUnit dwarf_info.cc:172-213: the offset of the unit found (getUnit then makes the
    unit at that offset).  [sec] is .debug_aranges if there is one. *)
Definition lookupUnit (fuel : nat) (sec : option (list Z)) (units : list rootUnit) (st : arState) (addr : Z) : arState * res (option Z) :=
  let '(m, r) := match arMap st with
                 | Some m => (m, Ok tt)
                 | None => match sec with Some data => arSection fuel data [] 0 | None => ([], Ok tt) end
                 end in
  match r with
  | Ok _ =>
      match amHit m addr with
      | Some u => (mkAR (Some m) (arCached st), Ok (Some u))
      | None => let m' := if arCached st then m else fold_left arUnit units m in
                (mkAR (Some m') true, Ok (amHit m' addr))
      end
  | Throw => (mkAR (Some m) (arCached st), Throw)
  | UB => (mkAR (Some m) (arCached st), UB)
  | OutOfFuel => (mkAR (Some m) (arCached st), OutOfFuel)
  end.
(** Any history of lookups. *)
Fixpoint arHistory (fuel : nat) (sec : option (list Z)) (units : list rootUnit) (st : arState) (h : list Z) : arState :=
  match h with
  | [] => st
  | a :: r => arHistory fuel sec units (fst (lookupUnit fuel sec units st a)) r
  end.
