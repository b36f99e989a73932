(** Model of attribute lookup, range lists and address tests on entries: dwarf_die.cc:52-149,
    434-547, 588-647; dwarf_unit.cc:48-85, 234-246. *)
From Verif Require Import Base DwarfReader Die.

(** An entry as the lookups see it: the offset of its unit, its abbreviation's tag and attribute
    specifications (name, form, implicit constant), and its values. *)
Record entry : Type := mkEntry { eUnit : Z; eTag : Z; eAttrs : list (Z * Z * Z); eVals : list dval }.

(** ** Lookup *)
(** attrName2Idx is filled in declaration order (dwarf_info.cc:230) and sorted as pairs on the first
    lookup (dwarf_die.cc:121-124). *)
Fixpoint nameIdx (i : Z) (l : list (Z * Z * Z)) : list (Z * Z) :=
  match l with [] => [] | (n, _, _) :: r => (n, i) :: nameIdx (i + 1) r end.
Definition pairLe (a b : Z * Z) : bool := (fst a <? fst b) || ((fst a =? fst b) && (snd a <=? snd b)).
Fixpoint insertP (x : Z * Z) (l : list (Z * Z)) : list (Z * Z) :=
  match l with [] => [x] | y :: r => if pairLe x y then x :: l else y :: insertP x r end.
Definition sortP (l : list (Z * Z)) : list (Z * Z) := fold_right insertP [] l.
(** std::lower_bound with [cmp] (dwarf_die.cc:117-128): the first entry whose name is not less.
    Simplification: found by scanning instead of bisecting the sorted vector. *)
Fixpoint lowerBound (name : Z) (l : list (Z * Z)) : option (Z * Z) :=
  match l with [] => None | y :: r => if fst y <? name then lowerBound name r else Some y end.
(** The local part of DIE::attribute, dwarf_die.cc:121-131: the form and value of the attribute. *)
Definition ownAttr (e : entry) (name : Z) : option (Z * dval) :=
  match lowerBound name (sortP (nameIdx 0 (eAttrs e))) with
  | Some (n, i) => if n =? name then
                     match znth i (eAttrs e), znth i (eVals e) with
                     | Some (_, form, _), Some v => Some (form, v) | _, _ => None
                     end
                   else None
  | None => None
  end.

Section Lookup.
(** The entries of the debug info by offset (DIE at an offset: Unit::offsetToDIE, Info::offsetToDIE). *)
Context (ents : Z -> option entry).
(** Attribute::operator DIE, dwarf_die.cc:588-626.  An entry that is not there: Info::offsetToDIE
    throws (dwarf_info.cc:123).  Simplification: there is no alternate debug file, for which
    GNU_ref_alt throws. *)
Definition asDie (e : entry) (a : option (Z * dval)) : res (option Z) :=
  match a with
  | None => Ok None
  | Some (form, v) =>
      match v with
      | VWord w =>
          if form =? 0x10 then match ents w with Some _ => Ok (Some w) | None => Throw end
          else if (form =? 0x15) || (form =? 0x11) || (form =? 0x12) || (form =? 0x13) || (form =? 0x14) then
            let o := u64 (w + eUnit e) in match ents o with Some _ => Ok (Some o) | None => Throw end
          else Throw
      | _ => Throw
      end
  end.
(** DIE::attribute dwarf_die.cc:114-149: DW_AT_declaration 0x3c, abstract_origin 0x31, specification
    0x47.  The answer is the entry the attribute was found in, its form and its value.  The
    derefs are visited in the order of the set. *)
Fixpoint attribute (fuel : nat) (o name : Z) (loc : bool) : res (option (Z * Z * dval)) :=
  match fuel with
  | O => OutOfFuel
  | S f =>
      match ents o with
      | None => UB
      | Some e =>
          match ownAttr e name with
          | Some (form, v) => Ok (Some (o, form, v))
          | None =>
              if loc || (name =? 0x3c) || (name =? 0x31) || (name =? 0x47) then Ok None
              else
                let* ao := asDie e (ownAttr e 0x31) in
                match (match ao with Some p => if p =? o then None else Some p | None => None end) with
                | Some p => attribute f p name false
                | None =>
                    let* sp := asDie e (ownAttr e 0x47) in
                    match (match sp with Some p => if p =? o then None else Some p | None => None end) with
                    | Some p => attribute f p name false
                    | None => Ok None
                    end
                end
          end
      end
  end.
End Lookup.

(** ** Indexed addresses and range lists *)
(** Unit::addrx dwarf_unit.cc:48-60; [base] is the root's DW_AT_addr_base (0 if it has none).
    readObj<Elf::Addr> reads 8 bytes. *)
Definition addrx (dbgAddr : option (list Z)) (base idx : Z) : res Z :=
  match dbgAddr with
  | None => Throw
  | Some d =>
      let* len := (if 2 <? base then (let* (n, _) := getu8 d (base - 2) in Ok n) else Ok 8) in
      let* (v, _) := getuint d (u64 (base + idx * len)) 8 in Ok v
  end.
(** Unit::rnglistx dwarf_unit.cc:62-85; [base] is the root's DW_AT_rnglists_base (0 if none). *)
Definition rnglistx (rnglists : list Z) (base slot : Z) : res Z :=
  let* (_, dlen, _) := getlength rnglists 0 in
  let* (v, _) := getuint rnglists (u64 (base + slot * dlen)) dlen in Ok (u64 (base + v)).
(** Unit::strx dwarf_unit.cc:18-46: the offset in .debug_str; [base] is the root's
    DW_AT_str_offsets_base. *)
Definition strx (strOffsets : option (list Z)) (base : option Z) (version dwarfLen idx : Z) : res Z :=
  match strOffsets with
  | None => Throw
  | Some d =>
      let* (b, es) := match base with
                      | Some b => Ok (b, dwarfLen)
                      | None => if 5 <=? version then
                                  let* (_, es, o) := getlength d 0 in
                                  let* (_, o1) := getu16 d o in let* (_, o2) := getu16 d o1 in Ok (o2, es)
                                else Ok (0, 4)
                      end in
      let* (v, _) := getuint d (u64 (b + es * idx)) es in Ok v
  end.

(** What a unit contributes: its version, address size, bases and its root's low_pc. *)
Record uenv : Type := mkUenv { uVer : Z; uAddrLen : Z; uAddrBase : Z; uRngBase : Z; uLow : option Z }.
Record secs : Type := mkSecs { sAddr : option (list Z); sRanges : list Z; sRnglists : list Z }.

(** Attribute::operator uintmax_t dwarf_die.cc:434-466. *)
Definition toU (s : secs) (u : uenv) (form : Z) (v : dval) : res Z :=
  match v with
  | VWord w =>
      if (form =? 0x0b) || (form =? 0x05) || (form =? 0x06) || (form =? 0x07) || (form =? 0x0f) || (form =? 0x21) then Ok w
      else if (form =? 0x01) || (form =? 0x17) then Ok w
      else if (form =? 0x1b) || (form =? 0x29) || (form =? 0x2a) || (form =? 0x2b) || (form =? 0x2c) then addrx (sAddr s) (uAddrBase u) w
      else if form =? 0x23 then rnglistx (sRnglists s) (uRngBase u) w
      else Throw
  | _ => Throw
  end.

(** Ranges::Ranges dwarf_die.cc:472-484, versions before 5. *)
Fixpoint ranges4 (fuel : nat) (data : list Z) (off base : Z) : res (list (Z * Z)) :=
  match fuel with
  | O => OutOfFuel
  | S f =>
      let* (s, o1) := getuint data off 8 in
      let* (e, o2) := getuint data o1 8 in
      if (s =? 0) && (e =? 0) then Ok []
      else if s =? W64 - 1 then ranges4 f data o2 e
      else let* r := ranges4 f data o2 base in Ok ((u64 (s + base), u64 (e + base)) :: r)
  end.
(** dwarf_die.cc:485-546, version 5. *)
Fixpoint ranges5 (fuel : nat) (data : list Z) (addr : Z -> res Z) (alen : Z) (off base : Z) : res (list (Z * Z)) :=
  match fuel with
  | O => OutOfFuel
  | S f =>
      let* (k, o) := getu8 data off in
      if k =? 0 then Ok []
      else if k =? 1 then let* (i, o1) := getuleb data o in let* b := addr i in ranges5 f data addr alen o1 b
      else if k =? 2 then let* (_, o1) := getuleb data o in let* (_, _) := getuleb data o1 in Throw
      else if k =? 3 then
        let* (i, o1) := getuleb data o in let* s := addr i in let* (n, o2) := getuleb data o1 in
        let* r := ranges5 f data addr alen o2 base in Ok ((s, u64 (s + n)) :: r)
      else if k =? 4 then
        let* (s, o1) := getuleb data o in let* (e, o2) := getuleb data o1 in
        let* r := ranges5 f data addr alen o2 base in Ok ((u64 (s + base), u64 (e + base)) :: r)
      else if k =? 5 then let* (b, o1) := getuint data o alen in ranges5 f data addr alen o1 b
      else if k =? 6 then
        let* (s, o1) := getuint data o alen in let* (e, o2) := getuint data o1 alen in
        let* r := ranges5 f data addr alen o2 base in Ok ((s, e) :: r)
      else if k =? 7 then
        let* (s, o1) := getuint data o alen in let* (n, o2) := getuleb data o1 in
        let* r := ranges5 f data addr alen o2 base in Ok ((s, u64 (s + n)) :: r)
      else Throw
  end.
Definition ranges (fuel : nat) (s : secs) (u : uenv) (off base : Z) : res (list (Z * Z)) :=
  if uVer u <? 5 then ranges4 fuel (sRanges s) off base
  else ranges5 fuel (sRnglists s) (addrx (sAddr s) (uAddrBase u)) (uAddrLen u) off base.

(** ** Address tests and the search of the tree *)
(** ContainsAddr, dwarf.h. *)
Inductive contains : Type := NO | YES | UNKNOWN.
(** Unit::rangesForOffset. *)
Definition rcache : Type := Z -> option (list (Z * Z)).
(** The tree of entries: offsets and children (navigation is the subject of C60). *)
Inductive ftree : Type := FT (off : Z) (kids : list ftree).
Section Contains.
Context (ents : Z -> option entry) (units : Z -> uenv) (s : secs) (fuel : nat).
(** Ranges::Ranges dwarf_die.cc:468-547 for the entry [o]. *)
Definition rangesOf (o base : Z) : res (list (Z * Z)) :=
  match ents o with
  | None => UB
  | Some e =>
      let* a := attribute ents fuel o 0x55 false in
      let* off := match a with
                  | None => Ok 0
                  | Some (o', form, v) => match ents o' with Some e' => toU s (units (eUnit e')) form v | None => UB end
                  end in
      ranges fuel s (units (eUnit e)) off base
  end.
(** Unit::getRanges dwarf_unit.cc:234-246. *)
Definition unitRanges (c : rcache) (o base : Z) : rcache * res (list (Z * Z)) :=
  match ents o with
  | None => (c, UB)
  | Some e =>
      let b := if base =? 0 then match uLow (units (eUnit e)) with Some l => l | None => base end else base in
      match c o with
      | Some r => (c, Ok r)
      | None => match rangesOf o b with
                | Ok r => ((fun k => if k =? o then Some r else c k), Ok r)
                | x => (c, x)
                end
      end
  end.
Definition addrForm (form : Z) : bool := (form =? 0x01) || (form =? 0x1b) || (form =? 0x29) || (form =? 0x2a) || (form =? 0x2b) || (form =? 0x2c).
(** DIE::containsAddress dwarf_die.cc:52-112: DW_AT_low_pc 0x11, high_pc 0x12, ranges 0x55. *)
Definition containsAddress (c : rcache) (o addr : Z) : rcache * res contains :=
  match ents o with
  | None => (c, UB)
  | Some e =>
      let u := units (eUnit e) in
      match ownAttr e 0x11, ownAttr e 0x12 with
      | Some (lf, lv), Some (hf, hv) =>
          (c, if addrForm lf then
                let* start := toU s u lf lv in
                let* fin := (if addrForm hf then toU s u hf hv
                             else if (hf =? 0x0b) || (hf =? 0x05) || (hf =? 0x06) || (hf =? 0x07) || (hf =? 0x0f) then
                               let* n := toU s u hf hv in Ok (u64 (start + n))
                             else Throw) in
                Ok (if (start <=? addr) && (addr <? fin) then YES else NO)
              else Throw)
      | low, _ =>
          match attribute ents fuel o 0x55 false with
          | Ok None => (c, Ok UNKNOWN)
          | Ok (Some _) =>
              match (match low with Some (lf, lv) => toU s u lf lv | None => Ok 0 end) with
              | Ok base =>
                  match unitRanges c o base with
                  | (c', Ok rs) => (c', Ok (if existsb (fun r => (fst r <=? addr) && (addr <=? snd r)) rs then YES else NO))
                  | (c', Throw) => (c', Throw) | (c', UB) => (c', UB) | (c', OutOfFuel) => (c', OutOfFuel)
                  end
              | Throw => (c, Throw) | UB => (c, UB) | OutOfFuel => (c, OutOfFuel)
              end
          | Throw => (c, Throw) | UB => (c, UB) | OutOfFuel => (c, OutOfFuel)
          end
      end
  end.
(** DIE::findEntryForAddr dwarf_die.cc:628-647. *)
Definition tagOf (o : Z) : Z := match ents o with Some e => eTag e | None => 0 end.
Fixpoint findEntry (addr want : Z) (c : rcache) (t : ftree) (skipStart : bool) : rcache * res (option Z) :=
  match t with
  | FT o ks =>
      let inKids := (fix go (c : rcache) (l : list ftree) :=
                       match l with
                       | [] => (c, Ok None)
                       | k :: r => match findEntry addr want c k false with
                                   | (c', Ok None) => go c' r
                                   | x => x
                                   end
                       end) in
      match containsAddress c o addr with
      | (c', Ok NO) => (c', Ok None)
      | (c', Ok YES) => if negb skipStart && (tagOf o =? want) then (c', Ok (Some o)) else inKids c' ks
      | (c', Ok UNKNOWN) => inKids c' ks
      | (c', Throw) => (c', Throw) | (c', UB) => (c', UB) | (c', OutOfFuel) => (c', OutOfFuel)
      end
  end.
End Contains.
