(** Model of the units of .debug_info: Unit::Unit (dwarf_unit.cc:87-125), Info::getUnit and
    Info::offsetToDIE (dwarf_info.cc:59-124), Info::getUnits and its iterator (dwarf.h:624-656, 847-877). *)
From Verif Require Import Base DwarfReader.

(** The fields of a Unit, dwarf.h:436-470.  [length] is 32 bits wide. *)
Record unitH : Type := mkUH { uhOff : Z; uhEnd : Z; uhVersion : Z; uhType : Z; uhDwarfLen : Z; uhAddrLen : Z; uhAbbrev : Z; uhRoot : Z;
  uhLength : Z; uhId : list Z }.

Section Units.
(** .debug_info *)
Context (data : list Z).
(** Unit::Unit dwarf_unit.cc:87-125.  DW_UT_compile 1, type 2, partial 3, skeleton 4, split_compile 5,
    split_type 6.  The id is zero unless one is read. *)
Definition readUnit (off : Z) : res unitH :=
  let* (length, dl, o1) := getlength data off in
  let end_ := u64 (o1 + length) in
  let* (version, o2) := getu16 data o1 in
  let dl := if version <=? 2 then 8 else dl in
  if version >=? 5 then
    let* (ty, o3) := getu8 data o2 in
    if (ty =? 1) || (ty =? 2) || (ty =? 3) then
      let* (al, o4) := getu8 data o3 in
      let* (ab, o5) := getuint data o4 dl in Ok (mkUH off end_ version ty dl al ab o5 (u32 length) (repeat 0 8))
    else if (ty =? 4) || (ty =? 5) || (ty =? 6) then
      let* (al, o4) := getu8 data o3 in
      let* (ab, o5) := getuint data o4 dl in
      let* id := secBytes data o5 8 in Ok (mkUH off end_ version ty dl al ab (o5 + 8) (u32 length) id)
    else Throw
  else
    let* (ab, o3) := getuint data o2 (if version <=? 2 then 4 else dl) in
    let* (al, o4) := getu8 data o3 in Ok (mkUH off end_ version 1 dl al ab o4 (u32 length) (repeat 0 8)).

(** Info::units: a null pointer is left behind if the constructor throws. *)
Definition umap : Type := list (Z * option unitH).
Definition uFind (o : Z) (m : umap) : option (option unitH) := option_map snd (find (fun e => fst e =? o) m).
Fixpoint uSet (o : Z) (x : option unitH) (m : umap) : umap :=
  match m with
  | [] => [(o, x)]
  | e :: r => if fst e =? o then (o, x) :: r else e :: uSet o x r
  end.
(** Info::getUnit dwarf_info.cc:59-71 *)
Definition getUnit (m : umap) (off : Z) : umap * res unitH :=
  match uFind off m with
  | Some (Some u) => (m, Ok u)
  | _ => match readUnit off with
         | Ok u => (uSet off (Some u) m, Ok u)
         | Throw => (uSet off None m, Throw)
         | UB => (uSet off None m, UB)
         | OutOfFuel => (uSet off None m, OutOfFuel)
         end
  end.
(** for (auto u : getUnits()), from the unit at [off]: dwarf.h:847-853, 876-877. *)
Fixpoint unitsFrom (fuel : nat) (m : umap) (off : Z) : umap * res (list unitH) :=
  match fuel with
  | O => (m, OutOfFuel)
  | S f =>
      match getUnit m off with
      | (m1, Ok u) =>
          if uhEnd u =? zlen data then (m1, Ok [u])
          else match unitsFrom f m1 (uhEnd u) with
               | (m2, Ok l) => (m2, Ok (u :: l))
               | (m2, x) => (m2, x)
               end
      | (m1, Throw) => (m1, Throw)
      | (m1, UB) => (m1, UB)
      | (m1, OutOfFuel) => (m1, OutOfFuel)
      end
  end.
(** units.upper_bound(offset), and the element before it: the largest key that is not larger. *)
Definition lastKey (off : Z) (m : umap) : option Z :=
  fold_left (fun a e => if fst e <=? off then match a with Some k => Some (Z.max k (fst e)) | None => Some (fst e) end else a) m None.
(** What Unit::offsetToDIE makes of an offset of a unit (Die.v): an entry, or none. *)
Context (entry : unitH -> Z -> res bool).
(** The loop of Info::offsetToDIE dwarf_info.cc:101-123.  The answer is the unit of the entry. *)
Fixpoint dieLoop (fuel : nat) (m : umap) (uo off : Z) : umap * res unitH :=
  match fuel with
  | O => (m, OutOfFuel)
  | S f =>
      match getUnit m uo with
      | (m1, Ok u) =>
          if uhEnd u >? off then
            if uhOff u <=? off then
              (m1, match entry u off with
                   | Ok true => Ok u
                   | Ok false => Throw
                   | Throw => Throw
                   | UB => UB
                   | OutOfFuel => OutOfFuel
                   end)
            else (m1, Throw)
          else if uhEnd u =? zlen data then (m1, Throw)
          else dieLoop f m1 (uhEnd u) off
      | (m1, Throw) => (m1, Throw)
      | (m1, UB) => (m1, UB)
      | (m1, OutOfFuel) => (m1, OutOfFuel)
      end
  end.
(** Info::offsetToDIE dwarf_info.cc:73-124 *)
Definition infoDie (fuel : nat) (m : umap) (off : Z) : umap * res unitH :=
  dieLoop fuel m (match lastKey off m with Some k => k | None => 0 end) off.
End Units.
