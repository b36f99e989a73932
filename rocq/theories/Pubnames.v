(** Model of .debug_pubnames: dwarf_pubnames.cc:5-26 (Pubname, PubnameUnit) and
    dwarf_info.cc:44-57 (Info::pubnames). *)
From Verif Require Import Base DwarfReader.

(** libpstack/dwarf.h:140-144: an offset and a name. *)
Definition pubname : Type := (Z * list Z)%type.
(** libpstack/dwarf.h:147-154. *)
Record pubUnit : Type := mkPU { puLength : Z; puVersion : Z; puInfoOffset : Z; puInfoLength : Z; puNames : list pubname }.

(** The loop dwarf_pubnames.cc:20-25; [acc] is the list in reverse. *)
Fixpoint pubLoop (fuel : nat) (data : list Z) (off next : Z) (acc : list pubname) : res (list pubname * Z) :=
  match fuel with
  | O => OutOfFuel
  | S f =>
      if off <? next then
        let* (v, o1) := getu32 data off in
        if v =? 0 then Ok (rev acc, o1)
        else let '(s, o2) := getstring data o1 in pubLoop f data o2 next ((v, s) :: acc)
      else Ok (rev acc, off)
  end.
(** PubnameUnit::PubnameUnit dwarf_pubnames.cc:11-26.  The member [length] is a uint16_t
    (libpstack/dwarf.h:148), so the 32-bit length is reduced before [next] is computed from it. *)
Definition readPubUnit (fuel : nat) (data : list Z) (off : Z) : res (pubUnit * Z) :=
  let* (l, o1) := getu32 data off in
  let length := u16 l in
  let next := o1 + length in
  let* (version, o2) := getu16 data o1 in
  let* (io, o3) := getu32 data o2 in
  let* (il, o4) := getu32 data o3 in
  let* (names, o5) := pubLoop fuel data o4 next [] in
  Ok (mkPU length version io il names, o5).
(** The loop dwarf_info.cc:52-53: emplace_back leaves the list as it was if the constructor throws. *)
Fixpoint pubSection (fuel : nat) (data : list Z) (off : Z) (acc : list pubUnit) : list pubUnit * res unit :=
  match fuel with
  | O => (acc, OutOfFuel)
  | S f =>
      if off =? zlen data then (acc, Ok tt)
      else match readPubUnit fuel data off with
           | Ok (u, o) => pubSection f data o (acc ++ [u])
           | Throw => (acc, Throw) | UB => (acc, UB) | OutOfFuel => (acc, OutOfFuel)
           end
  end.
(** Info::pubnames dwarf_info.cc:44-57.  The state is the member pubnameUnits ([None]: null);
    [sec] is the contents of .debug_pubnames, if there is one. *)
Definition pubnames (fuel : nat) (sec : option (list Z)) (st : option (list pubUnit)) : option (list pubUnit) * res (list pubUnit) :=
  match st with
  | Some l => (st, Ok l)
  | None =>
      match sec with
      | None => (Some [], Ok [])
      | Some data =>
          let '(l, r) := pubSection fuel data 0 [] in
          (Some l, match r with Ok _ => Ok l | Throw => Throw | UB => UB | OutOfFuel => OutOfFuel end)
      end
  end.
