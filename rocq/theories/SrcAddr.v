(** Model of Info::sourceFromAddr (dwarf_info.cc:32-42), which CodeLocation::source (dwarfproc.cc:699-705) and the heap dump ask for the source of
    an address: the unit of the address, its root entry, its line table. *)
From Coq Require Import Ascii String.
From Verif Require Import Base DwarfReader Lines Aranges Die DieAttr Dump DumpUnit.
Open Scope Z_scope.

Section Src.
(** the sections; [aunits]: what the fallback of lookupUnit reads of each unit (Aranges.v); [roots]: the root entry of the unit at an offset; [ents] and
    [units]: the entries and their units (DieAttr.v); [se]: the string sections as a unit's line table sees them *)
Context (arsec : option (list Z)) (aunits : list rootUnit) (roots : Z -> option Z) (ents : Z -> option entry) (units : Z -> uenv) (sc : secs).
Context (dline : option (list Z)) (se : Z -> strEnv) (verbose : bool) (nf fuel : nat).

(** what an Info keeps between calls: the map of addresses and each unit's range lists.  Simplification: the units made and their line tables are not
    kept, as making one again gives the same (C43, C163). *)
Record srcState : Type := mkSS { ssAr : arState; ssRanges : rcache }.
Definition srcState0 : srcState := mkSS arState0 (fun _ => None).

(** Unit::sourceFromAddr dwarf_unit.cc:188-207 for the unit at [u]; getLines is that of DumpUnit.v *)
Definition unitSource (c : rcache) (u addr : Z) : rcache * res (list (list Z * Z)) :=
  match roots u with
  | None => (c, Throw)
  | Some o =>
      let '(c', r) := containsAddress ents units sc nf c o addr in
      (c', let* k := r in
           match k with
           | NO => Ok []
           | _ => let* li := getLines ents nf dline (se u) fuel o in
                  match li with
                  | None => Ok []
                  | Some li => let* x := sourceFromAddr true verbose li addr in Ok (match x with Some y => [y] | None => [] end)
                  end
           end)
  end.
(** Info::sourceFromAddr dwarf_info.cc:32-42, with Info::getUnit (58-71): there is no unit at an offset where no unit can be read, which throws *)
Definition infoSource (st : srcState) (addr : Z) : srcState * res (list (list Z * Z)) :=
  match lookupUnit fuel arsec aunits (ssAr st) addr with
  | (a, Ok None) => (mkSS a (ssRanges st), Ok [])
  | (a, Ok (Some u)) => let '(c, r) := unitSource (ssRanges st) u addr in (mkSS a c, r)
  | (a, Throw) => (mkSS a (ssRanges st), Throw)
  | (a, UB) => (mkSS a (ssRanges st), UB)
  | (a, OutOfFuel) => (mkSS a (ssRanges st), OutOfFuel)
  end.
(** any number of questions *)
Fixpoint srcHistory (st : srcState) (h : list Z) : srcState :=
  match h with [] => st | a :: r => srcHistory (fst (infoSource st a)) r end.
End Src.
