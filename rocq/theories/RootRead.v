(** Model of what Info::lookupUnit reads of each unit's root entry (dwarf_info.cc:193-206), with DIE::getRanges (dwarf_die.cc:726-733): the records
    [rootUnit] that Aranges.v takes. *)
From Verif Require Import Base DwarfReader Aranges Die DieAttr.
Open Scope Z_scope.

Section Read.
Context (ents : Z -> option entry) (units : Z -> uenv) (sc : secs) (nf : nat).
(** an attribute and its value as a uintmax_t *)
Definition attrU (o name : Z) : res (option (Z * Z)) :=
  let* a := attribute ents nf o name false in
  match a with
  | None => Ok None
  | Some (o', form, v) => match ents o' with Some e' => let* w := toU sc (units (eUnit e')) form v in Ok (Some (form, w)) | None => UB end
  end.
Definition hasAttr (o name : Z) : res bool := let* a := attribute ents nf o name false in Ok (match a with Some _ => true | None => false end).
(** dwarf_info.cc:195-201: both or neither are converted *)
Definition readPc (o : Z) : res (option Z * option (Z * Z)) :=
  let* l := hasAttr o 0x11 in
  let* h := hasAttr o 0x12 in
  if l && h then let* low := attrU o 0x11 in let* high := attrU o 0x12 in Ok (option_map snd low, high) else Ok (None, None).
(** DIE::getRanges 726-733 *)
Definition getRanges (c : rcache) (o : Z) : rcache * res (option (list (Z * Z))) :=
  match hasAttr o 0x55 with
  | Ok false => (c, Ok None)
  | Ok true =>
      match attrU o 0x11 with
      | Ok low => let '(c', r) := unitRanges ents units sc nf c o (match low with Some (_, l) => l | None => 0 end) in (c', let* x := r in Ok (Some x))
      | Throw => (c, Throw) | UB => (c, UB) | OutOfFuel => (c, OutOfFuel)
      end
  | Throw => (c, Throw) | UB => (c, UB) | OutOfFuel => (c, OutOfFuel)
  end.
(** a unit at [u] with its root entry at [o] 193-206 *)
Definition readRoot (c : rcache) (u o : Z) : rcache * res rootUnit :=
  match readPc o with
  | Ok (low, high) => let '(c', r) := getRanges c o in (c', let* rs := r in Ok (mkRoot u low high rs))
  | Throw => (c, Throw) | UB => (c, UB) | OutOfFuel => (c, OutOfFuel)
  end.
(** all units, in order.  Simplification: the map is updated between them in the code (arUnit, Aranges.v), which reading does not depend on. *)
Fixpoint readRoots (c : rcache) (l : list (Z * Z)) : rcache * res (list rootUnit) :=
  match l with
  | [] => (c, Ok [])
  | (u, o) :: r =>
      match readRoot c u o with
      | (c1, Ok x) => let '(c2, y) := readRoots c1 r in (c2, let* xs := y in Ok (x :: xs))
      | (c1, Throw) => (c1, Throw) | (c1, UB) => (c1, UB) | (c1, OutOfFuel) => (c1, OutOfFuel)
      end
  end.
End Read.
