(** Model of the memory an entry owns: the Block objects made by DIE::Attribute::Value::Value (dwarf_die.cc:284-315) and deleted by DIE::Raw::~Raw
    (dwarf_die.cc:328-345). *)
From Verif Require Import Base DwarfReader Die.
Open Scope Z_scope.

(** the Blocks that exist, by the number [new] gave them; [hNext]: the next number *)
Record heap : Type := mkHeap { hNext : Z; hLive : list Z }.
Definition heap0 : heap := mkHeap 0 [].
(** the forms the constructor makes a Block for 284-315: DW_FORM_block1, block2, block4, exprloc, block *)
Definition newsBlock (form : Z) : bool := (form =? 0x0a) || (form =? 0x03) || (form =? 0x04) || (form =? 0x18) || (form =? 0x09).
(** those the destructor deletes one for 332-339, in its order *)
Definition deletesBlock (form : Z) : bool := (form =? 0x18) || (form =? 0x09) || (form =? 0x0a) || (form =? 0x03) || (form =? 0x04).
(** a value and the Block the union points to, if it points to one *)
Definition hval : Type := (dval * option Z)%type.
(** 181-326: the Block is made before its length is read, which can throw *)
Definition newVal (data : list Z) (u : dunit) (h : heap) (off form impl : Z) : heap * res (hval * Z) :=
  if newsBlock form then
    (mkHeap (hNext h + 1) (hNext h :: hLive h), let* (v, o) := readForm data u off form impl in Ok (v, Some (hNext h), o))
  else (h, let* (v, o) := readForm data u off form impl in Ok (v, None, o)).
(** the loop of Raw::Raw 164-171; Value has no destructor, so what was made before an exception stays *)
Fixpoint newVals (data : list Z) (u : dunit) (h : heap) (attrs : list (Z * Z * Z)) (off : Z) : heap * res (list hval * Z) :=
  match attrs with
  | [] => (h, Ok ([], off))
  | (_, form, impl) :: r =>
      match newVal data u h off form impl with
      | (h1, Ok (v, o)) => let '(h2, x) := newVals data u h1 r o in (h2, let* (vs, o') := x in Ok (v :: vs, o'))
      | (h1, Throw) => (h1, Throw) | (h1, UB) => (h1, UB) | (h1, OutOfFuel) => (h1, OutOfFuel)
      end
  end.
(** an entry in memory: its abbreviation and values *)
Record hentry : Type := mkHE { heAttrs : list (Z * Z * Z); heVals : list hval }.
(** DIE::decode 372-385 and Raw::Raw: no entry for the null entry.  The last attribute named sibling is read as a number (168-169): that of a block is
    another member of the union, undefined as in Die.v; nothing is made or deleted after it. *)
Definition makeEntry (data : list Z) (u : dunit) (abbs : list (Z * abbrev)) (h : heap) (off : Z) : heap * res (option hentry) :=
  match getuleb data off with
  | Ok (code, o1) =>
      if code =? 0 then (h, Ok None)
      else match findAbbrev abbs code with
           | None => (h, UB)
           | Some a => let '(h', x) := newVals data u h (abAttrs a) o1 in
                       (h', let* (vs, _) := x in
                            match sibIdx 0 (abAttrs a) with
                            | Some i => match nth_error vs i with Some (VWord _, _) => Ok (Some (mkHE (abAttrs a) vs)) | _ => UB end
                            | None => Ok (Some (mkHE (abAttrs a) vs))
                            end)
           end
  | Throw => (h, Throw) | UB => (h, UB) | OutOfFuel => (h, OutOfFuel)
  end.
(** [delete p]: of a Block that does not exist, undefined *)
Definition deleteBlock (h : heap) (p : Z) : res heap :=
  if existsb (Z.eqb p) (hLive h) then Ok (mkHeap (hNext h) (filter (fun x => negb (x =? p)) (hLive h))) else UB.
(** DIE::Raw::~Raw 328-345: a value that is not there, or that points to no Block, undefined *)
Fixpoint dropVals (h : heap) (attrs : list (Z * Z * Z)) (vs : list hval) : res heap :=
  match attrs with
  | [] => Ok h
  | (_, form, _) :: r =>
      if deletesBlock form then
        match vs with
        | (_, Some p) :: vs' => let* h' := deleteBlock h p in dropVals h' r vs'
        | _ => UB
        end
      else dropVals h r (tl vs)
  end.
Definition dropEntry (h : heap) (e : hentry) : res heap := dropVals h (heAttrs e) (heVals e).

(** A history: entries are decoded at offsets of a section, in units; an entry is destroyed when the last shared pointer to it goes (Unit::purge
    dwarf_unit.cc:248-254 forgets a unit's), once, in any order.  [live]: the entries that exist. *)
Inductive hop : Type := Make (u : dunit) (abbs : list (Z * abbrev)) (off : Z) | Drop (k : nat).
Fixpoint removeNth {A} (k : nat) (l : list A) : list A :=
  match l, k with [], _ => [] | _ :: r, O => r | x :: r, S j => x :: removeNth j r end.
Definition hstep (data : list Z) (s : heap * list hentry) (o : hop) : res (heap * list hentry) :=
  let '(h, live) := s in
  match o with
  | Make u abbs off => match makeEntry data u abbs h off with
                       | (h', Ok (Some e)) => Ok (h', e :: live)
                       | (h', _) => Ok (h', live)
                       end
  | Drop k => match nth_error live k with
              | Some e => let* h' := dropEntry h e in Ok (h', removeNth k live)
              | None => Ok (h, live)
              end
  end.
Fixpoint hrun (data : list Z) (s : heap * list hentry) (l : list hop) : res (heap * list hentry) :=
  match l with [] => Ok s | o :: r => let* s' := hstep data s o in hrun data s' r end.
