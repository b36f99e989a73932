(** Model of the dump of a unit's entries: dump.cc:29-37, 265-292, 323-365, 384-391, 393-471 (pstack -d). *)
From Coq Require Import Ascii String.
From Verif Require Import Base DwarfReader Lines Die DieAttr Args FrameText JsonDoc Dump DumpCfi DumpTables.
Open Scope Z_scope.

(** a switch over a table of names *)
Definition inTable (t : list (Z * string)) (c : Z) : option string := option_map snd (find (fun p => fst p =? c) t).
(** to_string of an attribute's code 29-37 *)
Definition attrKey (c : Z) : list Z := match inTable attrTable c with Some s => txt s | None => txt "unknown" end.
(** a tag 323-330: int(tag) if it has no name.  Simplification: codes above 32 bits are not reduced. *)
Definition tagJ (c : Z) : jval := match inTable tagTable c with Some s => VStr (txt s) | None => VInt (s32 c) end.
(** a form 351-358 *)
Definition formJ (c : Z) : jval := VStr (match inTable formTable c with Some s => txt s | None => txt "(unknown)" end).
(** an encoding 384-391 *)
Definition ateJ (c : Z) : jval := match inTable ateTable c with Some s => VStr (txt s) | None => VInt (s32 c) end.

Section Strings.
(** .debug_info, .debug_str, .debug_line_str, .debug_str of the alternate file if there is one, and Unit::strx of the unit at an offset *)
Context (info str lineStr : list Z) (alt : option (list Z)) (sx : Z -> Z -> res (list Z)).
(** DIE::Attribute::operator std::string dwarf_die.cc:549-586 *)
Definition attrText (e : entry) (form : Z) (v : dval) : res (list Z) :=
  match v with
  | VWord w =>
      if form =? 0x1f21 then Ok (match alt with None => txt "(alt string table unavailable)" | Some s => secString s w end)
      else if form =? 0x0e then Ok (secString str w)
      else if form =? 0x1f then Ok (secString lineStr w)
      else if form =? 0x08 then Ok (secString info w)
      else if (form =? 0x25) || (form =? 0x26) || (form =? 0x27) || (form =? 0x28) || (form =? 0x1a) || (form =? 0x1f02) then sx (eUnit e) w
      else Throw
  | _ => Throw
  end.
(** an attribute 393-471 *)
Definition attrVal (sc : secs) (ue : uenv) (e : entry) (name form : Z) (v : dval) : res jval :=
  if name =? 0x3e then let* n := toU sc ue form v in Ok (ateJ n)
  else if (form =? 0x01) || (form =? 0x0b) || (form =? 0x05) || (form =? 0x06) || (form =? 0x07) || (form =? 0x17) || (form =? 0x0f) then
    let* n := toU sc ue form v in Ok (VInt n)
  else if (form =? 0x0d) || (form =? 0x21) then match v with VWord w => Ok (VInt (s64 w)) | _ => UB end
  else if (form =? 0x1f21) || (form =? 0x08) || (form =? 0x0e) || (form =? 0x1f) || (form =? 0x1a) || (form =? 0x25) || (form =? 0x26) || (form =? 0x27) || (form =? 0x28) then
    let* s := attrText e form v in Ok (VStr s)
  else if (form =? 0x10) || (form =? 0x12) || (form =? 0x13) || (form =? 0x14) || (form =? 0x1f20) || (form =? 0x15) then
    match v with VWord w => Ok (VInt w) | _ => UB end
  else if (form =? 0x18) || (form =? 0x0a) || (form =? 0x03) || (form =? 0x04) || (form =? 0x09) then
    match v with VBlock o n => Ok (VObj [nf "offset" o; nf "length" n]) | _ => UB end
  else if form =? 0x0c then match v with VFlag b => Ok (VBool b) | _ => UB end
  else if form =? 0x19 then Ok (VBool true)
  else Ok (VStr (txt "unknown")).
Definition dumpAttr (sc : secs) (ue : uenv) (e : entry) (name form : Z) (v : dval) : res jval :=
  let* x := attrVal sc ue e name form v in Ok (VObj [(txt "form", formJ form); (txt "value", x)]).
(** DIE::attributes dwarf_die.cc:659-674 and 269-272: in the order of attrName2Idx, which DIE::name has sorted by now *)
Definition dumpAttrs (sc : secs) (ue : uenv) (e : entry) : res jval :=
  let* l := dumpAll (fun ni : Z * Z =>
      match znth (snd ni) (eAttrs e), znth (snd ni) (eVals e) with
      | Some (_, form, _), Some v => let* x := dumpAttr sc ue e (fst ni) form v in Ok (attrKey (fst ni), x)
      | _, _ => UB
      end) (sortP (nameIdx 0 (eAttrs e))) in
  Ok (VMap l).
End Strings.

Section Tree.
Context (info str lineStr : list Z) (alt : option (list Z)) (sx : Z -> Z -> res (list Z)).
Context (sc : secs) (ue : uenv) (u : dunit) (dec : Z -> res decoded) (ents : Z -> option entry) (nf : nat).
(** What DIE::name (114-156) looks at on its way to the name: the entries named by DW_AT_abstract_origin and DW_AT_specification *)
Fixpoint refs (fuel : nat) (o : Z) : list Z :=
  match fuel with
  | O => []
  | S f =>
      match ents o with
      | None => []
      | Some e =>
          match ownAttr e 0x03 with
          | Some _ => []
          | None =>
              let spec := match asDie ents e (ownAttr e 0x47) with Ok (Some q) => if q =? o then [q] else q :: refs f q | _ => [] end in
              match asDie ents e (ownAttr e 0x31) with
              | Ok (Some p) => if p =? o then p :: spec else p :: refs f p
              | Ok None => spec
              | _ => []
              end
          end
      end
  end.
(** which makes those of this unit known (Attribute::operator DIE 588-626; others are not in its map) *)
Definition follow (st : store) (o : Z) : store := fold_left (fun s p => fst (offToDie u dec s None p)) (refs nf o) st.

Definition sbind {A B} (x : store * res A) (k : store -> A -> store * res B) : store * res B :=
  match x with (st, Ok a) => k st a | (st, Throw) => (st, Throw) | (st, UB) => (st, UB) | (st, OutOfFuel) => (st, OutOfFuel) end.
Definition entryOf (r : raw) : entry := mkEntry (dOffset u) (abTag (rAbbrev r)) (abAttrs (rAbbrev r)) (rVals r).

(** An entry 265-288, and its children through the iterator (json.h:150-161, dwarf_die.cc:387-405, 649-657).  [d] is an entry that has been decoded. *)
Fixpoint dumpDie (fuel : nat) (st : store) (d : Z) {struct fuel} : store * res jval :=
  match fuel with
  | O => (st, OutOfFuel)
  | S f =>
      match st d with
      | None => (st, UB)
      | Some r =>
          let e := entryOf r in
          sbind (follow st d, nameOf ents (attrText info str lineStr alt sx) nf d) (fun st1 nm =>
          sbind (getParent u dec f st1 d) (fun st2 par =>
          sbind (st2, dumpAttrs info str lineStr alt sx sc ue e) (fun st3 al =>
          let head := [(txt "name", VStr nm); (txt "type", tagJ (eTag e)); Dump.nf "cuOffset" (u64 (d - dOffset u)); Dump.nf "offset" d; Dump.nf "parent" par; (txt "attributes", al)] in
          if abKids (rAbbrev r) then
            sbind (offToDie u dec st3 (Some d) (firstOf st3 d)) (fun st4 first =>
            sbind (dumpKids f (fixParent st4 first d) d first) (fun st5 ks =>
            (st5, Ok (VObj (head ++ [(txt "children", VList ks)])))))
          else (st3, Ok (VObj head)))))
      end
  end
with dumpKids (fuel : nat) (st : store) (par : Z) (cur : option Z) {struct fuel} : store * res (list jval) :=
  match fuel with
  | O => (st, OutOfFuel)
  | S f =>
      match cur with
      | None => (st, Ok [])
      | Some c =>
          sbind (dumpDie f st c) (fun st1 v =>
          sbind (nextSib u dec f st1 c (Some par)) (fun st2 nxt =>
          sbind (dumpKids f (fixParent st2 nxt par) par nxt) (fun st3 l => (st3, Ok (v :: l)))))
      end
  end.
(** unit.object->root() 309, dwarf_unit.cc:127-133: the root is looked up first *)
Definition dumpTree (fuel : nat) (st : store) : store * res jval :=
  sbind (offToDie u dec st None (dRoot u)) (fun st1 d => match d with Some d => dumpDie fuel st1 d | None => (st1, UB) end).
End Tree.
