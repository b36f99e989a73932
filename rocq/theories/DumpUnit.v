(** Model of the dump of units, line tables, macro headers, public names and the debug information as a whole:
    dump.cc:238-263, 302-321, 332-339, 360-374, 512-539 (pstack -d), with Unit::getLines, getMacros (dwarf_unit.cc:172-186, 209-225). *)
From Coq Require Import Ascii String.
From Verif Require Import Base DwarfReader Lines Pubnames Macros Units Die DieAttr Args FrameText JsonDoc Dump DumpCfi DumpTables DumpDie.
Open Scope Z_scope.

(** a file of a line table 238-244 *)
Definition fileJ (f : fileEntry) : jval := VObj [(txt "name", VStr (fName f)); nf "dir" (fDir f); nf "lastmod" (fMtime f)].
(** a row 246-253: the file pointer is followed *)
Definition rowJ (files : list fileEntry) (r : lstate) : res jval :=
  match znth (lFile r) files with
  | None => UB
  | Some f => Ok (VObj [(txt "file", fileJ f); nf "line" (lLine r); nf "addr" (lAddr r)])
  end.
(** a line table 255-263 *)
Definition dumpLines (li : lineInfo) : res jval :=
  let* rows := dumpAll (rowJ (liFiles li)) (liMatrix li) in
  Ok (VObj [(txt "default_is_stmt", VBool (liDefStmt li)); nf "opcode_base" (liOpBase li); (txt "opcode_lengths", VList (map VInt (liOpLens li)));
            (txt "files", VList (map fileJ (liFiles li))); (txt "directories", VList (map VStr (liDirs li))); (txt "matrix", VList rows)]).

(** public names 360-374 *)
Definition pubJ (n : pubname) : jval := VObj [nf "offset" (fst n); (txt "name", VStr (snd n))].
Definition dumpPub (u : pubUnit) : jval :=
  VObj [nf "length" (puLength u); nf "version" (puVersion u); nf "info offset" (puInfoOffset u); nf "info size" (puInfoLength u); (txt "names", VList (map pubJ (puNames u)))].

(** Macros (dwarf.h:385-398): what the dump shows of one. *)
Record macroHdr : Type := mkMH { mhVersion : Z; mhLine : Z; mhOps : list (Z * list Z) }.
(** [auto &table = opcodes[opcode]; table.emplace_back(...)] dwarf_macros.cc:76-79: an ordered map, a code's operands are added to those it has *)
Fixpoint addOp (c : Z) (q : list Z) (m : list (Z * list Z)) : list (Z * list Z) :=
  match m with
  | [] => [(c, q)]
  | (k, l) :: r => if c <? k then (c, q) :: m else if c =? k then (k, l ++ q) :: r else (k, l) :: addOp c q r
  end.
Definition opMap (l : list (Z * list Z)) : list (Z * list Z) := fold_left (fun m d => addOp (fst d) (snd d) m) l [].
(** Macros::Macros dwarf_macros.cc:30-84: the version is the caller's; nothing is read of .debug_macinfo, or of a section that is not there *)
Definition readMacros (sec : option (list Z)) (off version : Z) : res macroHdr :=
  if version >=? 5 then
    match sec with
    | None => Ok (mkMH version (-1) [])
    | Some data => let* (_, lo, ops, _) := readD5 data off in Ok (mkMH version lo (opMap ops))
    end
  else Ok (mkMH version (-1) []).
(** 512-520, and pairs json.h (first, second) *)
Definition opJ (d : Z * list Z) : jval := VObj [nf "first" (fst d); (txt "second", VList (map VInt (snd d)))].
Definition dumpMacros (m : macroHdr) : jval :=
  VObj [nf "version" (mhVersion m); nf "debug_line_offset" (mhLine m); (txt "opcodes", VList (map opJ (mhOps m)))].

(** libpstack/dwarf/unittype.h *)
Definition unitTypeTable : list (Z * string) :=
  [(1, "DW_UT_compile"); (2, "DW_UT_type"); (3, "DW_UT_partial"); (4, "DW_UT_skeleton"); (5, "DW_UT_split_compile"); (6, "DW_UT_split_type"); (0x80, "DW_UT_lo_user"); (0xff, "DW_UT_hi_user")]%string.
(** 332-339 *)
Definition unitTypeJ (t : Z) : jval := match inTable unitTypeTable t with Some s => VStr (txt s) | None => VInt t end.

(** Attribute::operator intmax_t dwarf_die.cc:418-436 *)
Definition toI (form : Z) (v : dval) : res Z :=
  match v with
  | VWord w =>
      if (form =? 0x0b) || (form =? 0x05) || (form =? 0x06) || (form =? 0x07) || (form =? 0x0d) || (form =? 0x0f) || (form =? 0x21) || (form =? 0x17) then Ok (s64 w)
      else Throw
  | _ => Throw
  end.

Section Unit.
(** the sections and the entries, as in DumpDie.v; .debug_line, .debug_macro *)
Context (info str lineStr : list Z) (alt : option (list Z)) (sx : Z -> Z -> res (list Z)).
Context (sc : secs) (ue : uenv) (u : dunit) (dec : Z -> res decoded) (ents : Z -> option entry) (nf : nat).
Context (dline dmacro : option (list Z)) (se : strEnv) (fuel : nat).
(** Unit::getLines dwarf_unit.cc:209-225, Info::linesAt dwarf_info.cc:238-248 (no section: an empty table) *)
Definition getLines (root : Z) : res (option lineInfo) :=
  match ents root with
  | None => UB
  | Some e =>
      if negb (eTag e =? 0x3c) && negb (eTag e =? 0x11) then Ok None
      else
        let* a := attribute ents nf root 0x10 false in
        match a with
        | None => Ok None
        | Some (_, form, v) =>
            let* off := toI form v in
            match dline with
            | None => Ok (Some (mkLI [] [] [] false 0 []))
            | Some data => let* li := lineBuild fuel data se (u64 off) in Ok (Some li)
            end
        end
  end.
(** Unit::getMacros dwarf_unit.cc:172-186: DW_AT_GNU_macros 0x2119, DW_AT_macros 0x79, DW_AT_macro_info 0x43 *)
Fixpoint firstMacros (root : Z) (l : list Z) : res (option macroHdr) :=
  match l with
  | [] => Ok None
  | n :: r =>
      let* a := attribute ents nf root n false in
      match a with
      | None => firstMacros root r
      | Some (_, form, v) => let* off := toI form v in let* m := readMacros dmacro (u64 off) (if n =? 0x43 then 4 else 5) in Ok (Some m)
      end
  end.
Definition getMacros (root : Z) : res (option macroHdr) := firstMacros root [0x2119; 0x79; 0x43].
(** a unit 302-321.  [st] is the unit's map of entries, which purge empties.  Simplification: what getLines and getMacros make known of it is not recorded. *)
Definition dumpUnit (h : unitH) (st : store) : store * res jval :=
  sbind (dumpTree info str lineStr alt sx sc ue u dec ents nf fuel st) (fun st1 tree =>
  sbind (st1, getLines (uhRoot h)) (fun st2 li =>
  sbind (st2, match li with None => Ok [] | Some li => let* x := dumpLines li in Ok [(txt "linenumbers", x)] end) (fun st3 lf =>
  sbind (st3, getMacros (uhRoot h)) (fun st4 m =>
  ((fun _ => None), Ok (VObj ([Dump.nf "length" (uhLength h); Dump.nf "offset" (uhOff h); Dump.nf "version" (uhVersion h); Dump.nf "addrlen" (uhAddrLen h);
                      (txt "id", VList (map VInt (uhId h))); (txt "unitType", unitTypeJ (uhType h)); (txt "dietree", tree)]
                     ++ lf ++ match m with None => [] | Some m => [(txt "macros", dumpMacros m)] end))))))).
End Unit.

(** the unit's description, for its entries (dwarf_unit.cc:87-127) *)
Definition dunitOf (h : unitH) : dunit := mkUnit (uhVersion h) (uhDwarfLen h) (uhAddrLen h) (uhOff h) (uhEnd h) (uhRoot h).
(** a unit with its table of abbreviations, which is in .debug_abbrev at the offset that the header has (Unit::load dwarf_unit.cc:6-16), and the string sections as its line table sees them;
    [ue] and [se] by the unit's offset *)
Definition oneUnit (info str lineStr : list Z) (alt : option (list Z)) (sx : Z -> Z -> res (list Z)) (sc : secs) (ue : Z -> uenv) (ents : Z -> option entry) (nf : nat)
    (abbrevs : Z -> list (Z * abbrev)) (dline dmacro : option (list Z)) (se : Z -> strEnv) (fuel : nat) (h : unitH) : res jval :=
  snd (dumpUnit info str lineStr alt sx sc (ue (uhOff h)) (dunitOf h) (decode info (dunitOf h) (abbrevs (uhAbbrev h))) ents nf dline dmacro (se (uhOff h)) fuel h (fun _ => None)).

(** The debug information of an image 522-539: the units of .debug_info in order (none without the section: dwarf.h:863-866), the public names, and what there is of call frame information.
    [one]: how each unit is shown; [dframe], [eh]: Info::getCFI's answers, shown. *)
Definition dumpInfo (fuel : nat) (info pub : option (list Z)) (one : unitH -> res jval) (dframe eh : option (res jval)) : res jval :=
  let* us := match info with None => Ok [] | Some data => snd (unitsFrom data fuel [] 0) end in
  let* ul := dumpAll one us in
  let* ps := snd (pubnames fuel pub None) in
  let* d := match dframe with None => Ok [] | Some r => let* v := r in Ok [(txt "debugframe", v)] end in
  let* e := match eh with None => Ok [] | Some r => let* v := r in Ok [(txt "ehFrame", v)] end in
  Ok (VObj ([(txt "units", VList ul); (txt "pubnameUnits", VList (map dumpPub ps))] ++ d ++ e)).
