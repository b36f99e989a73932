(** Model of the line number information reader: LineInfo::build (dwarf_lines.cc:40-228),
    FileEntry (230-246) and Unit::sourceFromAddr (dwarf_unit.cc:188-207). *)
From Verif Require Import Base Leb DwarfReader ReaderSpec.

(** FileEntry dwarf.h:334-344 *)
Record fileEntry : Type := mkFile { fName : list Z; fDir : Z; fMtime : Z; fLen : Z }.

(** LineState dwarf.h:348-363.  The [file] pointer is modelled by its index into LineInfo::files:
    an index outside the table is undefined behaviour only where the pointer is followed. *)
Record lstate : Type := mkLS {
  lFile : Z; lAddr : Z; lLine : Z; lColumn : Z;
  lStmt : bool; lBasic : bool; lEnd : bool; lProEnd : bool; lEpiBegin : bool;
  lIsa : Z; lDiscr : Z }.

(** The header fields the program uses. *)
Record lhdr : Type := mkLH {
  hMin : Z; hDefStmt : bool; hLineBase : Z; hLineRange : Z; hOpBase : Z; hOpLens : list Z; hAddrSize : Z }.

(** LineState::LineState dwarf_lines.cc:20-32 *)
Definition lstate0 (h : lhdr) : lstate := mkLS 1 0 1 0 (hDefStmt h) false false false false 0 0.

Definition setAddr (s : lstate) (a : Z) : lstate :=
  mkLS (lFile s) a (lLine s) (lColumn s) (lStmt s) (lBasic s) (lEnd s) (lProEnd s) (lEpiBegin s) (lIsa s) (lDiscr s).
Definition setLine (s : lstate) (l : Z) : lstate :=
  mkLS (lFile s) (lAddr s) l (lColumn s) (lStmt s) (lBasic s) (lEnd s) (lProEnd s) (lEpiBegin s) (lIsa s) (lDiscr s).
Definition setFile (s : lstate) (f : Z) : lstate :=
  mkLS f (lAddr s) (lLine s) (lColumn s) (lStmt s) (lBasic s) (lEnd s) (lProEnd s) (lEpiBegin s) (lIsa s) (lDiscr s).
Definition setColumn (s : lstate) (c : Z) : lstate :=
  mkLS (lFile s) (lAddr s) (lLine s) c (lStmt s) (lBasic s) (lEnd s) (lProEnd s) (lEpiBegin s) (lIsa s) (lDiscr s).
Definition setStmt (s : lstate) (b : bool) : lstate :=
  mkLS (lFile s) (lAddr s) (lLine s) (lColumn s) b (lBasic s) (lEnd s) (lProEnd s) (lEpiBegin s) (lIsa s) (lDiscr s).
Definition setBasic (s : lstate) (b : bool) : lstate :=
  mkLS (lFile s) (lAddr s) (lLine s) (lColumn s) (lStmt s) b (lEnd s) (lProEnd s) (lEpiBegin s) (lIsa s) (lDiscr s).
Definition setEnd (s : lstate) (b : bool) : lstate :=
  mkLS (lFile s) (lAddr s) (lLine s) (lColumn s) (lStmt s) (lBasic s) b (lProEnd s) (lEpiBegin s) (lIsa s) (lDiscr s).
Definition setPro (s : lstate) (b : bool) : lstate :=
  mkLS (lFile s) (lAddr s) (lLine s) (lColumn s) (lStmt s) (lBasic s) (lEnd s) b (lEpiBegin s) (lIsa s) (lDiscr s).
Definition setEpi (s : lstate) (b : bool) : lstate :=
  mkLS (lFile s) (lAddr s) (lLine s) (lColumn s) (lStmt s) (lBasic s) (lEnd s) (lProEnd s) b (lIsa s) (lDiscr s).
Definition setIsa (s : lstate) (i : Z) : lstate :=
  mkLS (lFile s) (lAddr s) (lLine s) (lColumn s) (lStmt s) (lBasic s) (lEnd s) (lProEnd s) (lEpiBegin s) i (lDiscr s).
Definition setDiscr (s : lstate) (d : Z) : lstate :=
  mkLS (lFile s) (lAddr s) (lLine s) (lColumn s) (lStmt s) (lBasic s) (lEnd s) (lProEnd s) (lEpiBegin s) (lIsa s) d.

(** Read and drop [n] LEB128 arguments, dwarf_lines.cc:217-219. *)
Fixpoint dropArgs (n : nat) (data : list Z) (off : Z) : res Z :=
  match n with
  | O => Ok off
  | S k => let* (_, o) := getuleb data off in dropArgs k data o
  end.

(** One iteration of the loop, dwarf_lines.cc:151-226: new state, the row emitted if any, cursor.
    Integer division by a zero line_range is undefined.  [addr] is uintmax_t, [line], [column],
    [isa] and [discriminator] are 32-bit unsigned. *)
Definition lineStep (data : list Z) (h : lhdr) (off : Z) (s : lstate) : res (lstate * option lstate * Z) :=
  let* (c, o1) := getu8 data off in
  if c >=? hOpBase h then
    if hLineRange h =? 0 then UB
    else
      let c' := c - hOpBase h in
      let s1 := setAddr s (u64 (lAddr s + c' / hLineRange h * hMin h)) in
      let s2 := setLine s1 (u32 (lLine s + (c' mod hLineRange h + hLineBase h))) in
      Ok (setBasic s2 false, Some s2, o1)
  else if c =? 0 then
    let* (len, o2) := getuleb data o1 in
    let* (code, o3) := getu8 data o2 in
    if code =? 1 then                                  (* DW_LNE_end_sequence *)
      Ok (lstate0 h, Some (setEnd s true), o3)
    else if code =? 2 then                             (* DW_LNE_set_address *)
      let* (a, o4) := getuint data o3 (hAddrSize h) in Ok (setAddr s a, None, o4)
    else if code =? 4 then                             (* DW_LNE_set_discriminator *)
      let* (d, o4) := getuleb data o3 in Ok (setDiscr s (u32 d), None, o4)
    else Throw
  else if c =? 8 then                                  (* DW_LNS_const_add_pc *)
    if hLineRange h =? 0 then UB
    else Ok (setAddr s (u64 (lAddr s + (255 - hOpBase h) / hLineRange h * hMin h)), None, o1)
  else if c =? 2 then                                  (* DW_LNS_advance_pc *)
    let* (n, o2) := getuleb data o1 in Ok (setAddr s (u64 (lAddr s + n * hMin h)), None, o2)
  else if c =? 9 then                                  (* DW_LNS_fixed_advance_pc *)
    let* (n, o2) := getu16 data o1 in Ok (setAddr s (u64 (lAddr s + n * hMin h)), None, o2)
  else if c =? 3 then                                  (* DW_LNS_advance_line *)
    let* (n, o2) := getsleb data o1 in Ok (setLine s (u32 (lLine s + n)), None, o2)
  else if c =? 4 then                                  (* DW_LNS_set_file *)
    let* (n, o2) := getuleb data o1 in Ok (setFile s n, None, o2)
  else if c =? 1 then                                  (* DW_LNS_copy *)
    Ok (setBasic s false, Some s, o1)
  else if c =? 5 then                                  (* DW_LNS_set_column *)
    let* (n, o2) := getuleb data o1 in Ok (setColumn s (u32 n), None, o2)
  else if c =? 6 then Ok (setStmt s (negb (lStmt s)), None, o1)    (* DW_LNS_negate_stmt *)
  else if c =? 7 then Ok (setBasic s true, None, o1)   (* DW_LNS_set_basic_block *)
  else if c =? 10 then Ok (setPro s true, None, o1)    (* DW_LNS_set_prologue_end *)
  else if c =? 11 then Ok (setEpi s true, None, o1)    (* DW_LNS_set_epilogue_begin *)
  else if c =? 12 then                                 (* DW_LNS_set_isa *)
    let* (n, o2) := getuleb data o1 in Ok (setIsa s (u32 n), None, o2)
  else
    let* _ := dropArgs (Z.to_nat (nth (Z.to_nat (c - 1)) (hOpLens h) 0)) data o1 in Throw.

(** The loop, dwarf_lines.cc:150-227.  Rows are accumulated in emission order. *)
Fixpoint lineLoop (fuel : nat) (data : list Z) (h : lhdr) (end_ off : Z) (s : lstate) : res (list lstate) :=
  match fuel with
  | O => OutOfFuel
  | S f =>
      if off <? end_ then
        let* (s', r, o) := lineStep data h off s in
        let* rest := lineLoop f data h end_ o s' in
        Ok (match r with Some x => x :: rest | None => rest end)
      else Ok []
  end.

(** ** The header *)

(** What the string forms refer to: unit.dwarfLen, .debug_line_str, .debug_str and Unit::strx. *)
Record strEnv : Type := mkSE { seLen : Z; seLineStr : list Z; seStr : list Z; seStrx : Z -> res (list Z) }.
(** readString on a section (see [getstring] in DwarfReader.v) *)
Definition secString (sec : list Z) (off : Z) : list Z := untilNul (zdrop off sec).

(** DWARFReader::readFormString dwarf_reader.cc:23-46; forms: libpstack/dwarf/forms.h *)
Definition readFormString (data : list Z) (e : strEnv) (form off : Z) : res (list Z * Z) :=
  if form =? 8 then Ok (getstring data off)                                 (* DW_FORM_string *)
  else if form =? 31 then let* (a, o) := getuint data off (seLen e) in Ok (secString (seLineStr e) a, o)  (* line_strp *)
  else if form =? 14 then let* (a, o) := getuint data off (seLen e) in Ok (secString (seStr e) a, o)      (* strp *)
  else if form =? 26 then let* (i, o) := getuleb data off in let* s := seStrx e i in Ok (s, o)            (* strx *)
  else Throw.
(** DWARFReader::readForm dwarf_reader.cc:5-21: only the cursor matters. *)
Definition readFormSkip (data : list Z) (e : strEnv) (form off : Z) : res Z :=
  if (form =? 8) || (form =? 31) || (form =? 14) then let* (_, o) := readFormString data e form off in Ok o
  else if form =? 30 then Ok (u64 (off + 16))                               (* DW_FORM_data16 *)
  else Throw.
(** DWARFReader::readFormUnsigned dwarf_reader.cc:48-63 *)
Definition readFormUnsigned (data : list Z) (form off : Z) : res (Z * Z) :=
  if form =? 15 then getuleb data off                                       (* DW_FORM_udata *)
  else if form =? 11 then getu8 data off
  else if form =? 5 then getu16 data off
  else if form =? 6 then getu32 data off
  else Throw.

(** readEntryFormats dwarf_lines.cc:6-18: pairs of (content type, form). *)
Fixpoint readFormats (n : nat) (data : list Z) (off : Z) : res (list (Z * Z) * Z) :=
  match n with
  | O => Ok ([], off)
  | S k =>
      let* (t, o1) := getuleb data off in
      let* (f, o2) := getuleb data o1 in
      let* (r, o3) := readFormats k data o2 in Ok ((t, f) :: r, o3)
  end.
Definition readEntryFormats (data : list Z) (off : Z) : res (list (Z * Z) * Z) :=
  let* (n, o) := getu8 data off in readFormats (Z.to_nat n) data o.

(** One directory entry, dwarf_lines.cc:77-90: the path, or "" if no format gives one. *)
Fixpoint readDir (data : list Z) (e : strEnv) (fmts : list (Z * Z)) (path : list Z) (off : Z) : res (list Z * Z) :=
  match fmts with
  | [] => Ok (path, off)
  | (t, f) :: r =>
      if t =? 1 then let* (s, o) := readFormString data e f off in readDir data e r s o
      else let* o := readFormSkip data e f off in readDir data e r path o
  end.
(** dwarf_lines.cc:75-96.  [directories_count] is an int counted down to 0. *)
Fixpoint readDirs (fuel : nat) (data : list Z) (e : strEnv) (fmts : list (Z * Z)) (n off : Z) : res (list (list Z) * Z) :=
  match fuel with
  | O => OutOfFuel
  | S k =>
      if n =? 0 then Ok ([], off)
      else
        let* (p, o) := readDir data e fmts [] off in
        let* (r, o') := readDirs k data e fmts (n - 1) o in
        Ok (match p with [] => r | _ => p :: r end, o')
  end.
(** One file entry, dwarf_lines.cc:100-114 (a default FileEntry is ("", 0, 0, 0)). *)
Fixpoint readFile5 (data : list Z) (e : strEnv) (fmts : list (Z * Z)) (x : fileEntry) (off : Z) : res (fileEntry * Z) :=
  match fmts with
  | [] => Ok (x, off)
  | (t, f) :: r =>
      if t =? 1 then let* (s, o) := readFormString data e f off in readFile5 data e r (mkFile s (fDir x) 0 0) o
      else if t =? 2 then let* (d, o) := readFormUnsigned data f off in readFile5 data e r (mkFile (fName x) (u32 d) 0 0) o
      else let* o := readFormSkip data e f off in readFile5 data e r x o
  end.
Fixpoint readFiles5 (fuel : nat) (data : list Z) (e : strEnv) (fmts : list (Z * Z)) (n off : Z) : res (list fileEntry * Z) :=
  match fuel with
  | O => OutOfFuel
  | S k =>
      if n =? 0 then Ok ([], off)
      else
        let* (x, o) := readFile5 data e fmts (mkFile [] 0 0 0) off in
        let* (r, o') := readFiles5 k data e fmts (n - 1) o in Ok (x :: r, o')
  end.

(** dwarf_lines.cc:117-123: include directories until an empty string. *)
Fixpoint readDirs4 (fuel : nat) (data : list Z) (off : Z) : res (list (list Z) * Z) :=
  match fuel with
  | O => OutOfFuel
  | S k =>
      let (s, o) := getstring data off in
      match s with
      | [] => Ok ([], o)
      | _ => let* (r, o') := readDirs4 k data o in Ok (s :: r, o')
      end
  end.
(** FileEntry(DWARFReader &) dwarf_lines.cc:238-244 and the loop 126-135. *)
Fixpoint readFiles4 (fuel : nat) (data : list Z) (off : Z) : res (list fileEntry * Z) :=
  match fuel with
  | O => OutOfFuel
  | S k =>
      let* (c, o0) := getu8 data off in
      if c =? 0 then Ok ([], o0)
      else
        let (s, o1) := getstring data off in
        let* (d, o2) := getuleb data o1 in
        let* (m, o3) := getuleb data o2 in
        let* (l, o4) := getuleb data o3 in
        let* (r, o5) := readFiles4 k data o4 in Ok (mkFile s (u32 d) (u32 m) (u32 l) :: r, o5)
  end.

(** opcode_lengths[1..], dwarf_lines.cc:65-68 *)
Fixpoint readLens (n : nat) (data : list Z) (off : Z) : res (list Z * Z) :=
  match n with
  | O => Ok ([], off)
  | S k => let* (b, o) := getu8 data off in let* (r, o') := readLens k data o in Ok (b :: r, o')
  end.

(** LineInfo dwarf.h:365-381 *)
Record lineInfo : Type := mkLI {
  liDirs : list (list Z); liFiles : list fileEntry; liMatrix : list lstate;
  liDefStmt : bool; liOpBase : Z; liOpLens : list Z }.

(** "." and "unknown" *)
Definition dot : list Z := [46].
Definition unknown : list Z := [117; 110; 107; 110; 111; 119; 110].

(** LineInfo::build dwarf_lines.cc:40-228.  [diff = expectedEnd - off] skipped: the cursor is set to
    expectedEnd modulo 2^64. *)
Definition lineBuild (fuel : nat) (data : list Z) (e : strEnv) (off : Z) : res lineInfo :=
  let* (total, dwarfLen, o0) := getlength data off in
  let end_ := u64 (o0 + total) in
  let* (version, o1) := getu16 data o0 in
  let* (addrSize, o2) :=
    (if version >=? 5 then let* (a, o) := getu8 data o1 in let* (_, o') := getu8 data o in Ok (a, o') else Ok (8, o1)) in
  let* (hlen, o3) := getuint data o2 (if version >? 2 then dwarfLen else 4) in
  let expected := u64 (hlen + o3) in
  let* (minInsn, o4) := getu8 data o3 in
  let* (_, o5) := (if version >=? 4 then getu8 data o4 else Ok (1, o4)) in
  let* (dis, o6) := getu8 data o5 in
  let* (lbase, o7) := gets8 data o6 in
  let* (lrange, o8) := getu8 data o7 in
  let* (obase, o9) := getu8 data o8 in
  let* (lens, o10) := readLens (Z.to_nat (obase - 1)) data o9 in
  let* (dirs, files) :=
    (if version >=? 5 then
       let* (df, o11) := readEntryFormats data o10 in
       let* (dc, o12) := getuleb data o11 in
       let* (ds, o13) := readDirs fuel data e df (s32 dc) o12 in
       let* (ff, o14) := readEntryFormats data o13 in
       let* (fc, o15) := getuleb data o14 in
       let* (fs, _) := readFiles5 fuel data e ff fc o15 in Ok (ds, fs)
     else
       let* (ds, o11) := readDirs4 fuel data o10 in
       let* (fs, _) := readFiles4 fuel data o11 in Ok (dot :: ds, mkFile unknown 0 0 0 :: fs)) in
  let h := mkLH minInsn (negb (dis =? 0)) lbase lrange obase (0 :: lens) addrSize in
  (* opcode_lengths is resized to opcode_base: its element 0 is not read, 70-72 *)
  let made rows := mkLI dirs files rows (negb (dis =? 0)) obase (if obase =? 0 then [] else 0 :: lens) in
  if expected =? end_ then Ok (made [])
  else let* rows := lineLoop fuel data h end_ expected (lstate0 h) in Ok (made rows).

(** Unit::sourceFromAddr dwarf_unit.cc:188-207, the scan of the matrix: file and line of the row
    found.  [next] of the last row is dereferenced: undefined unless that row ends a sequence. *)
Fixpoint lineScan (addr : Z) (rows : list lstate) : res (option lstate) :=
  match rows with
  | [] => Ok None
  | i :: rest =>
      if lEnd i then lineScan addr rest
      else match rest with
           | [] => UB
           | next :: _ => if (lAddr i <=? addr) && (lAddr next >? addr) then Ok (Some i) else lineScan addr rest
           end
  end.
(** [covers]: the unit's root DIE does not exclude the address (containsAddress != NO). *)
Definition sourceFromAddr (covers verbose : bool) (li : lineInfo) (addr : Z) : res (option (list Z * Z)) :=
  if negb covers then Ok None
  else
    let* r := lineScan addr (liMatrix li) in
    match r with
    | None => Ok None
    | Some i =>
        match znth (lFile i) (liFiles li) with
        | None => UB
        | Some f => match znth (fDir f) (liDirs li) with
                    | None => UB
                    | Some d => Ok (Some (if verbose then d ++ [47] ++ fName f else fName f, s32 (lLine i)))
                    end
        end
    end.
