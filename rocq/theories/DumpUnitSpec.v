(** Specification: line tables, macro headers, public names and units as documents (DWARF 5 sections 6.1.1, 6.2, 6.3, 7.5.1). *)
From Coq Require Import Ascii String Permutation Sorted.
From Verif Require Import Base CfiSpec Lines LinesSpec LinesProofs PubnamesSpec UnitsSpec Die DieSpec DieTree DieHist DieAttr ArgsSpec FrameTextSpec JsonDocSpec DumpDieSpec.
From Verif Require MacrosSpec.
Open Scope Z_scope.
(* from Lines only [strEnv]: the string sections and the size of an offset; from LinesProofs [dirField], [fileField]: fields whose forms are those of C23; from DieHist [unitAt]: a unit with its entries, as in C24; from Die and DieAttr the types of stored values and entries; from DieTree [tableOf]: declarations as the program keeps them; from DumpDieSpec [called] *)

Definition num (k : string) (n : Z) : list Z * jvalue := (lit k, XNum n).

(** ** Line tables *)
(** A table of versions 2 to 4, or of version 5; [long]: 64-bit format. *)
Inductive sline : Type :=
| Line4 (long : bool) (ver maxOps : Z) (p : sparams) (lens : list Z) (dirs : list (list Z)) (files : list sfile) (prog : list linsn)
| Line5 (long : bool) (maxOps : Z) (p : sparams) (lens : list Z) (dfmt : list (Z * Z)) (dirs : list (list field)) (ffmt : list (Z * Z)) (files : list (list field)) (prog : list linsn).
Definition olen (long : bool) : nat := if long then 8%nat else 4%nat.
Definition lineBytes (x : sline) : list Z :=
  match x with
  | Line4 long ver maxOps p lens dirs files prog => LinesSpec.encodeUnit long ver (fixedPart ver maxOps p lens ++ tables4 dirs files) (encodeProg prog)
  | Line5 long maxOps p lens dfmt dirs ffmt files prog => LinesSpec.encodeUnit long 5 (fixedPart 5 maxOps p lens ++ tables5 (olen long) dfmt dirs ffmt files) (encodeProg prog)
  end.
Definition lineP (x : sline) : sparams := match x with Line4 _ _ _ p _ _ _ _ | Line5 _ _ p _ _ _ _ _ _ => p end.
Definition lineLens (x : sline) : list Z := match x with Line4 _ _ _ _ l _ _ _ | Line5 _ _ _ l _ _ _ _ _ => l end.
Definition lineProg (x : sline) : list linsn := match x with Line4 _ _ _ _ _ _ _ g | Line5 _ _ _ _ _ _ _ _ g => g end.
Definition lineLong (x : sline) : bool := match x with Line4 l _ _ _ _ _ _ _ | Line5 l _ _ _ _ _ _ _ _ => l end.
(** the rows of the line number program *)
Definition lineRows (x : sline) : list sreg := matrix (lineP x) (sreg0 (lineP x)) (lineProg x).
(** Well formed, in the terms of C23. *)
Definition lineOk (e : strEnv) (x : sline) : Prop :=
  wfParams (lineP x) (lineLens x) /\ Forall (wfLn (lineP x)) (lineProg x) /\ (existsb isFixed (lineProg x) = true -> pMin (lineP x) = 1) /\
  match x with
  | Line4 long ver maxOps _ _ dirs files _ => 2 <= ver < 5 /\ (long = true -> 2 < ver) /\ isByte maxOps /\ Forall (fun s => s <> [] /\ isText s) dirs /\ Forall wfFile files
  | Line5 long maxOps _ _ dfmt dirs ffmt files _ =>
      isByte maxOps /\ seLen e = Z.of_nat (olen long) /\
      Forall (fun f => u32ok (fst f) /\ u32ok (snd f)) dfmt /\ Forall (fun f => u32ok (fst f) /\ u32ok (snd f)) ffmt /\ zlen dirs < 2 ^ 31 /\ zlen files < 2 ^ 64 /\
      Forall (fun d => fmtOf d = dfmt /\ Forall (dirField e (olen long)) d /\ (exists v, In (1, v) d) /\ (forall s, entryPath (seLineStr e) (seStr e) d s -> s <> [])) dirs /\
      Forall (fun d => fmtOf d = ffmt /\ Forall (fileField e (olen long)) d /\ (exists v, In (1, v) d)) files
  end.
(** how much there is of it *)
Definition lineSize (x : sline) : nat :=
  match x with
  | Line4 _ _ _ _ _ dirs files prog => (List.length dirs + List.length files + List.length prog)%nat
  | Line5 _ _ _ _ _ dirs _ files prog => (List.length dirs + List.length files + List.length prog)%nat
  end.
(** The table [x] is at [off] in .debug_line. *)
Definition lineAt (e : strEnv) (data : list Z) (off : Z) (x : sline) : Prop :=
  lineOk e x /\ Forall isByte data /\ zlen data < 2 ^ 63 /\ (lineLong x = false -> zlen data < 4294967280) /\ 0 <= off /\ exists rest, zdrop off data = lineBytes x ++ rest.
(** Its directories, and its files: name, directory, time of modification.  In versions 2 to 4 the first of each stands for number 0, which no table has;
    version 5 numbers from 0, and the time is not looked at. *)
Inductive tablesOf (e : strEnv) : sline -> list (list Z) -> list (list Z * Z * Z) -> Prop :=
| Tables4 long ver maxOps p lens dirs files prog :
    tablesOf e (Line4 long ver maxOps p lens dirs files prog) (lit "." :: dirs) ((lit "unknown", 0, 0) :: map (fun f => (sName f, sDir f, sMtime f)) files)
| Tables5 long maxOps p lens dfmt dirs ffmt files prog ds fs :
    Forall2 (entryPath (seLineStr e) (seStr e)) dirs ds ->
    Forall2 (fun x f => entryPath (seLineStr e) (seStr e) x (fst (fst f)) /\ (entryDir x (snd (fst f)) \/ ((forall v, ~ In (2, v) x) /\ snd (fst f) = 0)) /\ snd f = 0) files fs ->
    tablesOf e (Line5 long maxOps p lens dfmt dirs ffmt files prog) ds fs.
Definition fileDoc (f : list Z * Z * Z) (x : jvalue) : Prop :=
  exists t, plainText (fst (fst f)) t /\ x = XObj [(lit "name", XStr t); num "dir" (snd (fst f)); num "lastmod" (snd f)].
(** A row: its file, line and address. *)
Definition rowDoc (files : list (list Z * Z * Z)) (r : sreg) (x : jvalue) : Prop :=
  exists f fd, znth (rFile r) files = Some f /\ fileDoc f fd /\ x = XObj [(lit "file", fd); num "line" (rLine r); num "addr" (rAddr r)].
Definition linesDoc (e : strEnv) (t : sline) (x : jvalue) : Prop :=
  exists ds fs dds fds rows, tablesOf e t ds fs /\ Forall2 plainText ds dds /\ Forall2 fileDoc fs fds /\ Forall2 (rowDoc fs) (lineRows t) rows /\
  x = XObj [(lit "default_is_stmt", XBool (pDefStmt (lineP t))); num "opcode_base" (pOpBase (lineP t)); (lit "opcode_lengths", XArr (map XNum (0 :: lineLens t)));
            (lit "files", XArr fds); (lit "directories", XArr (map XStr dds)); (lit "matrix", XArr rows)].
(** What can be shown: names that are plain text, rows whose file is in the table and whose line and address have the usual sizes. *)
Definition linesShowable (e : strEnv) (t : sline) : Prop :=
  Forall (fun r => 0 <= rLine r < 2 ^ 32 /\ 0 <= rAddr r < 2 ^ 64) (lineRows t) /\
  forall ds fs, tablesOf e t ds fs ->
    Forall (fun d => exists y, plainText d y) ds /\ Forall (fun f => exists y, plainText (fst (fst f)) y) fs /\ Forall (fun r => 0 <= rFile r < zlen fs) (lineRows t).

(** ** Public names *)
Definition nameDoc (n : Z * list Z) (x : jvalue) : Prop := exists t, plainText (snd n) t /\ x = XObj [num "offset" (fst n); (lit "name", XStr t)].
Definition pubDoc (u : sPubUnit) (x : jvalue) : Prop :=
  exists ns, Forall2 nameDoc (spNames u) ns /\
  x = XObj [num "length" (zlen (pubBody u)); num "version" (spVersion u); num "info offset" (spInfoOffset u); num "info size" (spInfoLength u); (lit "names", XArr ns)].

(** ** Macro headers *)
Definition opDoc (d : Z * list Z) : jvalue := XObj [num "first" (fst d); (lit "second", XArr (map XNum (snd d)))].
(** The header of a unit of .debug_macro: 5, where its line table is (-1: it has none), and the vendor's opcodes by number with the forms of their operands. *)
Definition macroDoc (u : MacrosSpec.munit) (x : jvalue) : Prop :=
  exists l, Permutation l (match MacrosSpec.muTable u with Some t => t | None => [] end) /\ StronglySorted (fun a b => fst a < fst b) l /\
  x = XObj [num "version" 5; num "debug_line_offset" (match MacrosSpec.muLine u with Some l => l | None => -1 end); (lit "opcodes", XArr (map opDoc l))].
Definition noMacro (version : Z) : jvalue := XObj [num "version" version; num "debug_line_offset" (-1); (lit "opcodes", XArr [])].
(** each vendor's opcode is described once *)
Definition opsOnce (u : MacrosSpec.munit) : Prop := match MacrosSpec.muTable u with Some t => NoDup (map fst t) | None => True end.
Definition macroAt (data : list Z) (off : Z) (u : MacrosSpec.munit) : Prop :=
  MacrosSpec.wfUnit u /\ opsOnce u /\ Forall isByte data /\ zlen data < 2 ^ 63 /\ 0 <= off /\ exists rest, zdrop off data = MacrosSpec.encodeHead u ++ rest.

(** ** Units *)
Definition stdUnitTypes : list (Z * string) :=
  [(1, "DW_UT_compile"); (2, "DW_UT_type"); (3, "DW_UT_partial"); (4, "DW_UT_skeleton"); (5, "DW_UT_split_compile"); (6, "DW_UT_split_type")]%string.
(** The root has the attribute, an offset in a section: sec_offset, or before version 4 data4 or data8. *)
Definition rootHas (d : sdecl) (t : dtree) (name w : Z) : Prop :=
  exists i form impl v, nth_error (sdAttrs d) i = Some (name, form, impl) /\ nth_error (tVals t) i = Some v /\
    (v = AOffset 0x17 w \/ v = AFixed 0x06 4 w \/ v = AFixed 0x07 8 w).
Definition rootLacks (d : sdecl) (name : Z) : Prop := ~ In name (map (fun a => fst (fst a)) (sdAttrs d)).
(** The line table of a compilation or partial unit with DW_AT_stmt_list; an empty one if there is no .debug_line. *)
Definition emptyLines : jvalue :=
  XObj [(lit "default_is_stmt", XBool false); num "opcode_base" 0; (lit "opcode_lengths", XArr []); (lit "files", XArr []); (lit "directories", XArr []); (lit "matrix", XArr [])].
Inductive linesPart (e : strEnv) (dline : option (list Z)) (d : sdecl) (t : dtree) : list (list Z * jvalue) -> Prop :=
| LPOther : sdTag d <> 0x11 -> sdTag d <> 0x3c -> linesPart e dline d t []
| LPNone : rootLacks d 0x10 -> linesPart e dline d t []
| LPEmpty w : sdTag d = 0x11 \/ sdTag d = 0x3c -> rootHas d t 0x10 w -> dline = None -> linesPart e dline d t [(lit "linenumbers", emptyLines)]
| LPLines data w l x : sdTag d = 0x11 \/ sdTag d = 0x3c -> rootHas d t 0x10 w -> dline = Some data -> lineAt e data w l -> linesShowable e l -> linesDoc e l x ->
    linesPart e dline d t [(lit "linenumbers", x)].
(** DW_AT_GNU_macros, or else DW_AT_macros: .debug_macro; or else DW_AT_macro_info: .debug_macinfo, which has no header. *)
Inductive macrosPart (dmacro : option (list Z)) (d : sdecl) (t : dtree) : list (list Z * jvalue) -> Prop :=
| MPNone : rootLacks d 0x2119 -> rootLacks d 0x79 -> rootLacks d 0x43 -> macrosPart dmacro d t []
| MPInfo w : rootLacks d 0x2119 -> rootLacks d 0x79 -> rootHas d t 0x43 w -> macrosPart dmacro d t [(lit "macros", noMacro 4)]
| MPEmpty w : rootHas d t 0x2119 w \/ (rootLacks d 0x2119 /\ rootHas d t 0x79 w) -> dmacro = None -> macrosPart dmacro d t [(lit "macros", noMacro 5)]
| MPMacro data w m x : rootHas d t 0x2119 w \/ (rootLacks d 0x2119 /\ rootHas d t 0x79 w) -> dmacro = Some data -> macroAt data w m -> macroDoc m x ->
    macrosPart dmacro d t [(lit "macros", x)].
(** The unit [u] at [off]; [tree], [lf] and [mf] are what is shown of its entries, line table and macros. *)
Definition unitDoc (u : sunit) (off : Z) (tree : jvalue) (lf mf : list (list Z * jvalue)) (x : jvalue) : Prop :=
  exists ty, called stdUnitTypes (kindCode (suKind u)) ty /\
  x = XObj ([num "length" (zlen (unitRest u)); num "offset" off; num "version" (suVersion u); num "addrlen" (suAddrLen u); (lit "id", XArr (map XNum (idOf (suKind u))));
             (lit "unitType", XStr ty); (lit "dietree", tree)] ++ lf ++ mf).
(** The offset sizes and so on of a unit; where its root is, and where it ends. *)
Definition fmtOfUnit (u : sunit) : fmt := mkFmt (suVersion u) (offSize u) (Z.to_nat (suAddrLen u)).
Definition finOf (off : Z) (u : sunit) : Z := off + zlen (unitBytes u).
Definition rootOf (off : Z) (u : sunit) : Z := finOf off u - zlen (suBody u).
(** The root's own description; a unit's root refers to no other entry (DW_AT_abstract_origin, DW_AT_specification). *)
Definition rootDecl (ds : list sdecl) (t : dtree) (d : sdecl) : Prop := declOf ds (tCode t) = Some d /\ rootLacks d 0x31 /\ rootLacks d 0x47.
(** The entry at [root] is the tree's root: its tag, its attributes, and of their values at least the numbers. *)
Definition rootEntry (ents : Z -> option entry) (root : Z) (d : sdecl) (t : dtree) : Prop :=
  exists en, ents root = Some en /\ eTag en = sdTag d /\ eAttrs en = sdAttrs d /\
    Forall2 (fun v s => match v with AOffset _ w | AFixed _ _ w => s = VWord w | _ => True end) (tVals t) (eVals en).
Section Unit.
Context (info str lineStr : list Z) (alt : option (list Z)) (sx : Z -> Z -> res (list Z)) (ents : Z -> option entry) (dline dmacro : option (list Z)) (e : strEnv).
(** What can be shown of the unit [u] at [off], whose abbreviations are [ds] and whose entries are [t]. *)
Definition unitReady (off : Z) (u : sunit) (ds : list sdecl) (t : dtree) (d : sdecl) : Prop :=
  let f := fmtOfUnit u in let root := rootOf off u in
  suOk u /\ zlen (unitRest u) < 2 ^ 32 /\ unitAt f off (finOf off u) root ds t info /\ entriesOf ents f ds off (finOf off u) root t /\
  (forall o x, inTree f ds root t o x -> showableEntry info str lineStr alt sx ents f ds off o x) /\
  rootDecl ds t d /\ rootEntry ents root d t /\ (exists lf, linesPart e dline d t lf) /\ (exists mf, macrosPart dmacro d t mf).
(** What is shown: its header, its entries (C150), its line table and its macros. *)
Definition unitShown (off : Z) (u : sunit) (ds : list sdecl) (t : dtree) (d : sdecl) (x : jvalue) : Prop :=
  exists tree lf mf, treeDoc info str lineStr alt sx ents (fmtOfUnit u) ds off 0 (rootOf off u) t tree /\ linesPart e dline d t lf /\ macrosPart dmacro d t mf /\ unitDoc u off tree lf mf x.
End Unit.

(** ** The whole *)
Section Whole.
(** The units of .debug_info; by a unit's offset, its abbreviations, its entries and its root's description ([plan]), and the string sections as its line table sees them;
    by an offset in .debug_abbrev, the table that is there. *)
Context (us : list sunit) (str lineStr : list Z) (alt : option (list Z)) (sx : Z -> Z -> res (list Z)) (ents : Z -> option entry) (dline dmacro : option (list Z)) (se : Z -> strEnv).
Context (abbrevs : Z -> list (Z * abbrev)) (plan : Z -> list sdecl * dtree * sdecl).
Definition ready (ou : Z * sunit) : Prop := let '(ds, t, d) := plan (fst ou) in
  abbrevs (suAbbrev (snd ou)) = tableOf ds /\ unitReady (sectionOf us) str lineStr alt sx ents dline dmacro (se (fst ou)) (fst ou) (snd ou) ds t d.
Definition shown (ou : Z * sunit) (x : jvalue) : Prop := let '(ds, t, d) := plan (fst ou) in
  unitShown (sectionOf us) str lineStr alt sx ents dline dmacro (se (fst ou)) (fst ou) (snd ou) ds t d x.
End Whole.
