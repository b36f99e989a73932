(** Specification of DWARF line number information (DWARF 2-5, section 6.2), non-VLIW. *)
From Verif Require Import Base LebSpec CfiSpec.

(** ** The line number program *)
Inductive linsn : Type :=
| LSpecial (op : Z)
| LCopy | LAdvancePc (n : Z) | LAdvanceLine (n : Z) | LSetFile (n : Z) | LSetColumn (n : Z)
| LNegateStmt | LBasicBlock | LConstAddPc | LFixedAdvancePc (n : Z) | LPrologueEnd | LEpilogueBegin | LSetIsa (n : Z)
| LEndSequence | LSetAddress (a : Z) | LSetDiscriminator (n : Z).

(** Encodings, tables 7.25 and 7.26 (8-byte target addresses). *)
Definition ext (code : Z) (args : list Z) : list Z := 0 :: uleb (1 + zlen args) ++ code :: args.
Definition encodeLn (i : linsn) : list Z :=
  match i with
  | LSpecial op => [op]
  | LCopy => [1] | LAdvancePc n => 2 :: uleb n | LAdvanceLine n => 3 :: sleb n | LSetFile n => 4 :: uleb n
  | LSetColumn n => 5 :: uleb n | LNegateStmt => [6] | LBasicBlock => [7] | LConstAddPc => [8]
  | LFixedAdvancePc n => 9 :: leBytes 2 n | LPrologueEnd => [10] | LEpilogueBegin => [11] | LSetIsa n => 12 :: uleb n
  | LEndSequence => ext 1 [] | LSetAddress a => ext 2 (leBytes 8 a) | LSetDiscriminator n => ext 4 (uleb n)
  end.
Definition encodeProg (p : list linsn) : list Z := flat_map encodeLn p.

(** Registers of the state machine (6.2.2), unbounded integers. *)
Record sreg : Type := mkSR {
  rAddr : Z; rFile : Z; rLine : Z; rColumn : Z; rStmt : bool; rBasic : bool; rEnd : bool;
  rPro : bool; rEpi : bool; rIsa : Z; rDiscr : Z }.
(** Header parameters. *)
Record sparams : Type := mkSP { pMin : Z; pDefStmt : bool; pLineBase : Z; pLineRange : Z; pOpBase : Z }.
Definition sreg0 (p : sparams) : sreg := mkSR 0 1 1 0 (pDefStmt p) false false false false 0 0.

(** After a row is appended by a special opcode or DW_LNS_copy (6.2.5.1, 6.2.5.2). *)
Definition afterRow (r : sreg) : sreg := mkSR (rAddr r) (rFile r) (rLine r) (rColumn r) (rStmt r) false (rEnd r) false false (rIsa r) 0.
(** Meaning of an instruction: the new registers and the row appended to the matrix. *)
Definition stepLn (p : sparams) (r : sreg) (i : linsn) : sreg * option sreg :=
  let '(mkSR a f l c st bb en pe eb isa d) := r in
  match i with
  | LSpecial op =>
      let adj := op - pOpBase p in
      let r1 := mkSR (a + pMin p * (adj / pLineRange p)) f (l + pLineBase p + adj mod pLineRange p) c st bb en pe eb isa d in
      (afterRow r1, Some r1)
  | LCopy => (afterRow r, Some r)
  | LAdvancePc n => (mkSR (a + pMin p * n) f l c st bb en pe eb isa d, None)
  | LAdvanceLine n => (mkSR a f (l + n) c st bb en pe eb isa d, None)
  | LSetFile n => (mkSR a n l c st bb en pe eb isa d, None)
  | LSetColumn n => (mkSR a f l n st bb en pe eb isa d, None)
  | LNegateStmt => (mkSR a f l c (negb st) bb en pe eb isa d, None)
  | LBasicBlock => (mkSR a f l c st true en pe eb isa d, None)
  | LConstAddPc => (mkSR (a + pMin p * ((255 - pOpBase p) / pLineRange p)) f l c st bb en pe eb isa d, None)
  | LFixedAdvancePc n => (mkSR (a + n) f l c st bb en pe eb isa d, None)
  | LPrologueEnd => (mkSR a f l c st bb en true eb isa d, None)
  | LEpilogueBegin => (mkSR a f l c st bb en pe true isa d, None)
  | LSetIsa n => (mkSR a f l c st bb en pe eb n d, None)
  | LEndSequence => (sreg0 p, Some (mkSR a f l c st bb true pe eb isa d))
  | LSetAddress x => (mkSR x f l c st bb en pe eb isa d, None)
  | LSetDiscriminator n => (mkSR a f l c st bb en pe eb isa n, None)
  end.
Fixpoint matrix (p : sparams) (r : sreg) (prog : list linsn) : list sreg :=
  match prog with
  | [] => []
  | i :: rest => let '(r', row) := stepLn p r i in
                 match row with Some x => x :: matrix p r' rest | None => matrix p r' rest end
  end.

(** Well-formed for the header: opcode numbers are in range, operands fit their encodings. *)
Definition std (p : sparams) (c : Z) : Prop := c < pOpBase p.
Definition wfLn (p : sparams) (i : linsn) : Prop :=
  match i with
  | LSpecial op => pOpBase p <= op <= 255
  | LCopy => std p 1 | LAdvancePc n => std p 2 /\ 0 <= n < 2 ^ 64 | LAdvanceLine n => std p 3 /\ - 2 ^ 63 <= n < 2 ^ 63
  | LSetFile n => std p 4 /\ 0 <= n < 2 ^ 64 | LSetColumn n => std p 5 /\ 0 <= n < 2 ^ 64
  | LNegateStmt => std p 6 | LBasicBlock => std p 7 | LConstAddPc => std p 8
  | LFixedAdvancePc n => std p 9 /\ 0 <= n < 2 ^ 16
  | LPrologueEnd => std p 10 | LEpilogueBegin => std p 11 | LSetIsa n => std p 12 /\ 0 <= n < 2 ^ 64
  | LEndSequence => True | LSetAddress a => 0 <= a < 2 ^ 64 | LSetDiscriminator n => 0 <= n < 2 ^ 64
  end.
Definition isFixed (i : linsn) : bool := match i with LFixedAdvancePc _ => true | _ => false end.

(** ** The header *)
Definition cstr (s : list Z) : list Z := s ++ [0].
Definition isText (s : list Z) : Prop := Forall (fun b => 0 < b < 256) s.

(** A file: name, directory index, modification time, length. *)
Record sfile : Type := mkSF { sName : list Z; sDir : Z; sMtime : Z; sLen : Z }.
Definition encodeFile4 (f : sfile) : list Z := cstr (sName f) ++ uleb (sDir f) ++ uleb (sMtime f) ++ uleb (sLen f).
Definition u32ok (x : Z) : Prop := 0 <= x < 2 ^ 32.
Definition wfFile (f : sfile) : Prop := sName f <> [] /\ isText (sName f) /\ u32ok (sDir f) /\ u32ok (sMtime f) /\ u32ok (sLen f).

(** Version 5 tables: each field of an entry is described by a content type and a form. *)
Inductive fval : Type :=
| VString (s : list Z) | VLineStrp (o : Z) | VStrp (o : Z) | VUdata (n : Z) | VData1 (n : Z) | VData2 (n : Z) | VData4 (n : Z) | VData16 (b : list Z).
Definition formOf (v : fval) : Z :=
  match v with VString _ => 8 | VLineStrp _ => 31 | VStrp _ => 14 | VUdata _ => 15 | VData1 _ => 11 | VData2 _ => 5 | VData4 _ => 6 | VData16 _ => 30 end.
Definition encodeV (olen : nat) (v : fval) : list Z :=
  match v with
  | VString s => cstr s | VLineStrp o | VStrp o => leBytes olen o
  | VUdata n => uleb n | VData1 n => leBytes 1 n | VData2 n => leBytes 2 n | VData4 n => leBytes 4 n | VData16 b => b
  end.
Definition wfV (olen : nat) (v : fval) : Prop :=
  match v with
  | VString s => isText s | VLineStrp o | VStrp o => 0 <= o < 256 ^ Z.of_nat olen
  | VUdata n => u32ok n | VData1 n => 0 <= n < 2 ^ 8 | VData2 n => 0 <= n < 2 ^ 16 | VData4 n => u32ok n
  | VData16 b => zlen b = 16
  end.
(** The NUL-terminated string at an offset of a string section. *)
Definition strAt (sec : list Z) (o : Z) (s : list Z) : Prop :=
  isText s /\ exists pre post, sec = pre ++ cstr s ++ post /\ zlen pre = o.
(** [vStr lineStr str v s]: the field's string is [s]. *)
Inductive vStr (lineStr str : list Z) : fval -> list Z -> Prop :=
| VsString s : isText s -> vStr lineStr str (VString s) s
| VsLine o s : strAt lineStr o s -> vStr lineStr str (VLineStrp o) s
| VsStrp o s : strAt str o s -> vStr lineStr str (VStrp o) s.
Inductive vNum : fval -> Z -> Prop :=
| VnUdata n : vNum (VUdata n) n | Vn1 n : vNum (VData1 n) n | Vn2 n : vNum (VData2 n) n | Vn4 n : vNum (VData4 n) n.
Definition field : Type := (Z * fval)%type.     (* content type, value *)
Definition fmtOf (e : list field) : list (Z * Z) := map (fun f => (fst f, formOf (snd f))) e.
Definition encodeEntry (olen : nat) (e : list field) : list Z := flat_map (fun f => encodeV olen (snd f)) e.
Definition encodeFmts (l : list (Z * Z)) : list Z := zlen l :: flat_map (fun f => uleb (fst f) ++ uleb (snd f)) l.
(** DW_LNCT_path 1, DW_LNCT_directory_index 2 *)
Definition entryPath (ls st : list Z) (e : list field) (s : list Z) : Prop := exists v, In (1, v) e /\ vStr ls st v s.
Definition entryDir (e : list field) (d : Z) : Prop := exists v, In (2, v) e /\ vNum v d.

(** A whole version 2-4 unit: 32-bit ([long = false]) or 64-bit DWARF. *)
Definition unitLength (long : bool) (n : Z) : list Z := if long then leBytes 4 4294967295 ++ leBytes 8 n else leBytes 4 n.
Definition offBytes (long : bool) (n : Z) : list Z := if long then leBytes 8 n else leBytes 4 n.
Definition fixedPart (ver maxOps : Z) (p : sparams) (lens : list Z) : list Z :=
  pMin p :: (if 4 <=? ver then [maxOps] else []) ++ [if pDefStmt p then 1 else 0; pLineBase p mod 256; pLineRange p; pOpBase p] ++ lens.
Definition tables4 (dirs : list (list Z)) (files : list sfile) : list Z :=
  flat_map cstr dirs ++ [0] ++ flat_map encodeFile4 files ++ [0].
Definition tables5 (olen : nat) (dfmt : list (Z * Z)) (dirs : list (list field)) (ffmt : list (Z * Z)) (files : list (list field)) : list Z :=
  encodeFmts dfmt ++ uleb (zlen dirs) ++ flat_map (encodeEntry olen) dirs ++
  encodeFmts ffmt ++ uleb (zlen files) ++ flat_map (encodeEntry olen) files.
(** [hdr] is everything after header_length up to the program. *)
Definition encodeUnit (long : bool) (ver : Z) (hdr prog : list Z) : list Z :=
  let mid := leBytes 2 ver ++ (if 5 <=? ver then [8; 0] else []) ++ offBytes long (zlen hdr) in
  unitLength long (zlen mid + zlen hdr + zlen prog) ++ mid ++ hdr ++ prog.
Definition wfParams (p : sparams) (lens : list Z) : Prop :=
  0 <= pMin p < 256 /\ -128 <= pLineBase p < 128 /\ 0 < pLineRange p < 256 /\ 0 < pOpBase p < 256 /\
  zlen lens = pOpBase p - 1 /\ Forall isByte lens.

(** ** Lookup *)
(** [covered rows a x]: row [x] of the matrix and the next row belong to the same sequence and
    delimit a range containing [a].  Generic in the row type. *)
Definition covered {R} (addr : R -> Z) (isEnd : R -> bool) (rows : list R) (a : Z) (x : R) : Prop :=
  exists l1 y l2, rows = l1 ++ x :: y :: l2 /\ isEnd x = false /\ addr x <= a < addr y.
