(** Model of preprocessor macro information: dwarf_macros.cc:30-233. *)
From Verif Require Import Base DwarfReader Lines.

(** What a MacroVisitor (libpstack/dwarf.h, MacroVisitor) is called with. *)
Inductive mevent : Type :=
| EDefine (line : Z) (text : list Z)
| EUndef (line : Z) (text : list Z)
| EStart (line : Z) (dir : list Z) (file : fileEntry)
| EEnd.
(** The part of LineInfo the visit uses (libpstack/dwarf.h:365-381). *)
Record lineTab : Type := mkLT { ltDirs : list (list Z); ltFiles : list fileEntry }.
(** What the visit uses of the image and the unit: .debug_macinfo and .debug_macro if present,
    Info::linesAt (dwarf_info.cc:238-248, Lines.v), the unit's own line table (Unit::getLines),
    debugStrings.io()->readString, Unit::strx (DieAttr.v), and Unit::dwarfLen. *)
Record menv : Type := mkME {
  meInfo : option (list Z); meMacro : option (list Z);
  meLines : Z -> res lineTab; meOwn : option lineTab;
  meStr : Z -> res (list Z); meStrx : Z -> res (list Z); meLen : Z }.

(** [auto &fileinfo = lineinfo->files[file]; ... lineinfo->directories[fileinfo.dirindex]]
    (dwarf_macros.cc:120-122, 158-160): a null line table and indexes outside the vectors are
    undefined. *)
Definition startFile (li : option lineTab) (line file : Z) : res mevent :=
  match li with
  | None => UB
  | Some t => match znth file (ltFiles t) with
              | None => UB
              | Some fe => match znth (fDir fe) (ltDirs t) with
                           | None => UB
                           | Some d => Ok (EStart line d fe)
                           end
              end
  end.
(** One opcode: the end of the list, an event, an import of another unit, or nothing. *)
Inductive mstep : Type := MDone | MEvent (e : mevent) | MImport (off : Z) | MSkip.

(** Body of the loop dwarf_macros.cc:100-136.  Codes other than the named ones fall out of the
    switch. *)
Definition step4 (data : list Z) (li : option lineTab) (off : Z) : res (mstep * Z) :=
  let* (c, o1) := getu8 data off in
  if c =? 1 then let* (line, o2) := getuleb data o1 in let '(t, o3) := getstring data o2 in Ok (MEvent (EDefine line t), o3)
  else if c =? 0 then Ok (MDone, o1)
  else if c =? 2 then let* (line, o2) := getuleb data o1 in let '(t, o3) := getstring data o2 in Ok (MEvent (EUndef line t), o3)
  else if c =? 3 then
    let* (line, o2) := getuleb data o1 in let* (file, o3) := getuleb data o2 in
    let* e := startFile li line file in Ok (MEvent e, o3)
  else if c =? 4 then Ok (MEvent EEnd, o1)
  else Ok (MSkip, o1).
(** DWARFReader::readFormString for DW_FORM_strp and DW_FORM_strx (dwarf_reader.cc:33-40): the
    offset has the size of the compilation unit's offsets. *)
Definition formStr (en : menv) (data : list Z) (isX : bool) (off : Z) : res (list Z * Z) :=
  if isX then let* (i, o) := getuleb data off in let* t := meStrx en i in Ok (t, o)
  else let* (s, o) := getuint data off (meLen en) in let* t := meStr en s in Ok (t, o).
(** Body of the loop dwarf_macros.cc:146-231, with [dl] the macro unit's dwarflen. *)
Definition step5 (en : menv) (data : list Z) (dl : Z) (li : option lineTab) (off : Z) : res (mstep * Z) :=
  let* (c, o1) := getu8 data off in
  if c =? 3 then
    let* (line, o2) := getuleb data o1 in let* (file, o3) := getuleb data o2 in
    let* e := startFile li line file in Ok (MEvent e, o3)
  else if c =? 7 then let* (io, o2) := getuint data o1 dl in Ok (MImport io, o2)
  else if (c =? 11) || (c =? 5) then
    let* (line, o2) := getuleb data o1 in let* (t, o3) := formStr en data (c =? 11) o2 in Ok (MEvent (EDefine line t), o3)
  else if c =? 1 then let* (line, o2) := getuleb data o1 in let '(t, o3) := getstring data o2 in Ok (MEvent (EDefine line t), o3)
  else if (c =? 12) || (c =? 6) then
    let* (line, o2) := getuleb data o1 in let* (t, o3) := formStr en data (c =? 12) o2 in Ok (MEvent (EUndef line t), o3)
  else if c =? 2 then let* (line, o2) := getuleb data o1 in let '(t, o3) := getstring data o2 in Ok (MEvent (EUndef line t), o3)
  else if c =? 4 then Ok (MEvent EEnd, o1)
  else if c =? 0 then Ok (MDone, o1)
  else Ok (MSkip, o1).

(** The opcode table, dwarf_macros.cc:72-81: codes with the forms of their operands, in the order read.
    The inner counter is a uint8_t compared with a 64-bit count: with more than 255 operands it
    never gets there, and the loop ends when the reader throws at the end of the section. *)
Fixpoint opTable (n : nat) (data : list Z) (off : Z) : res (list (Z * list Z) * Z) :=
  match n with
  | O => Ok ([], off)
  | S k => let* (c, o1) := getu8 data off in
           let* (cnt, o2) := getuleb data o1 in
           if cnt >? 255 then Throw
           else let* q := secBytes data o2 cnt in
                let* (r, o3) := opTable k data (o2 + cnt) in Ok ((c, q) :: r, o3)
  end.
(** Macros::readD5 dwarf_macros.cc:51-84: (dwarflen, debug_line_offset, the opcode table, where the entries start).
    debug_line_offset is an int (libpstack/dwarf.h:393), initially -1.
    Simplification: positions in the view made at 83 are given in the section. *)
Definition readD5 (data : list Z) (off : Z) : res (Z * Z * list (Z * list Z) * Z) :=
  let* (_, o1) := getu16 data off in
  let* (flags, o2) := getu8 data o1 in
  let dl := if Z.testbit flags 0 then 8 else 4 in
  let* (lo, o3) := (if Z.testbit flags 1 then let* (v, o) := getuint data o2 dl in Ok (s32 v, o) else Ok (-1, o2)) in
  let* (ops, o4) := (if Z.testbit flags 2 then let* (n, o) := getu8 data o3 in opTable (Z.to_nat n) data o else Ok ([], o3)) in
  Ok (dl, lo, ops, o4).
(** The start of visit5, dwarf_macros.cc:143-144. *)
Definition open5 (en : menv) (data : list Z) (off : Z) : res (Z * option lineTab * Z) :=
  let* (dl, lo, _, o) := readD5 data off in
  if lo =? -1 then Ok (dl, None, o) else let* t := meLines en lo in Ok (dl, Some t, o).

Section Visit.
(** The visitor: its state, and what each callback does and returns. *)
Context {V : Type} (vis : V -> mevent -> V * bool).
Definition fail {A} (v : V) (r : res A) : V * res bool :=
  (v, match r with Ok _ | UB => UB | Throw => Throw | OutOfFuel => OutOfFuel end).
(** Macros::visit4 dwarf_macros.cc:95-139: define and undef's results are not looked at. *)
Fixpoint run4 (fuel : nat) (data : list Z) (li : option lineTab) (off : Z) (v : V) : V * res bool :=
  match fuel with
  | O => (v, OutOfFuel)
  | S f =>
      match step4 data li off with
      | Ok (MDone, _) => (v, Ok true)
      | Ok (MEvent e, o) =>
          let '(v', b) := vis v e in
          match e with
          | EDefine _ _ | EUndef _ _ => run4 f data li o v'
          | _ => if b then run4 f data li o v' else (v', Ok false)
          end
      | Ok (_, o) => run4 f data li o v
      | r => fail v r
      end
  end.
(** Macros::visit5 dwarf_macros.cc:141-233; [f] bounds both the loop and the nesting of imports. *)
Fixpoint run5 (fuel : nat) (en : menv) (data : list Z) (dl : Z) (li : option lineTab) (off : Z) (v : V) : V * res bool :=
  match fuel with
  | O => (v, OutOfFuel)
  | S f =>
      match step5 en data dl li off with
      | Ok (MDone, _) => (v, Ok true)
      | Ok (MSkip, o) => run5 f en data dl li o v
      | Ok (MEvent e, o) =>
          let '(v', b) := vis v e in
          if b then run5 f en data dl li o v' else (v', Ok false)
      | Ok (MImport io, o) =>
          match open5 en data io with
          | Ok (dl', li', o') =>
              match run5 f en data dl' li' o' v with
              | (v', Ok true) => run5 f en data dl li o v'
              | r => r
              end
          | r => fail v r
          end
      | r => fail v r
      end
  end.
(** Macros::Macros dwarf_macros.cc:30-38 followed by Macros::visit 86-93.  Without the section [io]
    stays null, and the DWARFReader made of it is undefined behaviour. *)
Definition visitMacros (fuel : nat) (en : menv) (off version : Z) (v : V) : V * res bool :=
  if version >=? 5 then
    match meMacro en with
    | None => (v, UB)
    | Some data => match open5 en data off with
                   | Ok (dl, li, o) => run5 fuel en data dl li o v
                   | r => fail v r
                   end
    end
  else match meInfo en with
       | None => (v, UB)
       | Some data => run4 fuel data (meOwn en) off v
       end.
End Visit.
