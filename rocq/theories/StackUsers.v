(** Model of the program stackusers (stackusers.cc): how deep the stack of each function gets. *)
From Verif Require Import Base DwarfReader Cfi Frames ElfObj Args.

(** The yield function, lines 30-38, on one state: the registers saved at an offset, then the CFA.  intmax_t
    maximum; the order of the registers does not matter. *)
Definition frameMax (f : frame) (best : Z) : Z :=
  let m := fold_left (fun m kv => match snd kv with Offset n => Z.max m n | _ => m end) (registers f) best in
  match cfaT f with COffset => Z.max m (cfaWord f) | _ => m end.
(** CIE::execInsns (dwarf.h:990-1183) with that function, which never stops: it is called before every
    instruction and after the last.  The result is [maxoff] and [end]. *)
Fixpoint seenLoop (fuel : nat) (data : list Z) (c : cieParams) (dframe : frame) (end_ off : Z) (s : cfst) (best : Z) : res (Z * Z) :=
  match fuel with
  | O => OutOfFuel
  | S f =>
      let best' := frameMax (fr s) best in
      if off =? end_ then Ok (best', loc s)
      else
        let* (i, off') := decodeInsn data off in
        let* s' := execInsn c dframe s i in
        seenLoop f data c dframe end_ off' s' best'
  end.

(** A symbol of .symtab and its name (SymbolSection, elf.h; read as in ElfFile.v). *)
Record usym : Type := mkU { uValue : Z; uSize : Z; uName : list Z }.

Section Users.
(** The frame section (contents, whether it is .eh_frame, its address); the PT_LOAD headers in order, and the
    PF_X bit of the p_flags of each. *)
Context (data : list Z) (eh : bool) (sa : Z) (loads : list phdr) (isExec : phdr -> bool).

(** Line 45-46.  [end - sym.st_value + 1] is unsigned. *)
Definition userLine (y : usym) (best last : Z) : list Z :=
  intText best ++ 9 :: intText (u64 (last - uValue y + 1)) ++ 9 :: intText (uSize y) ++ 9 :: uName y ++ [10].
(** One function, lines 19-46.  [k] is what Dwarf::Info::getCFI gives, CodeLocation::fde dwarfproc.cc:659-667
    asks it.  An FDE that is not there is a null pointer and is used.  An FDE refers to its CIE (dwarf.h:499). *)
Definition userOf (fuel : nat) (k : cfi) (y : usym) : cfi * res (list Z) :=
  match find_fde data eh sa fuel k (uValue y) with
  | (k', Ok (Some f)) =>
      (k', match cieFind (fCie f) (kCies k') with
           | None => UB
           | Some c =>
               let p := mkCie (cCode c) (cData c) in
               let* d := defaultFrame fuel data p (cInsns c) (cEnd c) in
               let* (best, last) := seenLoop fuel data p d (fEnd f) (fInsns f) (mkSt (uValue y) d []) 0 in
               Ok (userLine y best last)
           end)
  | (k', Ok None) => (k', UB)
  | (k', Throw) => (k', Throw)
  | (k', UB) => (k', UB)
  | (k', OutOfFuel) => (k', OutOfFuel)
  end.
(** processImage 6-48: the symbols in the order of the table.  [sc] is lastSegmentForAddress of the image;
    a segment that is not there is a null pointer and is used.  The result is what is printed, unless an
    exception is thrown (then the lines before it are). *)
Fixpoint usersLoop (fuel : nat) (names : list (list Z)) (syms : list usym) (k : cfi) (sc : option phdr) : res (list Z) :=
  match syms with
  | [] => Ok []
  | y :: r =>
      if uSize y =? 0 then usersLoop fuel names r k sc
      else
        let (sc', g) := getSegment loads sc (uValue y) in
        match g with
        | None => UB
        | Some h =>
            if negb (isExec h) then usersLoop fuel names r k sc'
            else if negb (match names with [] => true | _ => false end) && negb (existsb (fun n => if list_eq_dec Z.eq_dec n (uName y) then true else false) names)
            then usersLoop fuel names r k sc'
            else match userOf fuel k y with
                 | (k', Ok t) => let* t' := usersLoop fuel names r k' sc' in Ok (t ++ t')
                 | (_, Throw) => Throw
                 | (_, UB) => UB
                 | (_, OutOfFuel) => OutOfFuel
                 end
        end
  end.
(** main 50-61: the frame information is made from the image; nothing has been looked up in either.
    Simplification: an image without frame information (no CFI) is not modelled. *)
Definition stackUsers (fuel : nat) (hdr : option (list Z * Z)) (names : list (list Z)) (syms : list usym) : res (list Z) :=
  let* k := makeCfi data eh sa fuel hdr in usersLoop fuel names syms k None.
End Users.
