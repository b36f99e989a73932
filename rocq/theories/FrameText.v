(** Model of how a frame is described: buildDIEName, PrintableFrame, dumpFrameText and dumpStackText
    (process.cc:379-455, 695-797), and the names of types (dwarf_die.cc:689-725). *)
From Coq Require Import Ascii String.
From Verif Require Import Base DwarfReader Json Lines Die DieAttr Args.

(** Text of a string literal. *)
Definition txt (s : string) : list Z := map (fun c => Z.of_nat (nat_of_ascii c)) (list_ascii_of_string s).

Section Names.
(** The entries of the debug information by offset; the offset of an entry's parent
    (DIE::getParentOffset, the subject of C60), 0 for the root of a unit; the text of an attribute of a
    given form in an entry (DIE::Attribute::operator std::string, dwarf_die.cc:549-586). *)
Context (ents : Z -> option entry) (par : Z -> Z) (str : entry -> Z -> dval -> res (list Z)).

(** DIE::name dwarf_die.cc:151-156, for an entry found by [attribute]. *)
Definition nameOf (fuel : nat) (o : Z) : res (list Z) :=
  let* a := attribute ents fuel o 0x03 false in
  match a with
  | None => Ok []
  | Some (o', form, v) => match ents o' with Some e' => str e' form v | None => UB end
  end.

(** buildDIEName process.cc:379-408: the text written, and the answer (true if something was
    written).  [None]: the null DIE, whose attributes are read through a null pointer.
    DW_AT_specification 0x47, abstract_origin 0x31; DW_TAG_compile_unit 0x11, partial_unit 0x3c,
    structure_type 0x13, class_type 0x02, namespace 0x39. *)
Fixpoint buildName (fuel : nat) (o : option Z) (first : bool) : list Z * res bool :=
  match fuel with
  | O => ([], OutOfFuel)
  | S f =>
      match o with
      | None => ([], UB)
      | Some k =>
          match ents k with
          | None => ([], UB)
          | Some e =>
              let via (a : Z * dval) :=
                match asDie ents e (Some a) with
                | Ok p => buildName f p first
                | Throw => ([], Throw) | UB => ([], UB) | OutOfFuel => ([], OutOfFuel)
                end in
              match ownAttr e 0x47, ownAttr e 0x31 with
              | Some a, _ => via a
              | None, Some a => via a
              | None, None =>
                  if (eTag e =? 0x11) || (eTag e =? 0x3c) then ([], Ok false)
                  else
                    match buildName f (if par k =? 0 then None else Some (par k)) false with
                    | (t, Ok printed) =>
                        if first || (eTag e =? 0x13) || (eTag e =? 0x02) || (eTag e =? 0x39) then
                          let t' := if (printed : bool) then t ++ txt "::" else t in
                          match nameOf f k with
                          | Ok n => (t' ++ n, Ok true)
                          | Throw => (t', Throw) | UB => (t', UB) | OutOfFuel => (t', OutOfFuel)
                          end
                        else (t, Ok printed)
                    | x => x
                    end
              end
          end
      end
  end.

(** DIE::typeName dwarf_die.cc:689-725; [None]: the null DIE.  [kids]: the children of an entry in order;
    [tagText]: the text of a tag.  DW_AT_type 0x49; pointer_type 0x0f, const_type 0x26, volatile_type
    0x35, subroutine_type 0x15, formal_parameter 0x05, reference_type 0x10. *)
Context (kids : Z -> list Z) (tagText : Z -> list Z).
Definition typeRef (fuel : nat) (o : Z) : res (option Z) :=
  let* a := attribute ents fuel o 0x49 false in
  match a with
  | None => Ok None
  | Some (o', form, v) => match ents o' with Some e' => asDie ents e' (Some (form, v)) | None => UB end
  end.
Fixpoint typeName (fuel : nat) (o : option Z) : res (list Z) :=
  match fuel with
  | O => OutOfFuel
  | S f =>
      match o with
      | None => Ok (txt "void")
      | Some k =>
          match ents k with
          | None => UB
          | Some e =>
              let* self := nameOf f k in
              if negb (zlen self =? 0) then Ok self
              else
                let* base := typeRef f k in
                if eTag e =? 0x0f then let* b := typeName f base in Ok (b ++ txt " *")
                else if eTag e =? 0x26 then let* b := typeName f base in Ok (b ++ txt " const")
                else if eTag e =? 0x35 then let* b := typeName f base in Ok (b ++ txt " volatile")
                else if eTag e =? 0x15 then
                  let* b := typeName f base in
                  let* args := (fix go (sep : list Z) (l : list Z) : res (list Z) :=
                                  match l with
                                  | [] => Ok []
                                  | a :: r =>
                                      match ents a with
                                      | None => UB
                                      | Some ea =>
                                          if negb (eTag ea =? 0x05) then go sep r
                                          else
                                            let* t := typeRef f a in
                                            let* n := typeName f t in
                                            let* rest := go (txt ", ") r in Ok (sep ++ n ++ rest)
                                      end
                                  end) [] (kids k) in
                  Ok (b ++ txt "(" ++ args ++ txt ")")
                else if eTag e =? 0x10 then let* b := typeName f base in Ok (b ++ txt "&")
                else Ok (txt "(unhandled tag " ++ tagText (eTag e) ++ txt ")")
          end
      end
  end.
End Names.

(** ** PrintableFrame *)
Definition noOffset : Z := W64 - 1.
Section Frame.
Context (ents : Z -> option entry) (par : Z -> Z) (str : entry -> Z -> dval -> res (list Z)) (units : Z -> uenv) (s : secs)
        (treeAt : Z -> option ftree).

(** [function.attribute(DW_AT_low_pc)] as uintmax_t. *)
Definition lowPc (fuel : nat) (o : Z) : res (option Z) :=
  let* a := attribute ents fuel o 0x11 false in
  match a with
  | None => Ok None
  | Some (o', form, v) => match ents o' with
                          | Some e' => let* x := toU s (units (eUnit e')) form v in Ok (Some x)
                          | None => UB
                          end
  end.
(** DIE::getRanges dwarf_die.cc:727-734. *)
Definition dieRanges (fuel : nat) (c : rcache) (o : Z) : rcache * res (option (list (Z * Z))) :=
  match attribute ents fuel o 0x55 false with
  | Ok None => (c, Ok None)
  | Ok (Some _) =>
      match lowPc fuel o with
      | Ok l => match unitRanges ents units s fuel c o (match l with Some x => x | None => 0 end) with
                | (c', Ok r) => (c', Ok (Some r))
                | (c', Throw) => (c', Throw) | (c', UB) => (c', UB) | (c', OutOfFuel) => (c', OutOfFuel)
                end
      | Throw => (c, Throw) | UB => (c, UB) | OutOfFuel => (c, OutOfFuel)
      end
  | Throw => (c, Throw) | UB => (c, UB) | OutOfFuel => (c, OutOfFuel)
  end.
(** process.cc:425-435: the offset in the function, from its entry. *)
Definition dieOffset (fuel : nat) (c : rcache) (fn objIp : Z) : rcache * res Z :=
  match lowPc fuel fn with
  | Ok (Some l) => (c, Ok (u64 (objIp - l)))
  | Ok None =>
      match dieRanges fuel c fn with
      | (c', Ok None) => (c', Ok noOffset)
      | (c', Ok (Some (r :: _))) => (c', Ok (u64 (objIp - fst r)))
      | (c', Ok (Some [])) => (c', UB)                       (* ranges[0] of an empty vector *)
      | (c', Throw) => (c', Throw) | (c', UB) => (c', UB) | (c', OutOfFuel) => (c', OutOfFuel)
      end
  | Throw => (c, Throw) | UB => (c, UB) | OutOfFuel => (c, OutOfFuel)
  end.
(** process.cc:436-442: the inlined calls at the address, outermost first.  DW_TAG_inlined_subroutine
    0x1d.  [treeAt]: the entry with its descendants. *)
Fixpoint inlinedAt (n fuel : nat) (c : rcache) (o objIp : Z) : rcache * res (list Z) :=
  match n with
  | O => (c, OutOfFuel)
  | S m =>
      match treeAt o with
      | None => (c, UB)
      | Some t =>
          match findEntry ents units s fuel objIp 0x1d c t true with
          | (c', Ok None) => (c', Ok [])
          | (c', Ok (Some i)) =>
              match inlinedAt m fuel c' i objIp with
              | (c'', Ok l) => (c'', Ok (i :: l))
              | x => x
              end
          | (c', Throw) => (c', Throw) | (c', UB) => (c', UB) | (c', OutOfFuel) => (c', OutOfFuel)
          end
      end
  end.
(** What PrintableFrame holds. *)
Record pframe : Type := mkPF { pfName : list Z; pfOffset : Z; pfInlined : list Z }.
(** PrintableFrame::PrintableFrame process.cc:410-455 for a frame in an object: [fn] is what
    location.die() finds, [sym] what location.symbol() finds (value and name). *)
Definition printable (fuel : nat) (c : rcache) (nodienames : bool) (fn : option Z) (sym : option (Z * list Z)) (objIp : Z) : rcache * res pframe :=
  let fallback (p : pframe) := if pfOffset p =? noOffset then
                                 match sym with Some (v, _) => mkPF (pfName p) (u64 (objIp - v)) (pfInlined p) | None => p end
                               else p in
  match (if nodienames then None else fn) with
  | None => (c, Ok (fallback (mkPF [] noOffset [])))
  | Some o =>
      match buildName ents par str fuel (Some o) true with
      | (n, Ok _) =>
          match dieOffset fuel c o objIp with
          | (c1, Ok off) =>
              match inlinedAt fuel fuel c1 o objIp with
              | (c2, Ok l) => (c2, Ok (fallback (mkPF n off l)))
              | (c2, Throw) => (c2, Throw) | (c2, UB) => (c2, UB) | (c2, OutOfFuel) => (c2, OutOfFuel)
              end
          | (c1, Throw) => (c1, Throw) | (c1, UB) => (c1, UB) | (c1, OutOfFuel) => (c1, OutOfFuel)
          end
      | (_, Throw) => (c, Throw) | (_, UB) => (c, UB) | (_, OutOfFuel) => (c, OutOfFuel)
      end
  end.
End Frame.

(** ** dumpFrameText *)
(** [std::left << setw(n) << setfill(' ')]; [std::right << setw(16) << setfill('0')]. *)
Definition padLeft (n : nat) (t : list Z) : list Z := t ++ repeat 32 (n - length t).
Definition hex16 (v : Z) : list Z := let t := hexText 16 v in repeat 48 (16 - length t) ++ t.
(** The options used: nosrc, nodienames, verbose. *)
Record fopts : Type := mkFO { foNosrc : bool; foNodie : bool; foVerbose : bool }.
(** An inlined call as the printing sees it: what buildDIEName gives, the line information of its unit
    (none if it has none), DW_AT_call_file and DW_AT_call_line as integers. *)
Record inl : Type := mkInl { inName : list Z * res bool; inLines : option lineInfo; inFile : Z; inLine : Z }.
(** What is known of the place: the image, the difference between addresses in it and in the process, the symbol, whether
    there is an entry for the function, and the arguments' text (C91-C95). *)
Record fplace : Type := mkPlace { fpImage : list Z; fpReloc : Z; fpSym : option (list Z); fpDie : bool; fpArgs : wr }.
Record frameIn : Type := mkFrameIn {
  fiIP : Z; fiTramp : bool; fiMech : list Z; fiPlace : option fplace; fiSource : list (list Z * Z);
  fiName : list Z; fiOffset : Z; fiInlined : list inl }.

(** process.cc:736-747: the line of an inlined call; [src] is the place shown, the answer includes the place to show
    next (the call site). *)
Definition inlinedLine (o : fopts) (no : Z) (i : inl) (src : list Z * Z) : wr * (list Z * Z) :=
  let head := txt "#" ++ padLeft 2 (intText no) ++ txt " " ++ padLeft 18 (txt "inlined") ++ txt " in " in
  match inName i with
  | (n, Ok _) =>
      if foNosrc o then (emit (head ++ n), src)
      else match inLines i with
           | None => (emit (head ++ n), src)
           | Some li =>
               let t := head ++ n ++ txt " at " ++ fst src ++ txt ":" ++ intText (snd src) in
               match znth (inFile i) (liFiles li) with
               | None => ((t, UB), src)
               | Some f =>
                   match znth (fDir f) (liDirs li) with
                   | None => ((t, UB), src)
                   | Some d => (emit (t ++ [10]), (if foVerbose o then d ++ txt "/" ++ fName f else fName f, s32 (inLine i)))
                   end
               end
           end
  | (n, Throw) => ((head ++ n, Throw), src)
  | (n, UB) => ((head ++ n, UB), src)
  | (n, OutOfFuel) => ((head ++ n, OutOfFuel), src)
  end.
(** process.cc:731-748, with the list reversed: innermost first. *)
Fixpoint inlinedLines (o : fopts) (no : Z) (l : list inl) (src : list Z * Z) : wr * (list Z * Z) :=
  match l with
  | [] => (emit [], src)
  | i :: r =>
      match inlinedLine o no i src with
      | ((t, Ok _), src') => let '(w, src'') := inlinedLines o no r src' in (andThen (emit t) w, src'')
      | x => x
      end
  end.
(** Process::dumpFrameText process.cc:715-797.  With no source the pair is ("", int(max)) = ("", -1). *)
Definition dumpFrame (o : fopts) (no : Z) (f : frameIn) : wr :=
  let src0 := match (if foNosrc o then [] else fiSource f) with [] => ([], -1) | x :: _ => x end in
  let '(w, src) := if foNodie o then (emit [], src0) else inlinedLines o no (rev (fiInlined f)) src0 in
  andThen w
  (andThen (emit (txt "#" ++ padLeft 2 (intText no) ++ txt " " ++ txt "0x" ++ hex16 (fiIP f)))
  (andThen
    (match fiPlace f with
     | Some p =>
         let tramp := if fiTramp f then txt "*" else [] in
         let '(name, flags) :=
           if negb (zlen (fiName f) =? 0) then (fiName f, tramp)
           else match fpSym p with
                | Some y => (y, tramp ++ (if fpDie p then txt "%" else txt "!"))
                | None => (txt "<unknown>", tramp)
                end in
         andThen (emit (txt " in " ++ name ++ flags ++ txt "("))
         (andThen (fpArgs p)
         (emit (txt ")" ++ (if fiOffset f =? noOffset then [] else txt "+" ++ decText 20 (fiOffset f))
                ++ txt " in " ++ fpImage p
                ++ (if foVerbose o then txt "@0x" ++ hexText 16 (u64 (fiIP f - fpReloc p)) else [])
                ++ (if zlen (fst src) =? 0 then [] else txt " at " ++ fst src ++ txt ":" ++ intText (snd src)))))
     | None => emit (txt " no information for frame")
     end)
  (emit ((if foVerbose o then txt " via " ++ fiMech f else []) ++ [10])))).

(** Process::dumpStackText process.cc:695-713.  A thread: the pthread's handle and type text if
    libthread_db gave them, its lwp id, its name. *)
Record lwpHead : Type := mkLwp { lwThread : option (Z * list Z); lwId : Z; lwName : option (list Z) }.
Definition stackHead (h : lwpHead) : list Z :=
  (match lwThread h with Some (tid, ty) => txt "thread: " ++ ptrText tid ++ txt ", type: " ++ ty ++ txt ", " | None => [] end)
  ++ txt "lwp: " ++ intText (lwId h)
  ++ (match lwName h with Some n => txt ", name: " ++ n | None => [] end) ++ [10].
Fixpoint dumpFrames (o : fopts) (no : Z) (l : list frameIn) : wr :=
  match l with
  | [] => emit []
  | f :: r => andThen (dumpFrame o no f) (dumpFrames o (no + 1) r)
  end.
Definition dumpStack (o : fopts) (h : lwpHead) (l : list frameIn) : wr := andThen (emit (stackHead h)) (dumpFrames o 0 l).
