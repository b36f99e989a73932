(** Model of the alternate debug file: Info::getAltImageName and Info::getAltDwarf (dwarf_info.cc:250-273), and the forms that use it, DW_FORM_GNU_strp_alt
    (dwarf_die.cc:557-565) and DW_FORM_GNU_ref_alt (606-612, 624). *)
From Coq Require Import Ascii String.
From Verif Require Import Base Context FrameText.
Open Scope Z_scope.

(** std::filesystem::path::parent_path: without the last component and the slashes before it; a slash that is all that is left stays *)
Fixpoint dropSlashes (rev : path) : path := match rev with 47 :: r => dropSlashes r | _ => rev end.
Definition parentPath (p : path) : path :=
  match dirPart p with
  | [] => []
  | d => match dropSlashes (List.rev d) with [] => [47] | r => List.rev r end
  end.
(** [adLink] is the text at the start of .gnu_debugaltlink.  Without that section getDebugSection gives a section header of type SHT_NULL (elf.cc:482, 497), whose reader is a
    NullReader (688-691); Reader::readString of offset 0 is "(null)" (reader.cc:91-92).  [adFile]: the name of the file that section header is in (the image or its debug
    image), None if it is none (Section(), for an image without section headers: elf.cc:271-272, whose null pointer is used; this does not happen for
    an image or debug image that has the section of the attribute). *)
Record altEnv : Type := mkAlt { adLink : option (list Z); adFile : option path }.
(** getAltImageName 250-263 *)
Definition altImageName (fuel : nat) (rl : path -> linkR) (e : altEnv) : res path :=
  let name := match adLink e with Some n => n | None => txt "(null)" end in
  match name with
  | 47 :: _ => Ok name
  | _ => match adFile e with
         | None => UB
         | Some f => let* r := linkResolve fuel rl f f in Ok (join (parentPath r) name)
         end
  end.
(** getAltDwarf 265-273: [st] is None until altImageLoaded is set. *)
Definition getAltDwarf (fuel : nat) (w : world) (rl : path -> linkR) (e : altEnv) (c : ctx) (st : option (option Z)) : ctx * option (option Z) * res (option Z) :=
  match st with
  | Some a => (c, st, Ok a)
  | None =>
      match altImageName fuel rl e with
      | Ok n => match findDwarfByName w n c with
                | (c1, Ok a) => (c1, Some a, Ok a)
                | (c1, Throw) => (c1, None, Throw)
                | (c1, UB) => (c1, None, UB)
                | (c1, OutOfFuel) => (c1, None, OutOfFuel)
                end
      | Throw => (c, None, Throw)
      | UB => (c, None, UB)
      | OutOfFuel => (c, None, OutOfFuel)
      end
  end.
(** Anything else may be asked of the context in between, and the calls of getAltDwarf answered so far. *)
Inductive altOp : Type := AltAsk | AltOther (q : request).
Fixpoint altReplies (fuel : nat) (w : world) (rl : path -> linkR) (e : altEnv) (c : ctx) (st : option (option Z)) (ops : list altOp) : list (res (option Z)) :=
  match ops with
  | [] => []
  | AltOther q :: r => altReplies fuel w rl e (serve w c q) st r
  | AltAsk :: r => let '(c1, st1, a) := getAltDwarf fuel w rl e c st in a :: altReplies fuel w rl e c1 st1 r
  end.
(** A string in the alternate file dwarf_die.cc:557-565.  [strs]: the .debug_str section of the alternate information with that identity, None if it has none;
    [str]: a reader's text at an offset. *)
Definition altString (str : list Z -> Z -> list Z) (strs : Z -> option (list Z)) (a : res (option Z)) (off : Z) : res (list Z) :=
  let* alt := a in
  match alt with
  | None => Ok (txt "(alt string table unavailable)")
  | Some i => match strs i with None => Ok (txt "(alt string table unavailable)") | Some s => Ok (str s off) end
  end.
(** A reference into the alternate file 606-612, 624: whose entry, and its offset ([dies]: Info::offsetToDIE of the information with that identity) *)
Definition altRef {D} (dies : Z -> Z -> res D) (a : res (option Z)) (off : Z) : res D :=
  let* alt := a in match alt with None => Throw | Some i => dies i off end.
