(** Model of Elf::Object (elf.cc, libpstack/elf.h): segments, notes, address to symbol, sections. *)
From Verif Require Import Base Reader ReaderSpec DwarfReader ElfHash Bound.

(** ** Program headers *)
Record phdr : Type := mkPh { p_type : Z; p_offset : Z; p_vaddr : Z; p_filesz : Z; p_memsz : Z }.

(** Object::getSegmentForAddress elf.cc:352-370 over the PT_LOAD headers in the order the constructor
    left them (sorted by p_vaddr, elf.cc:224-231); the first component is lastSegmentForAddress. *)
Definition phEnd (h : phdr) : Z := u64 (p_vaddr h + p_memsz h).
Definition segPred (a : Z) (h : phdr) : bool := (phEnd h <=? a) && negb (phEnd h =? 0).
Definition segSearch (hdrs : list phdr) (cache : option phdr) (a : Z) : option phdr * option phdr :=
  match nth_error hdrs (lowerBound (segPred a) hdrs) with
  | Some h => if p_vaddr h <=? a then (Some h, Some h) else (cache, None)
  | None => (cache, None)
  end.
Definition getSegment (hdrs : list phdr) (cache : option phdr) (a : Z) : option phdr * option phdr :=
  match cache with
  | Some c => if (p_vaddr c <=? a) && (phEnd c >? a) then (cache, Some c) else segSearch hdrs cache a
  | None => segSearch hdrs cache a
  end.
(** The cache after a series of lookups on a new object (elf.cc:218). *)
Definition segHistory (hdrs : list phdr) (h : list Z) : option phdr :=
  fold_left (fun c a => fst (getSegment hdrs c a)) h None.

(** ** Notes *)
(** roundup2 elf.h:130-134, for size_t values far from 2^64 *)
Definition roundup2 (v align : Z) : Z := v + (align - v mod align) mod align.
(** Note: Elf64_Nhdr *)
Record nhdr : Type := mkNh { n_namesz : Z; n_descsz : Z; n_type : Z }.
(** noteSize elf.cc:60-62; sizeof n = 12 *)
Definition noteSize (n : nhdr) : Z := roundup2 12 4 + roundup2 (n_namesz n) 4 + roundup2 (n_descsz n) 4.
(** A view of [len] bytes of the file from [off] (see Reader.v, property C02). *)
Definition fileView (file : list Z) (off len : Z) : list Z := ztake len (zdrop off file).
(** readNote elf.h:416, 449 *)
Definition readNote (file : list Z) (base size off : Z) : res nhdr :=
  let* b := secBytes (fileView file base size) off 12 in
  let* (ns, o) := getu32 b 0 in
  let* (ds, o) := getu32 b o in
  let* (ty, o) := getu32 b o in
  Ok (mkNh ns ds ty).
(** What a NoteDesc gives: name() elf.cc:128-132, type() elf.h:406, data() elf.cc:134-138.  The view it is
    built on (elf.h:436, 474) runs to the end of the file. *)
Record ndesc : Type := mkNd { ndName : list Z; ndType : Z; ndData : list Z }.
Definition mkDesc (file : list Z) (base off : Z) (n : nhdr) : ndesc :=
  mkNd (secString file (base + off + 12)) (s32 (n_type n)) (fileView file (base + off + 12 + roundup2 (n_namesz n) 4) (n_descsz n)).

(** Iterating segment_iterator elf.cc:92-126, elf.h:409-438 from its current position: the PT_NOTE
    headers from phdrsi on (in the constructor's order) and the offset. *)
Fixpoint segNotes (fuel : nat) (file : list Z) (phs : list phdr) (off : Z) : res (list ndesc) :=
  match fuel with
  | O => OutOfFuel
  | S f =>
      match phs with
      | [] => Ok []
      | ph :: rest =>
          let* n := readNote file (p_offset ph) (p_filesz ph) off in
          let newOff := off + noteSize n in
          let* r := if newOff >=? p_filesz ph then segNotes f file rest 0 else segNotes f file phs newOff in
          Ok (mkDesc file (p_offset ph) off n :: r)
      end
  end.

(** ** Section headers *)
Record shdr : Type := mkSh { sh_nm : list Z; sh_type : Z; sh_flags : Z; sh_offset : Z; sh_size : Z }.
(** nextNoteSection elf.cc:65-75: the first SHT_NOTE section from index [idx] on; getSection(idx)
    elf.cc:499-506 gives section 0 for a SHT_NULL one and does not check the index. *)
Fixpoint nextNoteSection (fuel : nat) (secs : list shdr) (shnum idx : Z) : res Z :=
  match fuel with
  | O => OutOfFuel
  | S f =>
      if idx <? shnum then
        match znth idx secs, znth 0 secs with
        | Some s, Some s0 => if sh_type (if sh_type s =? 0 then s0 else s) =? 7 then Ok idx else nextNoteSection f secs shnum (idx + 1)
        | _, _ => UB
        end
      else Ok idx
  end.
(** Iterating section_iterator elf.cc:78-90, elf.h:440-476 from index [idx] (already at a note section or
    at the end) and offset [off].  Sections are taken to be uncompressed. *)
Fixpoint secNotes (fuel : nat) (file : list Z) (secs : list shdr) (shnum idx off : Z) : res (list ndesc) :=
  match fuel with
  | O => OutOfFuel
  | S f =>
      if idx >=? shnum then Ok []
      else match znth idx secs with
           | None => UB
           | Some s =>
               let* n := readNote file (sh_offset s) (sh_size s) off in
               let newOff := off + noteSize n in
               let* r := if newOff <? sh_size s then secNotes f file secs shnum idx newOff
                         else let* i := nextNoteSection (S (Z.to_nat (shnum - idx))) secs shnum (idx + 1) in
                              secNotes f file secs shnum i 0 in
               Ok (mkDesc file (sh_offset s) off n :: r)
           end
  end.
(** Notes::begin elf.cc:49-55. *)
Definition debugNotes (fuel : nat) (file : list Z) (secs : list shdr) (shnum : Z) : res (list ndesc) :=
  let* i := nextNoteSection (S (Z.to_nat shnum)) secs shnum 1 in secNotes fuel file secs shnum i 0.

(** ** Symbols *)
(** Object::findSym elf.cc:417-441.  The zero-sized symbol remembered at 429-432 is never returned, so
    it is left out; [symbols] is the table's content (ReaderArray, property C09). *)
Fixpoint findSym (strings : list Z) (secs : list shdr) (addr type : Z) (symbols : list esym) : option (esym * list Z) :=
  match symbols with
  | [] => None
  | c :: r =>
      if st_shndx c >=? zlen secs then findSym strings secs addr type r
      else if negb (type =? 0) && negb (Z.land (st_info c) 15 =? type) then findSym strings secs addr type r
      else if st_value c >? addr then findSym strings secs addr type r
      else if u64 (st_size c + st_value c) <=? addr then findSym strings secs addr type r
      else match znth (st_shndx c) secs with
           | None => findSym strings secs addr type r
           | Some sec => if Z.land (sh_flags sec) 2 =? 0 then findSym strings secs addr type r
                         else Some (c, secString strings (st_name c))
           end
  end.
(** Object::findSymbolByAddress elf.cc:446-459: .symtab, .dynsym, then the embedded .gnu_debugdata image. *)
Inductive elfobj : Type :=
| mkObj (secs : list shdr) (symtab : list esym) (strtab : list Z) (dynsym : list esym) (dynstr : list Z) (debugData : option elfobj).
Fixpoint findSymbolByAddress (o : elfobj) (addr type : Z) : option (esym * list Z) :=
  match o with
  | mkObj secs symtab strtab dynsym dynstr dd =>
      match findSym strtab secs addr type symtab with
      | Some r => Some r
      | None => match findSym dynstr secs addr type dynsym with
                | Some r => Some r
                | None => match dd with Some d => findSymbolByAddress d addr type | None => None end
                end
      end
  end.

(** ** Sections by name *)
(** namedSection, filled in section order (elf.cc:258-263): the last section of a name wins. *)
Fixpoint namedFrom (secs : list shdr) (i : Z) (name : list Z) : option Z :=
  match secs with
  | [] => None
  | s :: r => match namedFrom r (i + 1) name with
              | Some k => Some k
              | None => if beq (sh_nm s) name then Some i else None
              end
  end.
Definition dotDebug : list Z := [46; 100; 101; 98; 117; 103; 95].  (* ".debug_" *)
Definition dotDwo : list Z := [46; 100; 119; 111].                 (* ".dwo" *)
Fixpoint startsWith (p l : list Z) : bool :=
  match p, l with
  | [], _ => true
  | x :: p', y :: l' => (x =? y) && startsWith p' l'
  | _, [] => false
  end.
(** std::equal(dwosuffix.rbegin(), dwosuffix.rend(), name.rbegin()) elf.cc:479: [rs] is what is left of
    the reversed suffix, [rn] of the reversed name; running off the name is undefined. *)
Fixpoint equalRange (rs rn : list Z) : res bool :=
  match rs, rn with
  | [], _ => Ok true
  | _ :: _, [] => UB
  | x :: rs', y :: rn' => if x =? y then equalRange rs' rn' else Ok false
  end.
(** Section::operator bool elf.h:204 (SHT_NULL 0, SHT_NOBITS 8) *)
Definition secTrue (secs : list shdr) (i : Z) : bool :=
  match znth i secs with Some s => negb (sh_type s =? 0) && negb (sh_type s =? 8) | None => false end.
(** Object::getSection(name, type) elf.cc:461-482: the index of the section returned. *)
Fixpoint getSection (fuel : nat) (secs : list shdr) (name : list Z) (type : Z) : res Z :=
  match fuel with
  | O => OutOfFuel
  | S f =>
      let alias (_ : unit) :=
        let dwo (_ : unit) :=
          let* e := equalRange (rev dotDwo) (rev name) in
          if e then Ok 0 else getSection f secs (name ++ dotDwo) type in
        if startsWith dotDebug name then
          let* c := getSection f secs (46 :: 122 :: tl name) type in
          if secTrue secs c then Ok c else dwo tt
        else dwo tt in
      match namedFrom secs 0 name with
      | Some i => match znth i secs with
                  | Some s => if (sh_type s =? type) || (type =? 0) then Ok i else alias tt
                  | None => UB
                  end
      | None => alias tt
      end
  end.
(** Object::getDebugSection elf.cc:488-497: which object (false: this one, true: its debug image) and
    the index there. *)
Definition getDebugSection (fuel : nat) (secs : list shdr) (debug : option (list shdr)) (name : list Z) (type : Z) : res (bool * Z) :=
  let* i := getSection fuel secs name type in
  if secTrue secs i then Ok (false, i)
  else match debug with
       | Some d => let* j := getSection fuel d name type in Ok (true, j)
       | None => Ok (false, 0)
       end.
