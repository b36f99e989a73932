(** Model of Elf::Object's reading of an image (elf.cc, libpstack/elf.h, inflate.cc): the ELF and program headers, the section header
    table and section names, (compressed) section contents, symbol versions, symbols by name, build IDs and the separate debug image.
    The image is any reader of Reader.v: [RMem] for the mapped files Context opens (context.cc:223), [RFile] for core files
    (context.cc:368; the page cache in front of the file is property C03), with [m] the host's own memory. *)
From Verif Require Import Base Reader ReaderArray DwarfReaderProofs ElfHash ElfObj.

(** A little-endian field of [n] bytes at offset [o] of a structure read by readObj. *)
Definition fld (n : Z) (b : list Z) (o : Z) : Z := leValue (ztake n (zdrop o b)).

(** ** InflateReader, inflate.cc.  zlib itself is a parameter: from its state, the available input, avail_out and whether Z_FINISH is asked
    for, inflate() gives its result, how many input bytes it took, and the bytes it wrote. *)
Inductive zret : Type := ZStreamEnd | ZOk | ZError.
Section Inflate.
Context {zst : Type} (zinit : zst) (zinflate : zst -> list Z -> Z -> bool -> zret * Z * list Z * zst).
(** The loop inflate.cc:60-79: [inp] is next_in/avail_in, [off] inputOffset, [avail] avail_out. *)
Fixpoint infLoop (fuel : nat) (rd : Z -> Z -> res (list Z)) (z : zst) (inp : list Z) (eof : bool) (off avail : Z) : res (list Z) :=
  match fuel with
  | O => OutOfFuel
  | S f =>
      let* st := (if (zlen inp =? 0) && negb eof
                  then let* b := rd off 32768 in Ok (b, zlen b =? 0, u64 (off + zlen b))
                  else Ok (inp, eof, off)) in
      let '(inp, eof, off) := st in
      let '(ret, used, out, z) := zinflate z inp avail eof in
      match ret with
      | ZStreamEnd => Ok out
      | ZOk => let* r := infLoop f rd z (zdrop used inp) eof off (avail - zlen out) in Ok (out ++ r)
      | ZError => Throw
      end
  end.
(** InflateReader::InflateReader inflate.cc:43-82.  [data_(inflatedSize)] is zero-filled and refuses a size a vector cannot have (running
    out of memory is not modelled); avail_out is a 32-bit field (uInt).  The result is the reader's contents. *)
Definition inflateReader (fuel : nat) (size : Z) (rd : Z -> Z -> res (list Z)) : res (list Z) :=
  if size >=? W64 / 2 then Throw
  else let* out := infLoop fuel rd zinit [] false 0 (u32 size) in
       Ok (out ++ repeat 0 (Z.to_nat (size - zlen out))).
End Inflate.

(** ** Section contents *)
(** Shdr (Elf64_Shdr, 64 bytes) *)
Record shd : Type := mkShd { h_name : Z; h_type : Z; h_flags : Z; h_addr : Z; h_offset : Z; h_size : Z; h_link : Z; h_info : Z }.
Definition shdOf (b : list Z) : shd :=
  mkShd (fld 4 b 0) (fld 4 b 4) (fld 8 b 8) (fld 8 b 16) (fld 8 b 24) (fld 8 b 32) (fld 4 b 40) (fld 4 b 44).
(** Section() elf.h:206: all zero *)
Definition nullShd : shd := mkShd 0 0 0 0 0 0 0 0.
(** The reader Section::io returns: one of Reader.v's, or an InflateReader holding these bytes. *)
Inductive sio : Type := IoR (r : reader) | IoMem (data : list Z).
Definition ioSize (i : sio) : Z := match i with IoR r => rsize r | IoMem d => zlen d end.
(** read(): Reader.v; AbstractMemReader::read reader.cc:67-75 on the vector *)
Definition ioRead (m : memory) (i : sio) (off count : Z) : res (list Z) :=
  match i with
  | IoR r => rread m r off count
  | IoMem d => if off >? zlen d then Throw else Ok (ztake count (zdrop off d))
  end.
(** readObj<T>(off), sizeof(T) = n *)
Definition ioObj (m : memory) (i : sio) (off n : Z) : res (list Z) := readObj (ioRead m i) n off 1.
(** the text before the NUL, if there is one *)
Fixpoint nulText (l : list Z) : option (list Z) :=
  match l with [] => None | c :: r => if c =? 0 then Some [] else match nulText r with Some t => Some (c :: t) | None => None end end.
(** readString: Reader.v; AbstractMemReader::readString reader.cc:83-86 on the vector, which runs off its end if there is no NUL *)
Definition ioString (fuel : nat) (m : memory) (i : sio) (off : Z) : res (list Z) :=
  match i with
  | IoR r => rstring fuel m r off
  | IoMem d => if off >? zlen d then UB else match nulText (zdrop off d) with Some t => Ok t | None => UB end
  end.
(** The contents of a ReaderArray over it: constructor reader.h:287-294 and a whole iteration *)
Definition ioArray (m : memory) (i : sio) (sz : Z) : res (list (list Z)) :=
  let* eof := arrayEof (ioSize i) sz 0 in
  snd (iterate (ioRead m i) sz (1024 / sz) 0 (Z.to_nat eof) ainit 0).

Definition zdebugName : list Z := [46; 122; 100; 101; 98; 117; 103; 95].  (* ".zdebug_" *)
(** the loop elf.cc:712-716 *)
Fixpoint beWord (acc : Z) (bs : list Z) : Z :=
  match bs with [] => acc | b :: r => beWord (Z.lor (u64 (Z.shiftl acc 8)) b) r end.

(** One section: the header, and its name once it has one (elf.cc:258-264; before that it is empty and not in namedSection). *)
Record sec : Type := mkSec { secHdr : shd; secName : option (list Z) }.
Definition nameOf (s : sec) : list Z := match secName s with Some n => n | None => [] end.

Section Object.
Context {zst : Type} (zinit : zst) (zinflate : zst -> list Z -> Z -> bool -> zret * Z * list Z * zst).
Context (zlib : bool).                   (* zlibAvailable() *)
Context (fuel : nat) (m : memory) (io : reader).

(** Section::io elf.cc:687-743.  The io_ cache is left out: the result of a call that does not throw is a function of the header and the
    name alone; only the string table's io() is first called before it has a name, and is given an empty one in [sectionNames]. *)
Definition sectionIo (h : shd) (name : list Z) : res sio :=
  if h_type h =? 0 then Ok (IoR RNull)
  else
    let raw := rview io (h_offset h) (h_size h) in
    if negb (Z.land (h_flags h) 2048 =? 0) then
      if zlib then
        let* c := readObj (rread m raw) 24 0 1 in
        let* d := inflateReader zinit zinflate fuel (fld 8 c 8) (rread m (rview raw 24 (u64 (h_size h - 24)))) in
        Ok (IoMem d)
      else Ok (IoR RNull)
    else if startsWith zdebugName name then
      let* sig := readObj (rread m raw) 1 0 12 in
      if beq (ztake 4 sig) [90; 76; 73; 66] then
        if zlib then
          let sz := beWord 0 (zdrop 4 sig) in
          let* d := inflateReader zinit zinflate fuel sz (rread m (rview raw 12 sz)) in
          Ok (IoMem d)
        else Ok (IoR RNull)
      else Ok (IoR RNull)
    else Ok (IoR raw).

(** ** The ELF header and the program headers *)
Record ehdr : Type := mkEh { e_osabi : Z; e_type : Z; e_entry : Z; e_phoff : Z; e_shoff : Z; e_phnum : Z; e_shentsize : Z; e_shnum : Z; e_shstrndx : Z }.
(** io->readObj<Ehdr>(0) and the validation elf.cc:213-221 *)
Definition readEhdr : res ehdr :=
  let* b := readObj (rread m io) 64 0 1 in
  if beq (ztake 4 b) [127; 69; 76; 70] && (fld 1 b 6 =? 1)
  then Ok (mkEh (fld 1 b 7) (fld 2 b 16) (fld 8 b 24) (fld 8 b 32) (fld 8 b 40) (fld 2 b 56) (fld 2 b 58) (fld 2 b 60) (fld 2 b 62))
  else Throw.
(** Phdr (Elf64_Phdr, 56 bytes): type, flags, offset, vaddr, paddr, filesz, memsz, align *)
Definition phOf (b : list Z) : phdr := mkPh (fld 4 b 0) (fld 8 b 8) (fld 8 b 16) (fld 8 b 32) (fld 8 b 40).
(** The headers the constructor reads elf.cc:224-226; e_phnum * sizeof (Phdr) is a size_t *)
Definition readPhdrs (eh : ehdr) : res (list phdr) :=
  let* l := ioArray m (IoR (rview io (e_phoff eh) (u64 (e_phnum eh * 56)))) 56 in
  Ok (map phOf l).
(** programHeaders_[type] elf.cc:226-231; std::ranges::sort gives some order by p_vaddr (the order of equal ones is not specified: [srt]).
    Only types that occur have an entry; [at] of another throws, getSegments elf.cc:373-382 gives an empty one. *)
Definition segmentsOf (srt : list phdr -> list phdr) (l : list phdr) (type : Z) : list phdr :=
  srt (filter (fun h => p_type h =? type) l).
(** Object::endVA elf.cc:140-146 *)
Definition endVA (srt : list phdr -> list phdr) (l : list phdr) : res Z :=
  match rev (segmentsOf srt l 1) with [] => Throw | h :: _ => Ok (phEnd h) end.
(** Object::getInterpreter elf.cc:389-395 (PT_INTERP = 3) *)
Definition getInterpreter (srt : list phdr -> list phdr) (l : list phdr) : res (list Z) :=
  match segmentsOf srt l 3 with [] => Ok [] | h :: _ => rstring fuel m io (p_offset h) end.

(** ** The section header table *)
(** The loop elf.cc:247-255 from header [i] on: the headers read so far stay in sectionHeaders_ when one cannot be read.  [count] is
    headerCount, which the first header replaces if e_shnum is 0; vector::reserve refuses more than 2^60 - 1 pointers. *)
Fixpoint loadHeaders (f : nat) (eh : ehdr) (off i count : Z) : list shd * res unit :=
  match f with
  | O => ([], OutOfFuel)
  | S f =>
      if i <? count then
        match readObj (rread m io) 64 off 1 with
        | Ok b =>
            let h := shdOf b in
            let count' := if (i =? 0) && (e_shnum eh =? 0) then h_size h else count in
            if (i =? 0) && (e_shnum eh =? 0) && (count' >=? W64 / 16) then ([h], Throw)
            else let (r, x) := loadHeaders f eh (u64 (off + e_shentsize eh)) (i + 1) count' in (h :: r, x)
        | Throw => ([], Throw)
        | UB => ([], UB)
        | OutOfFuel => ([], OutOfFuel)
        end
      else ([], Ok tt)
  end.
(** The loop elf.cc:258-264.  Section::io of the string table [sh] is first called while it has no name. *)
Fixpoint sectionNames (sh : shd) (hs : list shd) : list sec * res unit :=
  match hs with
  | [] => ([], Ok tt)
  | h :: r =>
      match (let* i := sectionIo sh [] in ioString fuel m i (h_name h)) with
      | Ok n => let (l, x) := sectionNames sh r in (mkSec h (Some n) :: l, x)
      | Throw => (map (fun h => mkSec h None) hs, Throw)
      | UB => ([], UB)
      | OutOfFuel => ([], OutOfFuel)
      end
  end.
Definition unnamed (hs : list shd) : list sec := map (fun h => mkSec h None) hs.
(** Object::sectionHeaders elf.cc:234-270; the state is sectionHeaders_ *)
Definition sectionHeaders (eh : ehdr) (st : option (list sec)) : option (list sec) * res (list sec) :=
  match st with
  | Some l => (st, Ok l)
  | None =>
      let finish (l : list sec) :=
        let l := match l with [] => [mkSec nullShd None] | _ => l end in (Some l, Ok l) in
      if e_shoff eh <? rsize io then
        let count := if (e_shnum eh =? 0) && negb (e_shentsize eh =? 0) then 65536 else e_shnum eh in
        let (hs, x) := loadHeaders fuel eh (e_shoff eh) 0 count in
        match x with
        | Ok _ =>
            if e_shstrndx eh =? 0 then finish (unnamed hs)
            else
              let idx := if e_shstrndx eh =? 65535 then match hs with [] => None | h :: _ => Some (h_link h) end else Some (e_shstrndx eh) in
              match idx with
              | None => (Some (unnamed hs), UB)
              | Some idx =>
                  match znth idx hs with
                  | None => (Some (unnamed hs), UB)
                  | Some sh =>
                      let (l, x) := sectionNames sh hs in
                      match x with
                      | Ok _ => finish l
                      | Throw => (Some l, Throw)
                      | UB => (Some l, UB)
                      | OutOfFuel => (Some l, OutOfFuel)
                      end
                  end
              end
        | Throw => (Some (unnamed hs), Throw)
        | UB => (Some (unnamed hs), UB)
        | OutOfFuel => (Some (unnamed hs), OutOfFuel)
        end
      else finish []
  end.
(** As ElfObj.v sees a section *)
Definition asShdr (s : sec) : shdr := mkSh (nameOf s) (h_type (secHdr s)) (h_flags (secHdr s)) (h_offset (secHdr s)) (h_size (secHdr s)).
(** The reader of section [i] *)
Definition sectionAt (secs : list sec) (i : Z) : res sio :=
  match znth i secs with Some s => sectionIo (secHdr s) (nameOf s) | None => UB end.
(** Object::getLinkedSection elf.cc:508-516 within this object: sh_link is not checked *)
Definition linkedSection (secs : list sec) (i : Z) : res Z :=
  match znth i secs with
  | None => UB
  | Some s => if secTrue (map asShdr secs) i
              then match znth (h_link (secHdr s)) secs with Some _ => Ok (h_link (secHdr s)) | None => UB end
              else Ok i
  end.

(** ** Symbol versions *)
(** SymbolVersioning elf.h:263-267: assignments in the order made; for each Verneed its file and the numbers appended to it *)
Record symver : Type := mkSV { svVersions : list (Z * list Z); svPreds : list (Z * list Z); svFiles : list (list Z * list Z) }.
(** std::map after those assignments *)
Definition mapAt (l : list (Z * list Z)) (k : Z) : option (list Z) :=
  match find (fun e => fst e =? k) (rev l) with Some e => Some (snd e) | None => None end.
(** the Vernaux loop elf.cc:306-312 *)
Fixpoint auxNeeds (n : nat) (vr strings : sio) (off : Z) : res (list (Z * list Z)) :=
  match n with
  | O => Ok []
  | S n =>
      let* a := ioObj m vr off 16 in
      let* name := ioString fuel m strings (fld 4 a 8) in
      let* r := auxNeeds n vr strings (u64 (off + fld 4 a 12)) in
      Ok ((fld 2 a 6, name) :: r)
  end.
(** the Verneed loop elf.cc:300-315 *)
Fixpoint verNeeds (n : nat) (vr strings : sio) (off : Z) : res (list (list Z * list (Z * list Z))) :=
  match n with
  | O => Ok []
  | S n =>
      let* v := ioObj m vr off 16 in
      let* file := ioString fuel m strings (fld 4 v 4) in
      let* aux := auxNeeds (Z.to_nat (fld 2 v 2)) vr strings (u64 (off + fld 4 v 8)) in
      let* r := verNeeds n vr strings (u64 (off + fld 4 v 12)) in
      Ok ((file, aux) :: r)
  end.
(** the Verdef loop elf.cc:325-344: index, version, predecessor *)
Fixpoint verDefs (n : nat) (vd strings : sio) (off : Z) : res (list (Z * option (list Z) * option (list Z))) :=
  match n with
  | O => Ok []
  | S n =>
      let* v := ioObj m vd off 20 in
      let auxOff := u64 (off + fld 4 v 12) in
      let* (name, auxOff) := (if fld 2 v 6 >=? 1
                              then let* a := ioObj m vd auxOff 8 in
                                   let* s := ioString fuel m strings (fld 4 a 0) in Ok (Some s, u64 (auxOff + fld 4 a 4))
                              else Ok (None, auxOff)) in
      let* pred := (if fld 2 v 6 >=? 2
                    then let* a := ioObj m vd auxOff 8 in
                         let* s := ioString fuel m strings (fld 4 a 0) in Ok (Some s)
                    else Ok None) in
      let* r := verDefs n vd strings (u64 (off + fld 4 v 16)) in
      Ok ((fld 2 v 4, name, pred) :: r)
  end.
(** Object::dynamic elf.cc:272-285, then [.at(tag)] and [[0].d_un.d_val] elf.cc:296-301: the first entry with that tag *)
Definition dynVal (secs : list sec) (tag : Z) : res Z :=
  let* i := getSection 4 (map asShdr secs) [46; 100; 121; 110; 97; 109; 105; 99] 6 in
  if secTrue (map asShdr secs) i then
    let* s := sectionAt secs i in
    let* l := ioArray m s 16 in
    match find (fun b => fld 8 b 0 =? tag) l with Some b => Ok (fld 8 b 8) | None => Throw end
  else Throw.
Definition gnuVersionR : list Z := [46; 103; 110; 117; 46; 118; 101; 114; 115; 105; 111; 110; 95; 114].
Definition gnuVersionD : list Z := [46; 103; 110; 117; 46; 118; 101; 114; 115; 105; 111; 110; 95; 100].
Definition gnuVersion : list Z := [46; 103; 110; 117; 46; 118; 101; 114; 115; 105; 111; 110].
(** Object::symbolVersions elf.cc:287-350 (SHT_GNU_verneed 0x6ffffffe, SHT_GNU_verdef 0x6ffffffd, DT_VERNEEDNUM 0x6fffffff,
    DT_VERDEFNUM 0x6ffffffd).  It keeps its result only when it succeeds, so the cache is not modelled. *)
Definition symbolVersions (secs : list sec) : res symver :=
  let all := map asShdr secs in
  let* ri := getSection 4 all gnuVersionR 1879048190 in
  let* needs := (if secTrue all ri
                 then let* si := linkedSection secs ri in
                      let* n := dynVal secs 1879048191 in
                      let* vr := sectionAt secs ri in
                      let* strings := sectionAt secs si in
                      verNeeds (Z.to_nat n) vr strings 0
                 else Ok []) in
  let* di := getSection 4 all gnuVersionD 1879048189 in
  let* defs := (if secTrue all di
                then let* si := linkedSection secs di in
                     let* n := dynVal secs 1879048189 in
                     let* vd := sectionAt secs di in
                     let* strings := sectionAt secs si in
                     verDefs (Z.to_nat n) vd strings 0
                else Ok []) in
  Ok (mkSV (concat (map snd needs) ++ flat_map (fun d => match snd (fst d) with Some s => [(fst (fst d), s)] | None => [] end) defs)
           (flat_map (fun d => match snd d with Some s => [(fst (fst d), s)] | None => [] end) defs)
           (map (fun n => (fst n, map fst (snd n))) needs)).
(** Object::symbolVersion elf.cc:148-157 *)
Definition symbolVersion (secs : list sec) (idx : Z) : res (option (list Z)) :=
  let* vi := symbolVersions secs in
  let i := Z.land idx 32767 in
  if i >=? 2 then match mapAt (svVersions vi) i with Some s => Ok (Some s) | None => Throw end else Ok None.
(** Object::versionIdxForSymbol elf.cc:159-164 (SHT_GNU_versym 0x6fffffff) *)
Definition versionIdx (secs : list sec) (idx : Z) : res (option Z) :=
  let* i := getSection 4 (map asShdr secs) gnuVersion 1879048191 in
  if secTrue (map asShdr secs) i then
    let* s := sectionAt secs i in
    let* b := ioObj m s (u64 (idx * 2)) 2 in Ok (Some (fld 2 b 0))
  else Ok None.

(** ** Symbols by name *)
(** Sym (Elf64_Sym, 24 bytes) *)
Definition symOf (b : list Z) : esym := mkSym (fld 4 b 0) (fld 1 b 4) (fld 1 b 5) (fld 2 b 6) (fld 8 b 8) (fld 8 b 16).
(** Object::debugSymbols / dynamicSymbols and getSymtab elf.cc:195-210, if the section is this image's own (see C90 for the separate debug
    image): the readers of the symbol table and of its strings. *)
Definition symtabOf (secs : list sec) (name : list Z) (type : Z) : res (sio * sio) :=
  let* i := getSection 4 (map asShdr secs) name type in
  let* s := sectionAt secs i in
  let* k := linkedSection secs i in
  let* t := sectionAt secs k in Ok (s, t).
(** the loop elf.cc:549-550 from symbol [idx] on, [n] symbols from the end of the array: the names entered, and how it ended *)
Fixpoint cacheNames (symtab strings : sio) (n : nat) (s : astate) (idx : Z) : list (list Z * Z) * res unit :=
  match n with
  | O => ([], Ok tt)
  | S n =>
      let (s, r) := getitem (ioRead m symtab) 24 (1024 / 24) 0 s idx in
      match (let* b := r in ioString fuel m strings (st_name (symOf b))) with
      | Ok nm => let (l, x) := cacheNames symtab strings n s (idx + 1) in ((nm, idx) :: l, x)
      | Throw => ([], Throw)
      | UB => ([], UB)
      | OutOfFuel => ([], OutOfFuel)
      end
  end.
Definition nameAt (l : list (list Z * Z)) (name : list Z) : option Z :=
  match find (fun e => beq (fst e) name) (rev l) with Some e => Some (snd e) | None => None end.
(** Object::findDebugSymbol elf.cc:540-557, on the readers of the symbol table and its strings; the state is cachedSymbols.  The array is made
    by debugSymbols(), which fails again every time it is called; its own cache (ReaderArray.v) is taken to be empty at the start, which
    makes no difference (C09). *)
Definition findDebugSymbol (symtab strings : sio) (st : option (list (list Z * Z))) (name : list Z) : option (list (list Z * Z)) * res (esym * Z) :=
  let look (l : list (list Z * Z)) :=
    match nameAt l name with
    | Some i => let* b := ioObj m symtab (u64 (i * 24)) 24 in Ok (symOf b, i)
    | None => Ok (undef, 0)
    end in
  match arrayEof (ioSize symtab) 24 0 with
  | Ok eof =>
      match st with
      | Some l => (st, look l)
      | None =>
          let (l, x) := cacheNames symtab strings (Z.to_nat eof) ainit 0 in
          match x with
          | Ok _ => (Some l, look l)
          | Throw => (Some l, Throw)
          | UB => (Some l, UB)
          | OutOfFuel => (Some l, OutOfFuel)
          end
      end
  | Throw => (st, Throw)
  | UB => (st, UB)
  | OutOfFuel => (st, OutOfFuel)
  end.
(** a history of lookups *)
Fixpoint symHistory (symtab strings : sio) (st : option (list (list Z * Z))) (h : list (list Z)) : option (list (list Z * Z)) :=
  match h with [] => st | n :: r => symHistory symtab strings (fst (findDebugSymbol symtab strings st n)) r end.

(** ** Build IDs *)
Definition noteBuildId : list Z := [46; 110; 111; 116; 101; 46; 103; 110; 117; 46; 98; 117; 105; 108; 100; 45; 105; 100].
(** Object::getBuildID of a debug image elf.cc:552-568 (SHT_NOTE 7, GNU_BUILD_ID 3) *)
Definition debugBuildId (secs : list sec) : res (list Z) :=
  let* i := getSection 4 (map asShdr secs) noteBuildId 7 in
  if secTrue (map asShdr secs) i then
    let* s := sectionAt secs i in
    if ioSize s >? 16 then
      let* n := ioObj m s 0 12 in
      if fld 4 n 8 =? 3 then readObj (ioRead m s) 1 (12 + roundup2 (fld 4 n 0) 4) (fld 4 n 4)
      else Ok []
    else Ok []
  else Ok [].
End Object.
(** Object::getBuildID of an image elf.cc:569-580, over its notes (segNotes of ElfObj.v: name, type, descriptor) *)
Definition imageBuildId (notes : list ndesc) : list Z :=
  match find (fun n => beq (ndName n) [71; 78; 85] && (ndType n =? 3)) notes with Some n => ndData n | None => [] end.

(** ** The separate debug image *)
(** Object::getDebug elf.cc:596-648.  Images are named by numbers; given are: options.noExtDebug, whether context.debug is set, this image's
    build ID, Context::findDebugImage by build ID and by path (see C83), the text of .gnu_debuglink (if there is the section), the path
    [dir / link], an image's build ID, and sh_addr of .dynamic of this image and of a debug image.  The state is (debugLoaded, debugObject);
    the result also says by how much the debug image's addresses were moved. *)
Record dbgEnv : Type := mkDE { dNoExt : bool; dVerbose : bool; dBid : res (list Z); dById : list Z -> res (option Z); dLink : res (option (list Z));
  dByPath : list Z -> res (option Z); dBidOf : Z -> res (list Z); dDynAddr : Z; dDynAddrOf : Z -> Z }.
Definition dbgState : Type := (bool * option Z)%type.
Definition getDebug (e : dbgEnv) (st : dbgState) : dbgState * res (option Z * Z) :=
  let (loaded, obj) := st in
  if loaded || dNoExt e then (st, Ok (obj, 0))
  else
    let find :=
      let* bid := dBid e in
      let* d := dById e bid in
      match d with
      | Some d => Ok (bid, Some d)
      | None => let* l := dLink e in
                match l with
                | Some l => let* d := dByPath e l in Ok (bid, d)
                | None => Ok (bid, None)
                end
      end in
    match find with
    | Ok (bid, None) => ((true, None), Ok (None, 0))
    | Ok (bid, Some d) =>
        ((true, Some d),
         let* dbid := dBidOf e d in
         let diff := u64 (dDynAddr e - dDynAddrOf e d) in
         if negb (beq dbid bid) && negb (dVerbose e) then UB
         else Ok (Some d, if negb (dDynAddrOf e d =? dDynAddr e) && dVerbose e then diff else 0))
    | Throw => ((true, obj), Throw)
    | UB => ((true, obj), UB)
    | OutOfFuel => ((true, obj), OutOfFuel)
    end.
Fixpoint dbgHistory (e : dbgEnv) (st : dbgState) (n : nat) : dbgState :=
  match n with O => st | S n => dbgHistory e (fst (getDebug e st)) n end.
