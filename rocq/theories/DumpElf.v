(** Model of the dump of an ELF object: dump.cc:540-991 (pstack -d), for an image that is not a separate debug image. *)
From Coq Require Import Ascii String.
From Verif Require Import Base Reader ReaderSpec ReaderArray DwarfReaderProofs ElfHash ElfObj ElfFile Context Args FrameText JsonDoc Dump DumpCfi DumpTables DumpDie.
Open Scope Z_scope.

Definition vs (s : string) : jval := VStr (txt s).
(** a std::vector or other range printed after the one before it: each element is printed before the next is read; [c] is what the printing changes *)
Fixpoint dumpSt {C X Y} (g : C -> X -> C * res Y) (c : C) (l : list X) : C * res (list Y) :=
  match l with
  | [] => (c, Ok [])
  | x :: r =>
      match g c x with
      | (c, Ok y) => match dumpSt g c r with (c, Ok z) => (c, Ok (y :: z)) | (c, Throw) => (c, Throw) | (c, UB) => (c, UB) | (c, OutOfFuel) => (c, OutOfFuel) end
      | (c, Throw) => (c, Throw)
      | (c, UB) => (c, UB)
      | (c, OutOfFuel) => (c, OutOfFuel)
      end
  end.

(** sh_flag_names dump.cc:693-716; the names are the macro arguments as written *)
Definition shfTable : list (string * Z) :=
  [("SHF_WRITE", 1); ("SHF_ALLOC", 2); ("SHF_EXECINSTR", 4); ("SHF_MERGE", 16); ("SHF_STRINGS", 32); ("SHF_INFO_LINK", 64); ("SHF_LINK_ORDER", 128);
   ("SHF_OS_NONCONFORMING", 0x100); ("SHF_GROUP", 512); ("SHF_TLS", 1024); ("SHF_COMPRESSED", 2048); ("SHF_MASKOS", 0x0ff00000); ("SHF_MASKPROC", 0xf0000000);
   ("SHF_ORDERED", 0x40000000); ("(Elf::Word)SHF_EXCLUDE", 0x80000000)]%string.
Definition shFlags (f : Z) : list string := map fst (filter (fun p => negb (Z.land f (snd p) =? 0)) shfTable).
(** bindingNames 724-741, typeNames 742-759 *)
Definition bindingNames : list string :=
  ["STB_LOCAL"; "STB_GLOBAL"; "STB_WEAK"; "unknown3"; "unknown4"; "unknown5"; "unknown6"; "unknown7"; "unknown8"; "unknown9"; "unknowna"; "unknownb"; "unknownc";
   "STB_LOPROC"; "STB_LOPROC + 1"; "STB_HIPROC + 1"]%string.
Definition symTypeNames : list string :=
  ["STT_NOTYPE"; "STT_OBJECT"; "STT_FUNC"; "STT_SECTION"; "STT_FILE"; "STT_5"; "STT_6"; "STT_7"; "STT_8"; "STT_9"; "STT_A"; "STT_B"; "STT_C"; "STT_LOPROC";
   "STT_LOPROC + 1"; "STT_HIPROC"]%string.
(** sectionTypeName 773-782 *)
Definition secTypeName (t : Z) : string := match inTable secTable t with Some s => s | None => "unknown" end.
(** programHeaderName 588-604 *)
Definition segTable : list (Z * string) :=
  [(0, "PT_NULL"); (1, "PT_LOAD"); (2, "PT_DYNAMIC"); (3, "PT_INTERP"); (4, "PT_NOTE"); (5, "PT_SHLIB"); (6, "PT_PHDR"); (7, "PT_TLS"); (0x6474e550, "PT_GNU_EH_FRAME");
   (0x6474e551, "PT_GNU_STACK"); (0x6474e552, "PT_GNU_RELRO")]%string.
Definition segName (t : Z) : string := match inTable segTable t with Some s => s | None => "invalid program header type" end.
(** JSON<DynTag> 884-898: DynTag takes the low 32 bits of d_tag *)
Definition dynTagJ (tag : Z) : jval := match inTable dynTable (s32 tag) with Some s => vs s | None => VInt (s32 tag) end.

(** Phdr, all of it *)
Record dph : Type := mkDph { dType : Z; dFlags : Z; dOffset : Z; dVaddr : Z; dPaddr : Z; dFilesz : Z; dMemsz : Z; dAlign : Z }.
Definition dphOf (b : list Z) : dph := mkDph (fld 4 b 0) (fld 4 b 4) (fld 8 b 8) (fld 8 b 16) (fld 8 b 24) (fld 8 b 32) (fld 8 b 40) (fld 8 b 48).
(** as ElfObj.v sees it *)
Definition asPh (d : dph) : phdr := mkPh (dType d) (dOffset d) (dVaddr d) (dFilesz d) (dMemsz d).
(** the keys of programHeaders_ (elf.h:293, elf.cc:226), a std::map: increasing *)
Fixpoint addKey (t : Z) (l : list Z) : list Z :=
  match l with [] => [t] | x :: r => if t <? x then t :: l else if t =? x then l else x :: addKey t r end.
Definition segTypes (l : list dph) : list Z := fold_left (fun k d => addKey (dType d) k) l [].
(** std::map<std::string, std::vector<int>> of SymbolVersioning (elf.h:266): by name, as unsigned bytes; elf.cc:305, 310 *)
Fixpoint sLt (a b : list Z) : bool :=
  match a, b with
  | _, [] => false
  | [], _ :: _ => true
  | x :: a, y :: b => (x <? y) || ((x =? y) && sLt a b)
  end.
Fixpoint addFile (n : list Z) (v : list Z) (l : list (list Z * list Z)) : list (list Z * list Z) :=
  match l with
  | [] => [(n, v)]
  | (k, w) :: r => if sLt n k then (n, v) :: l else if beq n k then (k, w ++ v) :: r else (k, w) :: addFile n v r
  end.
Definition filesMap (l : list (list Z * list Z)) : list (list Z * list Z) := fold_left (fun m f => addFile (fst f) (snd f) m) l [].
(** JSON<SymbolVersioning> 606-612 *)
Definition dumpFiles (l : list (list Z * list Z)) : jval := VObj [(txt "files", VMap (map (fun f => (fst f, VList (map VInt (snd f)))) (filesMap l)))].

(** ** Notes *)
Definition recObj (d : list Z) (off n : Z) : res (list Z) := if zlen d <? off + n then Throw else Ok (ztake n (zdrop off d)).
(** timeval 662-668, elf_siginfo 936-943 *)
Definition timeJ (b : list Z) (o : Z) : jval := VObj [nf "tv_sec" (s64 (fld 8 b o)); nf "tv_usec" (s64 (fld 8 b (o + 8)))].
(** prstatus_t 945-964, the 336 bytes of x86-64; [regs] is the address of pr_reg in pstack itself, intptr_t(prstatus.pr_reg) *)
Definition prstatusJ (regs : Z) (b : list Z) : jval :=
  VObj [(txt "pr_info", VObj [nf "si_signo" (s32 (fld 4 b 0)); nf "si_code" (s32 (fld 4 b 4)); nf "si_errno" (s32 (fld 4 b 8))]);
        nf "pr_cursig" (s16 (fld 2 b 12)); nf "pr_sigpend" (fld 8 b 16); nf "pr_sighold" (fld 8 b 24);
        nf "pr_pid" (s32 (fld 4 b 32)); nf "pr_ppid" (s32 (fld 4 b 36)); nf "pr_pgrp" (s32 (fld 4 b 40)); nf "pr_sid" (s32 (fld 4 b 44));
        (txt "pr_utime", timeJ b 48); (txt "pr_stime", timeJ b 64); (txt "pr_cutime", timeJ b 80); (txt "pr_cstime", timeJ b 96);
        nf "pr_reg" regs; nf "pr_fpvalid" (s32 (fld 4 b 328))].
(** prpsinfo_t 966-990, the 136 bytes of x86-64 *)
Definition s8 (n : Z) : Z := if n <? 128 then n else n - 0x100.
Definition prpsinfoJ (b : list Z) : jval :=
  VObj [nf "pr_state" (s8 (fld 1 b 0)); (txt "pr_sname", VStr (ztake 1 (zdrop 1 b))); (txt "pr_zomb", VBool (negb (fld 1 b 2 =? 0)));
        nf "pr_nice" (s8 (fld 1 b 3)); nf "pr_flag" (s32 (fld 8 b 8)); nf "pr_uid" (fld 4 b 16); nf "pr_gid" (fld 4 b 20);
        nf "pr_pid" (s32 (fld 4 b 24)); nf "pr_ppid" (s32 (fld 4 b 28)); nf "pr_pgrp" (s32 (fld 4 b 32)); nf "pr_sid" (s32 (fld 4 b 36));
        (txt "pr_fname", VStr (untilNul (ztake 16 (zdrop 40 b)))); (txt "pr_args", VStr (untilNul (ztake 80 (zdrop 56 b))))].
(** auxv_t 670-682 *)
Definition auxvJ (b : list Z) : jval :=
  VObj [(txt "a_type", match inTable auxvTable (fld 8 b 0) with Some s => vs s | None => VInt (fld 8 b 0) end); nf "a_val" (fld 8 b 8)].

Section Dump.
Context {zst : Type} (zinit : zst) (zinflate : zst -> list Z -> Z -> bool -> zret * Z * list Z * zst).
Context (zlib : bool) (fuel : nat) (m : memory) (io : reader).
(** the order of a std::set<const char *>, that of the addresses of the literals; the order std::ranges::sort leaves (elf.cc:228) *)
Context (ord : list string -> list string) (srt : list dph -> list dph).

(** JSON<NoteDesc> 540-586.  The descriptor is taken to be inside the file (see C32), so that the view data() gives has its size. *)
Definition noteExtra (regs : Z) (n : ndesc) : res (list (list Z * jval)) :=
  let d := ndData n in
  if beq (ndName n) (txt "CORE") then
    if ndType n =? 1 then let* b := recObj d 0 336 in Ok [(txt "prstatus", prstatusJ regs b)]
    else if ndType n =? 3 then let* b := recObj d 0 136 in Ok [(txt "prpsinfo", prpsinfoJ b)]
    else if ndType n =? 6 then let* l := ioArray m (IoMem d) 16 in Ok [(txt "auxv", VList (map auxvJ l))]
    else Ok []
  else if beq (ndName n) (txt "GNU") then
    if ndType n =? 1 then
      let* a := recObj d 0 4 in
      let* v := recObj d 4 12 in
      Ok [nf "abi-executable-marker" (fld 4 a 0); (txt "kernel-version", VList [VInt (fld 4 v 0); VInt (fld 4 v 4); VInt (fld 4 v 8)])]
    else if ndType n =? 3 then let* l := ioArray m (IoMem d) 1 in Ok [(txt "buildid", VStr (flat_map (fun c => hexByte (fld 1 c 0)) l))]
    else Ok []
  else Ok [].
Definition dumpNote (regs : Z) (n : ndesc) : res jval :=
  let* x := noteExtra regs n in Ok (VObj ((txt "name", VStr (ndName n)) :: nf "type" (ndType n) :: x)).

(** ** Sections *)
(** JSON<Sym, Section> 718-771 for a symbol of section [i] *)
Definition dumpSym (secs : list sec) (i : Z) (b : list Z) : res jval :=
  let s := symOf b in
  let* k := linkedSection secs i in
  let* strings := sectionAt zinit zinflate zlib fuel m io secs k in
  let* nm := ioString fuel m strings (st_name s) in
  Ok (VObj [(txt "name", VStr nm); nf "value" (st_value s); nf "size" (st_size s); nf "info" (st_info s);
            (txt "binding", vs (nth (Z.to_nat (Z.shiftr (st_info s) 4)) bindingNames ""%string)); (txt "type", vs (nth (Z.to_nat (Z.land (st_info s) 15)) symTypeNames ""%string));
            nf "other" (st_other s); nf "shndx" (st_shndx s)]).
(** JSON<Rela> 684-691 (ELF_R_SYM, ELF_R_TYPE of Elf64) *)
Definition relaJ (b : list Z) : jval :=
  VObj [nf "r_offset" (fld 8 b 0); nf "r_info-sym" (Z.shiftr (fld 8 b 8) 32); nf "r_info-type" (Z.land (fld 8 b 8) 0xffffffff)].
Definition textNames : list (list Z) := [txt ".gnu_debugaltlink"; txt ".gnu_debuglink"; txt ".comment"].
(** JSON<unique_ptr<Section>> 784-836 *)
Definition dumpSection (secs : list sec) (phantom : bool) (i : Z) (s : sec) : res jval :=
  let h := secHdr s in
  let name := if phantom then txt "null" else ElfFile.nameOf s in
  let* r := sectionAt zinit zinflate zlib fuel m io secs i in
  let* extra := (if (h_type h =? 2) || (h_type h =? 11) then let* l := ioArray m r 24 in let* y := dumpAll (dumpSym secs i) l in Ok [(txt "symbols", VList y)]
                 else if h_type h =? 4 then let* l := ioArray m r 24 in Ok [(txt "reloca", VList (map relaJ l))]
                 else Ok []) in
  let* content := (if existsb (beq name) textNames
                   then let* b := ioRead m r 0 (Z.min 1023 (ioSize r)) in Ok [(txt "content", VStr (untilNul b))]
                   else Ok []) in
  Ok (VObj ([nf "size" (h_size h); nf "uncompressedSize" (ioSize r); (txt "name", VStr name); (txt "flags", VList (map vs (ord (shFlags (h_flags h)))));
             nf "address" (h_addr h); nf "offset" (h_offset h); nf "link" (h_link h); nf "info" (h_info h);
             (txt "type", if h_type h <=? 11 then vs (secTypeName (h_type h)) else VInt (h_type h))] ++ extra ++ content)).
(** the sections in order 651; the placeholder of elf.cc:266 and elf.h:206 is called "null" *)
Fixpoint dumpSections (secs : list sec) (phantom : bool) (i : Z) (l : list sec) : res (list jval) :=
  match l with [] => Ok [] | s :: r => let* x := dumpSection secs phantom i s in let* y := dumpSections secs phantom (i + 1) r in Ok (x :: y) end.

(** ** Segments *)
(** JSON<Dyn, pair<Object, strtab>> 900-923; the state is lastSegmentForAddress *)
Definition dumpDyn (loads : list phdr) (strtab : Z) (c : option phdr) (b : list Z) : option phdr * res jval :=
  let tag := fld 8 b 0 in
  let val := fld 8 b 8 in
  let (c, g) := getSegment loads c strtab in
  (c, match g with
      | None => UB
      | Some g =>
          let strings := u64 (p_offset g + (strtab - p_vaddr g)) in
          let pre := [(txt "tag", dynTagJ tag); nf "word" val] in
          let str (k : string) := let* s := rstring fuel m io (u64 (strings + val)) in Ok (VObj (pre ++ [(txt k, VStr s)])) in
          if tag =? 1 then str "lib"%string else if tag =? 15 then str "rpath"%string else if tag =? 14 then str "soname"%string else if tag =? 29 then str "runpath"%string else Ok (VObj pre)
      end).
(** JSON<Phdr, Object> 841-879 *)
Definition dumpSeg (loads : list phdr) (c : option phdr) (d : dph) : option phdr * res jval :=
  let flags := (if Z.land (dFlags d) 4 =? 0 then [] else ["PF_R"%string]) ++ (if Z.land (dFlags d) 2 =? 0 then [] else ["PF_W"%string]) ++
               (if Z.land (dFlags d) 1 =? 0 then [] else ["PF_X"%string]) in
  let pre := [nf "offset" (dOffset d); nf "vaddr" (dVaddr d); nf "paddr" (dPaddr d); nf "filesz" (dFilesz d); nf "memsz" (dMemsz d);
              (txt "type", vs (segName (dType d))); (txt "flags", VList (map vs (ord flags))); nf "alignment" (dAlign d)] in
  if dType d =? 2 then
    match ioArray m (IoR (rview io (dOffset d) (dFilesz d))) 16 with
    | Ok l =>
        let strtab := match find (fun b => fld 8 b 0 =? 5) l with Some b => fld 8 b 8 | None => 0 end in
        match dumpSt (dumpDyn loads strtab) c l with
        | (c, Ok y) => (c, Ok (VObj (pre ++ [(txt "dynamic", VList y)])))
        | (c, Throw) => (c, Throw)
        | (c, UB) => (c, UB)
        | (c, OutOfFuel) => (c, OutOfFuel)
        end
    | Throw => (c, Throw)
    | UB => (c, UB)
    | OutOfFuel => (c, OutOfFuel)
    end
  else (c, Ok (VObj pre)).
(** the headers the constructor read elf.cc:224-226 *)
Definition readDphs (eh : ehdr) : res (list dph) :=
  let* l := ioArray m (IoR (rview io (e_phoff eh) (u64 (e_phnum eh * 56)))) 56 in
  Ok (map dphOf l).
(** programHeaders_[t] *)
Definition segsOf (l : list dph) (t : Z) : list dph := srt (filter (fun d => dType d =? t) l).
(** mappedSegments 645, 652 *)
Definition dumpSegs (l : list dph) (c : option phdr) : option phdr * res jval :=
  match dumpSt (fun c t =>
      match dumpSt (dumpSeg (map asPh (segsOf l 1))) c (segsOf l t) with
      | (c, Ok y) => (c, Ok (txt (segName t), VList y))
      | (c, Throw) => (c, Throw)
      | (c, UB) => (c, UB)
      | (c, OutOfFuel) => (c, OutOfFuel)
      end) c (segTypes l) with
  | (c, Ok y) => (c, Ok (VMap y))
  | (c, Throw) => (c, Throw)
  | (c, UB) => (c, UB)
  | (c, OutOfFuel) => (c, OutOfFuel)
  end.

(** ** The object, dump.cc:613-660.  [file] is what [io] reads (segNotes of ElfObj.v works on it), [c] lastSegmentForAddress. *)
Definition typeNames : list string := ["ET_NONE"; "ET_REL"; "ET_EXEC"; "ET_DYN"; "ET_CORE"]%string.
Definition abiNames : list string :=
  ["SYSV/NONE"; "HP-UX"; "NetBSD"; "Linux"; "Hurd"; "86Open"; "Solaris"; "Monterey"; "Irix"; "FreeBSD"; "Tru64"; "Modesto"; "OpenBSD"]%string.
Definition interp (l : list dph) : res (list Z) := match segsOf l 3 with [] => Ok [] | d :: _ => rstring fuel m io (dOffset d) end.
Definition dumpElf (file : list Z) (regs : Z) (c : option phdr) : res jval :=
  let* eh := readEhdr m io in
  let* phs := readDphs eh in
  let* ty := (if e_type eh <? 5 then Ok (nth (Z.to_nat (e_type eh)) typeNames ""%string) else UB) in
  let* abi := (if e_osabi eh <? 13 then Ok (nth (Z.to_nat (e_osabi eh)) abiNames ""%string) else UB) in
  let* secs := snd (sectionHeaders zinit zinflate zlib fuel m io eh None) in
  let phantom := negb (e_shoff eh <? rsize io) || ((e_shnum eh =? 0) && (e_shentsize eh =? 0)) in
  let* sj := dumpSections secs phantom 0 secs in
  let* gj := snd (dumpSegs phs c) in
  let* notes := segNotes fuel file (map asPh (segsOf phs 4)) 0 in
  let* nj := dumpAll (dumpNote regs) notes in
  let* sv := symbolVersions zinit zinflate zlib fuel m io secs in
  let* ip := interp phs in
  Ok (VObj ([(txt "type", vs ty); nf "entry" (e_entry eh); (txt "abi", vs abi); (txt "sections", VList sj); (txt "segments", gj);
             (txt "notes", VList nj); (txt "versioninfo", dumpFiles (svFiles sv))] ++
            (if beq ip [] then [] else [(txt "interpreter", VStr ip)]))).
End Dump.
