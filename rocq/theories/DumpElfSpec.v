(** Specification: what the dump of an ELF image says (System V gABI chapters 4 and 5, the x86-64 core file structures of <sys/procfs.h>). *)
From Coq Require Import Ascii String Permutation Sorted.
From Verif Require Import Base CfiSpec MapsSpec ElfHashSpec ElfObjSpec ElfFileSpec ArgsSpec FrameTextSpec JsonDocSpec DumpDieSpec.
(* from DumpDieSpec only [called]: a number's name in a table *)
Open Scope Z_scope.

Definition num (k : string) (n : Z) : list Z * jvalue := (lit k, XNum n).

(** ** Names *)
Definition stdFlags : list (Z * string) :=
  [(0x1, "SHF_WRITE"); (0x2, "SHF_ALLOC"); (0x4, "SHF_EXECINSTR"); (0x10, "SHF_MERGE"); (0x20, "SHF_STRINGS"); (0x40, "SHF_INFO_LINK"); (0x80, "SHF_LINK_ORDER");
   (0x100, "SHF_OS_NONCONFORMING"); (0x200, "SHF_GROUP"); (0x400, "SHF_TLS"); (0x800, "SHF_COMPRESSED")]%string.
Definition stdSecTypes : list (Z * string) :=
  [(0, "SHT_NULL"); (1, "SHT_PROGBITS"); (2, "SHT_SYMTAB"); (3, "SHT_STRTAB"); (4, "SHT_RELA"); (5, "SHT_HASH"); (6, "SHT_DYNAMIC"); (7, "SHT_NOTE");
   (8, "SHT_NOBITS"); (9, "SHT_REL"); (10, "SHT_SHLIB"); (11, "SHT_DYNSYM")]%string.
Definition stdBinds : list (Z * string) := [(0, "STB_LOCAL"); (1, "STB_GLOBAL"); (2, "STB_WEAK"); (13, "STB_LOPROC"); (14, "STB_LOPROC + 1")]%string.
Definition stdSymTypes : list (Z * string) := [(0, "STT_NOTYPE"); (1, "STT_OBJECT"); (2, "STT_FUNC"); (3, "STT_SECTION"); (4, "STT_FILE"); (13, "STT_LOPROC"); (14, "STT_LOPROC + 1"); (15, "STT_HIPROC")]%string.
Definition stdSegTypes : list (Z * string) :=
  [(0, "PT_NULL"); (1, "PT_LOAD"); (2, "PT_DYNAMIC"); (3, "PT_INTERP"); (4, "PT_NOTE"); (5, "PT_SHLIB"); (6, "PT_PHDR"); (7, "PT_TLS"); (0x6474e550, "PT_GNU_EH_FRAME");
   (0x6474e551, "PT_GNU_STACK"); (0x6474e552, "PT_GNU_RELRO")]%string.
Definition stdSegFlags : list (Z * string) := [(4, "PF_R"); (2, "PF_W"); (1, "PF_X")]%string.
(** tags of the dynamic section, gABI and GNU *)
Definition stdDynTags : list (Z * string) :=
  [(0, "DT_NULL"); (1, "DT_NEEDED"); (2, "DT_PLTRELSZ"); (3, "DT_PLTGOT"); (4, "DT_HASH"); (5, "DT_STRTAB"); (6, "DT_SYMTAB"); (7, "DT_RELA"); (8, "DT_RELASZ");
   (9, "DT_RELAENT"); (10, "DT_STRSZ"); (11, "DT_SYMENT"); (12, "DT_INIT"); (13, "DT_FINI"); (14, "DT_SONAME"); (15, "DT_RPATH"); (16, "DT_SYMBOLIC"); (17, "DT_REL");
   (18, "DT_RELSZ"); (19, "DT_RELENT"); (20, "DT_PLTREL"); (21, "DT_DEBUG"); (22, "DT_TEXTREL"); (23, "DT_JMPREL"); (24, "DT_BIND_NOW"); (25, "DT_INIT_ARRAY");
   (26, "DT_FINI_ARRAY"); (27, "DT_INIT_ARRAYSZ"); (28, "DT_FINI_ARRAYSZ"); (29, "DT_RUNPATH"); (30, "DT_FLAGS"); (33, "DT_PREINIT_ARRAYSZ");
   (0x6ffffff0, "DT_VERSYM"); (0x6ffffff9, "DT_RELACOUNT"); (0x6ffffffa, "DT_RELCOUNT"); (0x6ffffffb, "DT_FLAGS_1"); (0x6ffffffc, "DT_VERDEF");
   (0x6ffffffd, "DT_VERDEFNUM"); (0x6ffffffe, "DT_VERNEED"); (0x6fffffff, "DT_VERNEEDNUM")]%string.
(** tags that have no name of their own in pstack: shown by number *)
Definition plainTags : list Z := [34; 35; 36; 37; 0x6ffffef5; 0x6ffffdf5; 0x6ffffdf8; 0x6ffffef6; 0x6ffffef7; 0x7ffffffd].
Definition stdAux : list (Z * string) :=
  [(0, "AT_NULL"); (1, "AT_IGNORE"); (2, "AT_EXECFD"); (3, "AT_PHDR"); (4, "AT_PHENT"); (5, "AT_PHNUM"); (6, "AT_PAGESZ"); (7, "AT_BASE"); (8, "AT_FLAGS"); (9, "AT_ENTRY");
   (10, "AT_NOTELF"); (11, "AT_UID"); (12, "AT_EUID"); (13, "AT_GID"); (14, "AT_EGID"); (15, "AT_PLATFORM"); (16, "AT_HWCAP"); (17, "AT_CLKTCK"); (23, "AT_SECURE");
   (24, "AT_BASE_PLATFORM"); (25, "AT_RANDOM"); (26, "AT_HWCAP2"); (27, "AT_RSEQ_FEATURE_SIZE"); (28, "AT_RSEQ_ALIGN"); (31, "AT_EXECFN"); (32, "AT_SYSINFO");
   (33, "AT_SYSINFO_EHDR"); (51, "AT_MINSIGSTKSZ")]%string.
Definition stdTypes : list (Z * string) := [(0, "ET_NONE"); (1, "ET_REL"); (2, "ET_EXEC"); (3, "ET_DYN"); (4, "ET_CORE")]%string.
Definition stdAbis : list (Z * string) :=
  [(0, "SYSV/NONE"); (1, "HP-UX"); (2, "NetBSD"); (3, "Linux"); (4, "Hurd"); (5, "86Open"); (6, "Solaris"); (7, "Monterey"); (8, "Irix"); (9, "FreeBSD"); (10, "Tru64");
   (11, "Modesto"); (12, "OpenBSD")]%string.
(** the names of the flags that are set, in any order *)
Definition flagsShown (t : list (Z * string)) (f : Z) (x : jvalue) : Prop :=
  exists l, Permutation l (map (fun p => lit (snd p)) (filter (fun p => Z.testbit f (Z.log2 (fst p))) t)) /\ x = XArr (map XStr l).

(** ** Sections *)
(** The contents of a section that is not compressed; a section of type SHT_NULL has none, and SHT_NOBITS occupies no space in the file. *)
Definition sectionData (file : list Z) (s : sshdr * list Z) (data : list Z) : Prop :=
  z_type (fst s) <> 0 /\ z_type (fst s) <> 8 /\ 0 < z_offset (fst s) /\ z_offset (fst s) + z_size (fst s) <= zlen file /\ data = ztake (z_size (fst s)) (zdrop (z_offset (fst s)) file).
Definition symDoc (s : ssym) (x : jvalue) : Prop :=
  exists nm b t, plainText (ssName s) nm /\ called stdBinds (ssInfo s / 16) b /\ called stdSymTypes (ssInfo s mod 16) t /\
  x = XObj [(lit "name", XStr nm); num "value" (ssValue s); num "size" (ssSize s); num "info" (ssInfo s); (lit "binding", XStr b); (lit "type", XStr t);
            num "other" (ssOther s); num "shndx" (ssShndx s)].
(** a relocation: where, symbol, kind, addend (which is not shown) *)
Definition relaBytes (r : Z * Z * Z * Z) : list Z := let '(o, s, t, a) := r in leBytes 8 o ++ leBytes 4 t ++ leBytes 4 s ++ leBytes 8 (a mod 2 ^ 64).
Definition relaOk (r : Z * Z * Z * Z) : Prop := let '(o, s, t, a) := r in 0 <= o < 2 ^ 64 /\ 0 <= s < 2 ^ 32 /\ 0 <= t < 2 ^ 32.
Definition relaDoc (r : Z * Z * Z * Z) : jvalue := let '(o, s, t, a) := r in XObj [num "r_offset" o; num "r_info-sym" s; num "r_info-type" t].
Inductive sectionBody (file : list Z) (secs : list (sshdr * list Z)) (s : sshdr * list Z) : list (list Z * jvalue) -> Prop :=
| SBNull : z_type (fst s) = 0 -> sectionBody file secs s []
| SBNoBits : z_type (fst s) = 8 -> z_size (fst s) < 2 ^ 62 -> sectionBody file secs s []
| SBSyms syms str xs : z_type (fst s) = 2 \/ z_type (fst s) = 11 -> sectionData file s (flat_map encodeSym syms) -> linkedStrings file secs (z_link (fst s)) str ->
    Forall (wfSym str) syms -> Forall2 symDoc syms xs -> sectionBody file secs s [(lit "symbols", XArr xs)]
| SBRela rs : z_type (fst s) = 4 -> sectionData file s (flat_map relaBytes rs) -> Forall relaOk rs -> sectionBody file secs s [(lit "reloca", XArr (map relaDoc rs))]
| SBOther data : ~ In (z_type (fst s)) [0; 2; 4; 8; 11] -> sectionData file s data -> sectionBody file secs s [].
(** sections whose contents are text: shown up to the first zero byte *)
Definition textSections : list (list Z) := [lit ".gnu_debugaltlink"; lit ".gnu_debuglink"; lit ".comment"].
Inductive sectionText (file : list Z) (s : sshdr * list Z) : list (list Z * jvalue) -> Prop :=
| STNone : ~ In (snd s) textSections -> sectionText file s []
| STText data t rest x : In (snd s) textSections -> sectionData file s data -> data = t ++ 0 :: rest -> Forall (fun c => c <> 0) t -> zlen t < 1024 -> plainText t x ->
    sectionText file s [(lit "content", XStr x)].
Definition sectionDoc (file : list Z) (secs : list (sshdr * list Z)) (s : sshdr * list Z) (x : jvalue) : Prop :=
  let h := fst s in
  exists nm flags ty body text,
    plainText (snd s) nm /\ (forall r, snd s <> lit ".zdebug_" ++ r) /\ z_flags h < 0x800 /\ flagsShown stdFlags (z_flags h) flags /\
    ((exists t, called stdSecTypes (z_type h) t /\ ty = XStr t) \/ (11 < z_type h /\ ty = XNum (z_type h))) /\
    sectionBody file secs s body /\ sectionText file s text /\
    x = XObj ([num "size" (z_size h); num "uncompressedSize" (if z_type h =? 0 then 0 else z_size h); (lit "name", XStr nm); (lit "flags", flags);
               num "address" (z_addr h); num "offset" (z_offset h); num "link" (z_link h); num "info" (z_info h); (lit "type", ty)] ++ body ++ text).

(** ** Segments *)
Definition segTypeShown (t : Z) (s : list Z) : Prop := called stdSegTypes t s \/ (~ In t (map fst stdSegTypes) /\ s = lit "invalid program header type").
(** a string of the dynamic string table: its address is in a segment that is loaded from the file *)
Definition dynString (file : list Z) (hs : list sphdr) (strtab off : Z) (s : list Z) : Prop :=
  exists g, In g hs /\ y_type g = 1 /\ y_vaddr g <= strtab < y_vaddr g + y_memsz g /\ 0 < y_offset g + (strtab - y_vaddr g) + off /\ textAt file (y_offset g + (strtab - y_vaddr g) + off) s.
Definition dynKeys : list (Z * string) := [(1, "lib"); (15, "rpath"); (14, "soname"); (29, "runpath")]%string.
Definition dynDoc (file : list Z) (hs : list sphdr) (strtab : Z) (e : Z * Z) (x : jvalue) : Prop :=
  exists tag str, ((exists t, called stdDynTags (fst e) t /\ tag = XStr t) \/ (In (fst e) plainTags /\ tag = XNum (fst e))) /\
    ((~ In (fst e) (map fst dynKeys) /\ str = []) \/ (exists k s t, called dynKeys (fst e) k /\ dynString file hs strtab (snd e) s /\ plainText s t /\ str = [(k, XStr t)])) /\
    x = XObj ([(lit "tag", tag); num "word" (snd e)] ++ str).
(** the entries of PT_DYNAMIC; they have a DT_STRTAB *)
Inductive segBody (file : list Z) (hs : list sphdr) (h : sphdr) : list (list Z * jvalue) -> Prop :=
| GBOther : y_type h <> 2 -> segBody file hs h []
| GBDyn dyns strtab xs : y_type h = 2 -> fileAt file (y_offset h) (flat_map dynBytes dyns) -> y_offset h <= zlen file -> y_filesz h = 16 * zlen dyns -> Forall dynOk dyns ->
    dynHas dyns 5 strtab -> (exists g, In g hs /\ y_type g = 1 /\ y_vaddr g <= strtab < y_vaddr g + y_memsz g) ->
    Forall2 (dynDoc file hs strtab) dyns xs -> segBody file hs h [(lit "dynamic", XArr xs)]
| GBEmpty : y_type h = 2 -> y_filesz h = 0 -> y_offset h <= zlen file -> segBody file hs h [(lit "dynamic", XArr [])].
Definition segDoc (file : list Z) (hs : list sphdr) (h : sphdr) (x : jvalue) : Prop :=
  exists ty flags body, segTypeShown (y_type h) ty /\ flagsShown stdSegFlags (y_flags h) flags /\ segBody file hs h body /\
  x = XObj ([num "offset" (y_offset h); num "vaddr" (y_vaddr h); num "paddr" (y_paddr h); num "filesz" (y_filesz h); num "memsz" (y_memsz h); (lit "type", XStr ty);
             (lit "flags", flags); num "alignment" (y_align h)] ++ body).
(** all segments: for each type that occurs, in the order of the types, its segments in the order of their addresses *)
Definition segmentsDoc (file : list Z) (hs : list sphdr) (x : jvalue) : Prop :=
  exists types ms, StronglySorted Z.lt types /\ (forall t, In t types <-> exists h, In h hs /\ y_type h = t) /\ x = XObj ms /\
  Forall2 (fun t m => segTypeShown t (fst m) /\
    exists l xs, Permutation l (filter (fun h => y_type h =? t) hs) /\ StronglySorted (fun a b => y_vaddr a <= y_vaddr b) l /\ Forall2 (segDoc file hs) l xs /\ snd m = XArr xs) types ms.
(** program headers in range; the segments that are loaded do not overlap and are not empty *)
Definition phdrFull (h : sphdr) : Prop := phdrOk h /\ 0 <= y_flags h < 2 ^ 32 /\ 0 <= y_paddr h < 2 ^ 64 /\ 0 <= y_align h < 2 ^ 64.
Definition loadsApart (hs : list sphdr) : Prop :=
  (forall a, In a hs -> y_type a = 1 -> 0 < y_memsz a /\ y_vaddr a + y_memsz a <= 2 ^ 64) /\
  ForallOrdPairs (fun a b => y_type a = 1 -> y_type b = 1 -> y_vaddr a + y_memsz a <= y_vaddr b \/ y_vaddr b + y_memsz b <= y_vaddr a) hs.

(** ** Notes *)
(** the structures of a core file as x86-64 lays them out *)
Record procStatus : Type := mkPS { ps_signo : Z; ps_code : Z; ps_errno : Z; ps_cursig : Z; ps_pend : Z; ps_hold : Z; ps_pid : Z; ps_ppid : Z; ps_pgrp : Z; ps_sid : Z;
  ps_utime : Z * Z; ps_stime : Z * Z; ps_cutime : Z * Z; ps_cstime : Z * Z; ps_regs : list Z; ps_fpvalid : Z }.
Definition i32 (n : Z) : list Z := leBytes 4 (n mod 2 ^ 32).
Definition i64 (n : Z) : list Z := leBytes 8 (n mod 2 ^ 64).
Definition tvBytes (t : Z * Z) : list Z := i64 (fst t) ++ i64 (snd t).
Definition statusBytes (p : procStatus) (pad1 pad2 : list Z) : list Z :=
  i32 (ps_signo p) ++ i32 (ps_code p) ++ i32 (ps_errno p) ++ leBytes 2 (ps_cursig p mod 2 ^ 16) ++ pad1 ++ leBytes 8 (ps_pend p) ++ leBytes 8 (ps_hold p) ++
  i32 (ps_pid p) ++ i32 (ps_ppid p) ++ i32 (ps_pgrp p) ++ i32 (ps_sid p) ++ tvBytes (ps_utime p) ++ tvBytes (ps_stime p) ++ tvBytes (ps_cutime p) ++ tvBytes (ps_cstime p) ++
  ps_regs p ++ i32 (ps_fpvalid p) ++ pad2.
Definition sint (w n : Z) : Prop := - 2 ^ (w - 1) <= n < 2 ^ (w - 1).
Definition statusOk (p : procStatus) : Prop :=
  sint 32 (ps_signo p) /\ sint 32 (ps_code p) /\ sint 32 (ps_errno p) /\ sint 16 (ps_cursig p) /\ 0 <= ps_pend p < 2 ^ 64 /\ 0 <= ps_hold p < 2 ^ 64 /\
  sint 32 (ps_pid p) /\ sint 32 (ps_ppid p) /\ sint 32 (ps_pgrp p) /\ sint 32 (ps_sid p) /\
  sint 64 (fst (ps_utime p)) /\ sint 64 (snd (ps_utime p)) /\ sint 64 (fst (ps_stime p)) /\ sint 64 (snd (ps_stime p)) /\
  sint 64 (fst (ps_cutime p)) /\ sint 64 (snd (ps_cutime p)) /\ sint 64 (fst (ps_cstime p)) /\ sint 64 (snd (ps_cstime p)) /\
  zlen (ps_regs p) = 216 /\ sint 32 (ps_fpvalid p).
Definition tvDoc (t : Z * Z) : jvalue := XObj [num "tv_sec" (fst t); num "tv_usec" (snd t)].
(** everything but the registers: [r] is some number that is not theirs *)
Definition statusDoc (r : Z) (p : procStatus) : jvalue :=
  XObj [(lit "pr_info", XObj [num "si_signo" (ps_signo p); num "si_code" (ps_code p); num "si_errno" (ps_errno p)]); num "pr_cursig" (ps_cursig p);
        num "pr_sigpend" (ps_pend p); num "pr_sighold" (ps_hold p); num "pr_pid" (ps_pid p); num "pr_ppid" (ps_ppid p); num "pr_pgrp" (ps_pgrp p); num "pr_sid" (ps_sid p);
        (lit "pr_utime", tvDoc (ps_utime p)); (lit "pr_stime", tvDoc (ps_stime p)); (lit "pr_cutime", tvDoc (ps_cutime p)); (lit "pr_cstime", tvDoc (ps_cstime p));
        num "pr_reg" r; num "pr_fpvalid" (ps_fpvalid p)].
Record procInfo : Type := mkPI { pi_state : Z; pi_sname : Z; pi_zomb : Z; pi_nice : Z; pi_flag : Z; pi_uid : Z; pi_gid : Z; pi_pid : Z; pi_ppid : Z; pi_pgrp : Z; pi_sid : Z;
  pi_fname : list Z; pi_args : list Z }.
(** a text in an array of [n] bytes: with a zero byte after it if there is room *)
Definition textField (n : Z) (t b : list Z) : Prop := zlen b = n /\ Forall (fun c => 0 < c < 256) t /\ (b = t \/ exists r, b = t ++ 0 :: r).
Definition infoBytes (p : procInfo) (pad fname args : list Z) : list Z :=
  [pi_state p mod 0x100; pi_sname p; pi_zomb p; pi_nice p mod 0x100] ++ pad ++ leBytes 8 (pi_flag p) ++ leBytes 4 (pi_uid p) ++ leBytes 4 (pi_gid p) ++
  i32 (pi_pid p) ++ i32 (pi_ppid p) ++ i32 (pi_pgrp p) ++ i32 (pi_sid p) ++ fname ++ args.
(** the flags fit an int (their upper half is not shown) *)
Definition infoOk (p : procInfo) : Prop :=
  sint 8 (pi_state p) /\ 0 < pi_sname p < 128 /\ 0 <= pi_zomb p < 0x100 /\ sint 8 (pi_nice p) /\ 0 <= pi_flag p < 2 ^ 31 /\ 0 <= pi_uid p < 2 ^ 32 /\ 0 <= pi_gid p < 2 ^ 32 /\
  sint 32 (pi_pid p) /\ sint 32 (pi_ppid p) /\ sint 32 (pi_pgrp p) /\ sint 32 (pi_sid p).
Definition infoDoc (p : procInfo) (x : jvalue) : Prop :=
  exists sn fn ar, plainText [pi_sname p] sn /\ plainText (pi_fname p) fn /\ plainText (pi_args p) ar /\
  x = XObj [num "pr_state" (pi_state p); (lit "pr_sname", XStr sn); (lit "pr_zomb", XBool (negb (pi_zomb p =? 0))); num "pr_nice" (pi_nice p); num "pr_flag" (pi_flag p);
            num "pr_uid" (pi_uid p); num "pr_gid" (pi_gid p); num "pr_pid" (pi_pid p); num "pr_ppid" (pi_ppid p); num "pr_pgrp" (pi_pgrp p); num "pr_sid" (pi_sid p);
            (lit "pr_fname", XStr fn); (lit "pr_args", XStr ar)].
Definition auxDoc (e : Z * Z) (x : jvalue) : Prop :=
  exists ty, ((exists t, called stdAux (fst e) t /\ ty = XStr t) \/ (51 < fst e /\ ty = XNum (fst e))) /\ x = XObj [(lit "a_type", ty); num "a_val" (snd e)].
(** two lower-case hexadecimal digits for each byte *)
Definition hexOf (d : Z) (c : Z) : Prop := (0 <= d < 10 /\ c = 48 + d) \/ (10 <= d < 16 /\ c = 97 + (d - 10)).
Inductive hexBytes : list Z -> list Z -> Prop :=
| HBNil : hexBytes [] []
| HBCons hi lo c1 c2 l t : hexOf hi c1 -> hexOf lo c2 -> hexBytes l t -> hexBytes ((16 * hi + lo) :: l) (c1 :: c2 :: t).
(** what is shown of a note's descriptor; [r] as in [statusDoc] *)
Inductive noteBody (r : Z) (n : snote) : list (list Z * jvalue) -> Prop :=
| NBStatus p pad1 pad2 : snName n = lit "CORE" -> snType n = 1 -> zlen pad1 = 2 -> zlen pad2 = 4 -> statusOk p -> snDesc n = statusBytes p pad1 pad2 ->
    noteBody r n [(lit "prstatus", statusDoc r p)]
| NBInfo p pad fname args x : snName n = lit "CORE" -> snType n = 3 -> zlen pad = 4 -> infoOk p -> textField 16 (pi_fname p) fname -> textField 80 (pi_args p) args ->
    snDesc n = infoBytes p pad fname args -> infoDoc p x -> noteBody r n [(lit "prpsinfo", x)]
| NBAux es xs : snName n = lit "CORE" -> snType n = 6 -> snDesc n = flat_map dynBytes es -> Forall dynOk es -> Forall2 auxDoc es xs -> noteBody r n [(lit "auxv", XArr xs)]
| NBAbi os a b c rest : snName n = lit "GNU" -> snType n = 1 -> snDesc n = leBytes 4 os ++ leBytes 4 a ++ leBytes 4 b ++ leBytes 4 c ++ rest ->
    u32r os -> u32r a -> u32r b -> u32r c ->
    noteBody r n [num "abi-executable-marker" os; (lit "kernel-version", XArr [XNum a; XNum b; XNum c])]
| NBBuildId t : snName n = lit "GNU" -> snType n = 3 -> hexBytes (snDesc n) t -> noteBody r n [(lit "buildid", XStr t)]
| NBOther : ~ (snName n = lit "CORE" /\ In (snType n) [1; 3; 6]) -> ~ (snName n = lit "GNU" /\ In (snType n) [1; 3]) -> noteBody r n [].
Definition noteDoc (r : Z) (n : snote) (x : jvalue) : Prop :=
  exists nm body, plainText (snName n) nm /\ noteBody r n body /\ x = XObj ((lit "name", XStr nm) :: num "type" (snType n) :: body).

(** ** The image *)
(** the files whose versions are needed, each once, with the numbers of its versions *)
Definition filesDoc (needs : list (list Z * list (Z * list Z))) (x : jvalue) : Prop :=
  exists ms, x = XObj [(lit "files", XObj ms)] /\ exists names, NoDup names /\ (forall f, In f names <-> In f (map fst needs)) /\
  Forall2 (fun f m => plainText f (fst m) /\ snd m = XArr (map XNum (flat_map (fun n => map fst (snd n)) (filter (fun n => if list_eq_dec Z.eq_dec (fst n) f then true else false) needs)))) names ms.
(** the program interpreter, if there is one *)
Definition interpDoc (file : list Z) (hs : list sphdr) (ms : list (list Z * jvalue)) : Prop :=
  ((forall h, In h hs -> y_type h <> 3) /\ ms = []) \/
  (exists h s t, filter (fun h => y_type h =? 3) hs = [h] /\ 0 < y_offset h /\ textAt file (y_offset h) s /\ s <> [] /\ plainText s t /\ ms = [(lit "interpreter", XStr t)]).
(** the notes in the note segments *)
Definition notesAt (file : list Z) (h : sphdr) (ns : list snote) : Prop :=
  ns <> [] /\ wfNotes ns /\ fileAt file (y_offset h) (flat_map encodeNote ns) /\ y_filesz h = zlen (flat_map encodeNote ns).
(** The whole image: [notes] gives the notes of each note segment, [r] is as in [statusDoc]. *)
Definition elfDoc (file : list Z) (r : Z) (h : sehdr) (secs : list (sshdr * list Z)) (hs : list sphdr) (notes : sphdr -> list snote) (needs : list (list Z * list (Z * list Z))) (x : jvalue) : Prop :=
  exists ty a abi sx gx l nx fx ip,
    called stdTypes (x_type h) ty /\ znth 7 (x_ident h) = Some a /\ called stdAbis a abi /\ Forall2 (sectionDoc file secs) secs sx /\ segmentsDoc file hs gx /\
    Permutation l (filter (fun h => y_type h =? 4) hs) /\ StronglySorted (fun a b => y_vaddr a <= y_vaddr b) l /\ Forall2 (noteDoc r) (flat_map notes l) nx /\
    filesDoc needs fx /\ interpDoc file hs ip /\
    x = XObj ([(lit "type", XStr ty); num "entry" (x_entry h); (lit "abi", XStr abi); (lit "sections", XArr sx); (lit "segments", gx); (lit "notes", XArr nx); (lit "versioninfo", fx)] ++ ip).
