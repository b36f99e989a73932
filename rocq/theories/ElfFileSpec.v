(** Specification of an ELF64 image (System V gABI chapters 4 and 5, LSB symbol versioning), of zlib streams, and of a reader that holds an
    image, without reference to pstack's code for them. *)
From Verif Require Import Base CfiSpec Reader ElfFile.
(* from ElfFile only [zret], the names of inflate()'s results *)

(** The bytes [bs] are in [file] at [off]. *)
Definition fileAt (file : list Z) (off : Z) (bs : list Z) : Prop := 0 <= off /\ ztake (zlen bs) (zdrop off file) = bs.
(** The reader [r] holds [file]: read from disk, or mapped into the memory [m] at some address. *)
Definition holdsImage (m : memory) (r : reader) (file : list Z) : Prop :=
  zlen file < 2 ^ 62 /\
  (r = RFile file \/
   exists base, r = RMem base (zlen file) /\ 0 <= base /\ base + zlen file < 2 ^ 64 /\ forall k, 0 <= k < zlen file -> m (base + k) = znth k file).
(** NUL-terminated text *)
Definition textAt (file : list Z) (off : Z) (t : list Z) : Prop := fileAt file off (t ++ [0]) /\ Forall (fun c => c <> 0) t.

(** ** The ELF header *)
Record sehdr : Type := mkSEh { x_ident : list Z; x_type : Z; x_machine : Z; x_version : Z; x_entry : Z; x_phoff : Z; x_shoff : Z; x_flags : Z;
  x_ehsize : Z; x_phentsize : Z; x_phnum : Z; x_shentsize : Z; x_shnum : Z; x_shstrndx : Z }.
Definition ehdrBytes (h : sehdr) : list Z :=
  x_ident h ++ leBytes 2 (x_type h) ++ leBytes 2 (x_machine h) ++ leBytes 4 (x_version h) ++ leBytes 8 (x_entry h) ++ leBytes 8 (x_phoff h) ++
  leBytes 8 (x_shoff h) ++ leBytes 4 (x_flags h) ++ leBytes 2 (x_ehsize h) ++ leBytes 2 (x_phentsize h) ++ leBytes 2 (x_phnum h) ++
  leBytes 2 (x_shentsize h) ++ leBytes 2 (x_shnum h) ++ leBytes 2 (x_shstrndx h).
Definition ehdrOk (h : sehdr) : Prop :=
  zlen (x_ident h) = 16 /\ 0 <= x_type h < 2 ^ 16 /\ 0 <= x_entry h < 2 ^ 64 /\ 0 <= x_phoff h < 2 ^ 64 /\ 0 <= x_shoff h < 2 ^ 64 /\ 0 <= x_phnum h < 2 ^ 16 /\ 0 <= x_shentsize h < 2 ^ 16 /\
  0 <= x_shnum h < 2 ^ 16 /\ 0 <= x_shstrndx h < 2 ^ 16.
(** e_ident: 0x7f E L F, 64-bit, little-endian, version 1 *)
Definition identElf64 (i : list Z) : Prop := exists rest, i = [127; 69; 76; 70; 2; 1; 1] ++ rest.

(** ** Program headers *)
Record sphdr : Type := mkSPh { y_type : Z; y_flags : Z; y_offset : Z; y_vaddr : Z; y_paddr : Z; y_filesz : Z; y_memsz : Z; y_align : Z }.
Definition phdrBytes (h : sphdr) : list Z :=
  leBytes 4 (y_type h) ++ leBytes 4 (y_flags h) ++ leBytes 8 (y_offset h) ++ leBytes 8 (y_vaddr h) ++ leBytes 8 (y_paddr h) ++
  leBytes 8 (y_filesz h) ++ leBytes 8 (y_memsz h) ++ leBytes 8 (y_align h).
Definition phdrOk (h : sphdr) : Prop :=
  0 <= y_type h < 2 ^ 32 /\ 0 <= y_offset h < 2 ^ 64 /\ 0 <= y_vaddr h < 2 ^ 64 /\ 0 <= y_filesz h < 2 ^ 64 /\ 0 <= y_memsz h < 2 ^ 64.

(** ** Section headers *)
Record sshdr : Type := mkSSh { z_name : Z; z_type : Z; z_flags : Z; z_addr : Z; z_offset : Z; z_size : Z; z_link : Z; z_info : Z; z_align : Z; z_entsize : Z }.
Definition shdrBytes (h : sshdr) : list Z :=
  leBytes 4 (z_name h) ++ leBytes 4 (z_type h) ++ leBytes 8 (z_flags h) ++ leBytes 8 (z_addr h) ++ leBytes 8 (z_offset h) ++ leBytes 8 (z_size h) ++
  leBytes 4 (z_link h) ++ leBytes 4 (z_info h) ++ leBytes 8 (z_align h) ++ leBytes 8 (z_entsize h).
Definition shdrOk (h : sshdr) : Prop :=
  0 <= z_name h < 2 ^ 32 /\ 0 <= z_type h < 2 ^ 32 /\ 0 <= z_flags h < 2 ^ 64 /\ 0 <= z_addr h < 2 ^ 64 /\ 0 <= z_offset h < 2 ^ 64 /\
  0 <= z_size h < 2 ^ 64 /\ 0 <= z_link h < 2 ^ 32 /\ 0 <= z_info h < 2 ^ 32.
(** Section numbers of 0xff00 and more do not fit the ELF header: then e_shnum is 0 and the first header's sh_size is the number; e_shstrndx is
    0xffff and its sh_link the index. *)
Definition countField (n : Z) (first : sshdr) (field : Z) : Prop :=
  (0 < n < 65280 /\ field = n) \/ (0 < n /\ field = 0 /\ z_size first = n).
Definition strndxField (k : Z) (first : sshdr) (field : Z) : Prop :=
  (0 < k < 65280 /\ field = k) \/ (0 < k /\ field = 65535 /\ z_link first = k).
(** A file with this section header table and these section names *)
Record hasSections (file : list Z) (h : sehdr) (first : sshdr) (secs : list (sshdr * list Z)) (stri : Z) (str : sshdr) : Prop := {
  hs_header : fileAt file 0 (ehdrBytes h);
  hs_first : exists n r, secs = (first, n) :: r;
  hs_entsize : 64 <= x_shentsize h;
  hs_table : forall i s, znth i secs = Some s -> fileAt file (x_shoff h + i * x_shentsize h) (shdrBytes (fst s));
  hs_ok : Forall (fun s => shdrOk (fst s)) secs;
  hs_count : countField (zlen secs) first (x_shnum h);
  hs_strndx : strndxField stri first (x_shstrndx h);
  hs_str : exists n, znth stri secs = Some (str, n);
  (* the string table: not compressed, in the file *)
  hs_strok : z_type str <> 0 /\ z_flags str = 0 /\ 0 < z_offset str /\ z_offset str + z_size str <= zlen file;
  hs_names : Forall (fun s => textAt file (z_offset str + z_name (fst s)) (snd s)) secs }.

(** ** zlib: what inflate() (zlib.h) does with a valid stream [c] that decompresses to [d].  [st i o z] says [z] is a state in which [i] bytes of
    the stream were consumed and [o] bytes produced. *)
Record zcontract {zst : Type} (step : zst -> list Z -> Z -> bool -> zret * Z * list Z * zst) (c d : list Z) (st : Z -> Z -> zst -> Prop) : Prop := {
  (* whatever is given, only bytes of [d] come out, in order, and no more than fit; no byte after the end of the stream is used *)
  zc_out : forall i o z inp avail fin ret used out z', st i o z -> 0 <= avail ->
    ztake (zlen c - i) inp = ztake (zlen inp) (zdrop i c) -> step z inp avail fin = (ret, used, out, z') ->
    0 <= used <= zlen inp /\ i + used <= zlen c /\ zlen out <= avail /\ o + zlen out <= zlen d /\ out = ztake (zlen out) (zdrop o d) /\
    (ret = ZOk -> st (i + used) (o + zlen out) z') /\
    (* the end is only reported when all was consumed and all was written *)
    (ret = ZStreamEnd -> i + used = zlen c /\ o + zlen out = zlen d) /\
    (* success means progress; with Z_FINISH only the end is success *)
    (ret = ZOk -> fin = false /\ (0 < used \/ 0 < zlen out));
  (* with room for all the output, all input is used, and the end is reported as soon as it is there *)
  zc_end : forall i o z inp avail fin ret used out z', st i o z -> zlen d - o <= avail -> zlen c - i <= zlen inp ->
    ztake (zlen c - i) inp = zdrop i c -> step z inp avail fin = (ret, used, out, z') -> ret = ZStreamEnd;
  zc_more : forall i o z inp avail ret used out z', st i o z -> zlen d - o <= avail -> 0 < zlen inp < zlen c - i ->
    inp = ztake (zlen inp) (zdrop i c) -> step z inp avail false = (ret, used, out, z') -> ret = ZOk /\ used = zlen inp }.

(** ** Symbol versions *)
(** One entry of .gnu.version_r: the file needed and its versions (name, number); of .gnu.version_d: number and names.  [off] is the offset in
    the section [sec] (the bytes of it), [str] the bytes of the string section. *)
Definition vneedBytes (ver cnt file aux next : Z) : list Z := leBytes 2 ver ++ leBytes 2 cnt ++ leBytes 4 file ++ leBytes 4 aux ++ leBytes 4 next.
Definition vauxBytes (hash flags other name next : Z) : list Z := leBytes 4 hash ++ leBytes 2 flags ++ leBytes 2 other ++ leBytes 4 name ++ leBytes 4 next.
Definition vdefBytes (ver flags ndx cnt hash aux next : Z) : list Z :=
  leBytes 2 ver ++ leBytes 2 flags ++ leBytes 2 ndx ++ leBytes 2 cnt ++ leBytes 4 hash ++ leBytes 4 aux ++ leBytes 4 next.
Definition vdauxBytes (name next : Z) : list Z := leBytes 4 name ++ leBytes 4 next.
Definition u32r (x : Z) : Prop := 0 <= x < 2 ^ 32.
Inductive auxAt (sec str : list Z) : Z -> list (Z * list Z) -> Prop :=
| AuxNil off : auxAt sec str off []
| AuxCons off hash flags other name next t r : fileAt sec off (vauxBytes hash flags other name next) -> 0 <= other < 2 ^ 16 -> u32r name -> u32r next ->
    textAt str name t -> auxAt sec str (off + next) r -> auxAt sec str off ((other, t) :: r).
Inductive needAt (sec str : list Z) : Z -> list (list Z * list (Z * list Z)) -> Prop :=
| NeedNil off : needAt sec str off []
| NeedCons off ver file aux next t versions r : fileAt sec off (vneedBytes ver (zlen versions) file aux next) -> zlen versions < 2 ^ 16 -> u32r file -> u32r aux -> u32r next ->
    textAt str file t -> auxAt sec str (off + aux) versions -> needAt sec str (off + next) r -> needAt sec str off ((t, versions) :: r).
(** number, names (the version's own first, then those it inherits from) *)
Inductive namesAt (sec str : list Z) : Z -> list (list Z) -> Prop :=
| NamesNil off : namesAt sec str off []
| NamesCons off name next t r : fileAt sec off (vdauxBytes name next) -> u32r name -> u32r next -> textAt str name t -> namesAt sec str (off + next) r ->
    namesAt sec str off (t :: r).
Inductive defAt (sec str : list Z) : Z -> list (Z * list (list Z)) -> Prop :=
| DefNil off : defAt sec str off []
| DefCons off ver flags ndx hash aux next names r : fileAt sec off (vdefBytes ver flags ndx (zlen names) hash aux next) -> 0 <= ndx < 2 ^ 16 -> zlen names < 2 ^ 16 ->
    u32r aux -> u32r next -> namesAt sec str (off + aux) names -> defAt sec str (off + next) r -> defAt sec str off ((ndx, names) :: r).

(** ** Sections by name *)
(** Section [i] is called [name], has this type, contents and link, is not compressed and is inside the file. *)
Definition sectionIs (file : list Z) (secs : list (sshdr * list Z)) (i : Z) (name : list Z) (type : Z) (data : list Z) (link : Z) : Prop :=
  exists h, znth i secs = Some (h, name) /\ z_type h = type /\ Z.land (z_flags h) 2048 = 0 /\ 0 < z_offset h /\ z_offset h + z_size h <= zlen file /\
    0 <= z_size h /\ data = ztake (z_size h) (zdrop (z_offset h) file) /\ z_link h = link.
(** There is no section of that name, with or without ".dwo" *)
Definition noSection (secs : list (sshdr * list Z)) (name : list Z) : Prop :=
  forall s, In s secs -> snd s <> name /\ snd s <> name ++ [46; 100; 119; 111].
(** .dynamic: tag and value; the first entry with [tag] has [v] *)
Definition dynBytes (e : Z * Z) : list Z := leBytes 8 (fst e) ++ leBytes 8 (snd e).
Definition dynOk (e : Z * Z) : Prop := 0 <= fst e < 2 ^ 64 /\ 0 <= snd e < 2 ^ 64.
Definition dynHas (dyns : list (Z * Z)) (tag v : Z) : Prop := exists pre post, dyns = pre ++ (tag, v) :: post /\ ~ In tag (map fst pre).
(** The versions an image needs and defines: absent, or as DT_VERNEEDNUM (0x6fffffff) and DT_VERDEFNUM (0x6ffffffd) say, in .gnu.version_r
    (SHT_GNU_verneed 0x6ffffffe) and .gnu.version_d (SHT_GNU_verdef 0x6ffffffd), with the names in the sections they are linked to. *)
Definition dotDynamic : list Z := [46; 100; 121; 110; 97; 109; 105; 99].
Definition dotVersion : list Z := [46; 103; 110; 117; 46; 118; 101; 114; 115; 105; 111; 110].
Definition hasDyn (file : list Z) (secs : list (sshdr * list Z)) (tag v : Z) : Prop :=
  exists i dyns link, sectionIs file secs i dotDynamic 6 (flat_map dynBytes dyns) link /\ Forall dynOk dyns /\ dynHas dyns tag v.
Definition linkedStrings (file : list Z) (secs : list (sshdr * list Z)) (i : Z) (str : list Z) : Prop :=
  exists name link, sectionIs file secs i name 3 str link /\ (forall r, name <> [46; 122; 100; 101; 98; 117; 103; 95] ++ r).
Definition hasNeeds (file : list Z) (secs : list (sshdr * list Z)) (needs : list (list Z * list (Z * list Z))) : Prop :=
  (noSection secs (dotVersion ++ [95; 114]) /\ needs = []) \/
  exists i sec link str, sectionIs file secs i (dotVersion ++ [95; 114]) 1879048190 sec link /\ linkedStrings file secs link str /\
    hasDyn file secs 1879048191 (zlen needs) /\ needAt sec str 0 needs.
Definition hasDefs (file : list Z) (secs : list (sshdr * list Z)) (defs : list (Z * list (list Z))) : Prop :=
  (noSection secs (dotVersion ++ [95; 100]) /\ defs = []) \/
  exists i sec link str, sectionIs file secs i (dotVersion ++ [95; 100]) 1879048189 sec link /\ linkedStrings file secs link str /\
    hasDyn file secs 1879048189 (zlen defs) /\ defAt sec str 0 defs.
(** all version numbers with their names *)
Definition neededVersions (needs : list (list Z * list (Z * list Z))) : list (Z * list Z) := flat_map snd needs.
Definition definedVersion (defs : list (Z * list (list Z))) (k : Z) (name : list Z) : Prop := exists r, In (k, name :: r) defs.
