(** Specification of what a core file says about a dead process's memory and threads, without
    reference to pstack's functions. *)
From Coq Require Import Sorting.Sorted.
From Verif Require Import Base CfiSpec ElfObj ElfObjProofs Core.

(** ** Well-formed images *)
(** A loadable segment: not empty, within the address space, p_filesz <= p_memsz (gABI), and an
    off_t can express its file range. *)
Definition loadOk (h : phdr) : Prop :=
  segOk h /\ 0 <= p_filesz h <= p_memsz h /\ 0 <= p_offset h /\ p_offset h + p_filesz h < 2 ^ 63.
(** Segments in address order, none overlapping another. *)
Definition loadsOk (hs : list phdr) : Prop :=
  Forall loadOk hs /\ StronglySorted (fun x y => p_vaddr x + p_memsz x <= p_vaddr y) hs.
(** The file has every byte its segments speak of. *)
Definition complete (o : image) : Prop :=
  Forall (fun h => p_offset h + p_filesz h <= zlen (imFile o)) (imLoads o).
(** The end of the last segment *)
Definition imageEnd (o : image) : Z := fold_right (fun h m => Z.max (p_vaddr h + p_memsz h) m) 0 (imLoads o).
(** Loaded objects: each well-formed one ends before the next is loaded. *)
Definition objOk (e : Z * option image) : Prop :=
  0 <= fst e /\ forall o, snd e = Some o -> loadsOk (imLoads o) /\ imLoads o <> [] /\ fst e + imageEnd o < 2 ^ 64.
Definition before (x y : Z * option image) : Prop :=
  fst x < fst y /\ forall o, snd x = Some o -> fst x + imageEnd o <= fst y.
Definition objsOk (objs : objmap) : Prop := Forall objOk objs /\ StronglySorted before objs.

(** ** What is in memory *)
(** segment [h] of [o], loaded at [k], maps address [x] / holds its byte in the file *)
Definition maps (k : Z) (h : phdr) (x : Z) : Prop := covers h (x - k).
Definition inFile (k : Z) (h : phdr) (x : Z) : Prop := p_vaddr h <= x - k < p_vaddr h + p_filesz h.
Definition fileByte (k : Z) (o : image) (h : phdr) (x b : Z) : Prop :=
  inFile k h x /\ znth (p_offset h + (x - k - p_vaddr h)) (imFile o) = Some b.

Section Memory.
Context (core : option image) (objs : objmap).
Definition inCore (x : Z) : Prop := exists c h, core = Some c /\ In h (imLoads c) /\ maps 0 h x.
Definition dumped (x : Z) : Prop := exists c h, core = Some c /\ In h (imLoads c) /\ inFile 0 h x.
Definition dumpedByte (x b : Z) : Prop := exists c h, core = Some c /\ In h (imLoads c) /\ fileByte 0 c h x b.
Definition inObject (x : Z) : Prop := exists k o h, In (k, Some o) objs /\ In h (imLoads o) /\ maps k h x.
Definition inObjectFile (x : Z) : Prop := exists k o h, In (k, Some o) objs /\ In h (imLoads o) /\ inFile k h x.
Definition objectByte (x b : Z) : Prop := exists k o h, In (k, Some o) objs /\ In h (imLoads o) /\ fileByte k o h x b.
(** the address belongs to the process *)
Definition inMem (x : Z) : Prop := inCore x \/ inObject x.
(** Address [x] holds [b]: the dumped byte; for memory not dumped, the byte of the file mapped there; else,
    if the address belongs to the process, zero. *)
Inductive holds (x b : Z) : Prop :=
| HDump : dumpedByte x b -> holds x b
| HObj : ~ dumped x -> objectByte x b -> holds x b
| HZero : ~ dumped x -> ~ inObjectFile x -> inMem x -> b = 0 -> holds x b.
(** Some source for the byte, whatever the preference among sources. *)
Definition sourced (x b : Z) : Prop := dumpedByte x b \/ objectByte x b \/ (inMem x /\ b = 0).

(** Layouts in which an address range has one source at a time:
    the core dumps, of each segment of a loaded object, everything from the start up to some point; *)
Definition prefixDumped : Prop := forall k o h x y, In (k, Some o) objs -> In h (imLoads o) ->
  maps k h x -> maps k h y -> x < y -> dumped y -> dumped x.
(** in what the core leaves out of one of its segments, mapped file contents come first, from one segment; *)
Definition prefixMapped : Prop := forall c g x y k o h, core = Some c -> In g (imLoads c) ->
  maps 0 g x -> ~ inFile 0 g x -> maps 0 g y -> x < y -> In (k, Some o) objs -> In h (imLoads o) -> inFile k h y -> inFile k h x.
(** the byte at an object's load address, if the object maps it, is in the core. *)
Definition basesDumped : Prop := forall k o h, In (k, Some o) objs -> In h (imLoads o) -> maps k h k -> dumped k.
End Memory.

(** ** Threads *)
(** The notes of a core: some before the first NT_PRSTATUS, then for each thread its NT_PRSTATUS and
    the notes up to the next. *)
Record thread : Type := mkTh { thStatus : ndesc; thNotes : list ndesc }.
Definition threadNotes (t : thread) : list ndesc := thStatus t :: thNotes t.
Definition isStatus (n : ndesc) : Prop := ndName n = [67; 79; 82; 69] /\ ndType n = 1.
Definition wfThread (t : thread) : Prop :=
  isStatus (thStatus t) /\ zlen (ndData (thStatus t)) >= 336 /\ Forall (fun n => ~ isStatus n) (thNotes t).
Definition coreNotes (pre : list ndesc) (ts : list thread) : list ndesc := pre ++ flat_map threadNotes ts.
(** struct prstatus of x86-64: pr_pid is the int at offset 32, pr_reg the 216 bytes from 112 on. *)
Definition pidIs (d : list Z) (p : Z) : Prop := exists u v, d = u ++ leBytes 4 p ++ v /\ zlen u = 32 /\ 0 <= p < 2 ^ 31.
Definition regsAre (d r : list Z) : Prop := exists u v, d = u ++ r ++ v /\ zlen u = 112 /\ zlen r = 216.
(** The first note of a thread that has a given type. *)
Inductive firstOfType (code : Z) : list ndesc -> ndesc -> Prop :=
| FHere n r : ndType n = code -> firstOfType code (n :: r) n
| FLater n r x : ndType n <> code -> firstOfType code r x -> firstOfType code (n :: r) x.
