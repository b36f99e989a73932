(** Specification of what canal reports about a process. *)
From Coq Require Import Ascii String Sorted.
From Verif Require Import Base DwarfReaderProofs ArgsSpec FrameTextSpec Canal CanalSpec CanalMain.
Open Scope Z_scope.

(** The symbols searched for: those of the objects that can be opened whose names match one of the patterns. *)
Definition searched (pats : list (list Z)) (objs : list cobj) (y : lsym) : Prop :=
  exists o dyn dbg p, In o objs /\ coTables o = Some (dyn, dbg) /\ In (lsValue y, lsSize y, lsName y) (dyn ++ dbg) /\ lsBase y = coBase o /\ In p pats /\ matches p (lsName y).
(** No zero bytes in names and patterns. *)
Definition cleanNames (pats : list (list Z)) (objs : list cobj) : Prop :=
  Forall (fun p => Forall (fun c => c <> 0) p) pats /\
  forall o dyn dbg v z n, In o objs -> coTables o = Some (dyn, dbg) -> In (v, z, n) (dyn ++ dbg) -> Forall (fun c => c <> 0) n.
(** [w] points into [y]. *)
Definition pointsInto (y : lsym) (w : Z) : bool := (lsValue y + lsBase y <=? w) && (w <? lsValue y + lsBase y + lsSize y).
(** The words of [ws] bytes, at most [n], from [a] on, up to the first that cannot be read. *)
Fixpoint wordsAt (mem : memory) (ws a : Z) (n : nat) : list Z :=
  match n with
  | O => []
  | S k => match memread mem a (Z.to_nat ws) with Some bs => leValue bs :: wordsAt mem ws (a + ws) k | None => [] end
  end.
(** The words of the mappings canal looks at, in order. *)
Definition wordsIn (mem : memory) (ws : Z) (g : cseg) : list Z := wordsAt mem ws (sgStart g) (Z.to_nat ((sgFileEnd g - sgStart g) / ws)).
Definition allWords (mem : memory) (ws : Z) (segs : list cseg) : list Z := flat_map (wordsIn mem ws) (filter (fun g => negb (sgIo g)) segs).
(** Mappings of whole words that end a megabyte before the end of the address space. *)
Definition segOk (ws : Z) (g : cseg) : Prop := 0 <= sgStart g <= sgFileEnd g /\ sgFileEnd g + 131072 * ws < W64 /\ (sgFileEnd g - sgStart g) mod ws = 0.
(** Two of the symbols are the same or do not overlap, and none of size 0 is at the end of another. *)
Definition apart (ys : lsym -> Prop) : Prop :=
  forall y z, ys y -> ys z -> y = z \/
    ((lsValue y + lsBase y + lsSize y <= lsValue z + lsBase z \/ lsValue z + lsBase z + lsSize z <= lsValue y + lsBase y) /\
     lsValue y + lsBase y + lsSize y <> lsValue z + lsBase z + lsSize z).
(** No word that points into a symbol is the end of one. *)
Definition noEnds (ys : lsym -> Prop) (ws : list Z) : Prop :=
  forall w y z, In w ws -> ys y -> ys z -> pointsInto y w = true -> lsValue z + lsBase z + lsSize z <> w.
(** Symbols inside the address space. *)
Definition inSpace (ys : lsym -> Prop) : Prop := forall y, ys y -> 0 <= lsValue y /\ 0 <= lsBase y /\ 0 <= lsSize y /\ lsValue y + lsBase y + lsSize y < W64.

(** A report: one line for each symbol that has references, with their number and the object's name; larger numbers first. *)
Inductive ReportLine (nameOf : Z -> list Z) : lsym * Z -> list Z -> Prop :=
| RLine y n d : decimal d n -> ReportLine nameOf (y, n) (d ++ lit " " ++ lsName y ++ lit " ( from " ++ nameOf (lsBase y) ++ lit ")" ++ [10]).
(** The lines of -s for the words at [loc], [loc + ws], ...: the symbol, the address of the word, the symbol's size and the offset in it. *)
Inductive Refs (ys : lsym -> Prop) (ws : Z) : Z -> list Z -> list Z -> Prop :=
| RfNil loc : Refs ys ws loc [] []
| RfNo loc w r t : (forall y, ys y -> pointsInto y w = false) -> Refs ys ws (loc + ws) r t -> Refs ys ws loc (w :: r) t
| RfYes loc w r t y h z d : ys y -> pointsInto y w = true -> canonical 16 h loc -> decimal z (lsSize y) -> decimal d (w - (lsValue y + lsBase y)) -> Refs ys ws (loc + ws) r t ->
    Refs ys ws loc (w :: r) (lsName y ++ lit " 0x" ++ h ++ lit " ... size=" ++ z ++ lit ", diff=" ++ d ++ [10] ++ t).
(** The lines of a search for address ranges. *)
Inductive RangeRefs (ranges : list (Z * Z)) (ws : Z) : Z -> list Z -> list Z -> Prop :=
| RgNil loc : RangeRefs ranges ws loc [] []
| RgWord loc w r t h : canonical 16 h loc -> RangeRefs ranges ws (loc + ws) r t ->
    RangeRefs ranges ws loc (w :: r) (concat (repeat (lit "0x" ++ h ++ [10]) (length (filter (fun g => (fst g <=? w) && (w <? snd g)) ranges))) ++ t).
