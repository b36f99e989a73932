(** Specification for hdmp: the allocator's structures in memory, and the text that describes them. *)
From Coq Require Import Ascii String.
From Verif Require Import Base MapsSpec CfiSpec ArgsSpec FrameTextSpec.

Definition isWord (v : Z) : Prop := 0 <= v < 2 ^ 64.
Definition words (l : list Z) : list Z := flat_map (leBytes 8) l.
(** An area for [max] return addresses that has recorded [st]: without null entries, and ended by one unless full. *)
Definition recorded (max : Z) (area st : list Z) : Prop :=
  zlen area = max /\ Forall isWord area /\ Forall (fun f => f <> 0) st /\ exists rest, area = st ++ rest /\ (rest = [] \/ exists r, rest = 0 :: r).
(** A block: the address of its descriptor, the pointer and size the program has, and the stack of its allocation (or release). *)
Record hblk : Type := mkHB { hbDesc : Z; hbPtr : Z; hbSize : Z; hbStack : list Z }.
Definition blkOk (b : hblk) : Prop := 0 < hbDesc b /\ isWord (hbDesc b) /\ 16 <= hbPtr b /\ 0 <= hbSize b /\ hbPtr b + hbSize b + 4 <= 2 ^ 64.
(** heap.h's struct memdesc, 64-bit, with room for [max] return addresses (48 + 8 max bytes). *)
Definition descAt (m : memory) (max next : Z) (b : hblk) : Prop :=
  exists prev serial base area, Forall isWord [next; prev; serial; base] /\ recorded max area (hbStack b) /\
    holds m (hbDesc b) (words ([next; prev; serial; hbSize b; hbPtr b - 16; base] ++ area)).
(** The eight bytes after it, which the allocator does not allocate. *)
Definition after (m : memory) (max : Z) (b : hblk) : Prop := exists x, isWord x /\ holds m (hbDesc b + 48 + 8 * max) (leBytes 8 x).
Inductive listAt (m : memory) (max : Z) : Z -> list hblk -> Prop :=
| LaNil : listAt m max 0 []
| LaCons b next r : blkOk b -> descAt m max next b -> listAt m max next r -> listAt m max (hbDesc b) (b :: r).
(** The four bytes before a block (with four bytes of padding between) and after it. *)
Definition guards (m : memory) (b : hblk) (head tail : list Z) : Prop :=
  zlen head = 4 /\ zlen tail = 4 /\ holds m (hbPtr b - 8) head /\ holds m (hbPtr b + hbSize b) tail.

Section Text.
Context (seg : Z -> res (option (Z * Z))) (sym : Z -> Z -> res (option (Z * list Z))) (src : Z -> Z -> res (list (list Z * Z))).
(** files and lines: " in f:1 , g:2" *)
Inductive Sources : list Z -> list (list Z * Z) -> list Z -> Prop :=
| SoNil sep : Sources sep [] []
| SoCons sep f n d r t : decimal d n -> Sources (lit ",") r t -> Sources sep ((f, n) :: r) (lit " " ++ sep ++ lit " " ++ f ++ lit ":" ++ d ++ t).
(** The line of a return address [a], looked up at [ip]. *)
Inductive Line : Z -> Z -> list Z -> Prop :=
| LnUnknown ip a p : seg ip = Ok None -> pointer p a -> Line ip a ([9] ++ p ++ [10])
| LnNoSym ip a p reloc e l s : seg ip = Ok (Some (reloc, e)) -> sym e ((ip - reloc) mod 2 ^ 64) = Ok None -> src e ((ip - reloc) mod 2 ^ 64) = Ok l -> Sources (lit "in") l s ->
    pointer p a -> Line ip a ([9] ++ p ++ s ++ [10])
| LnSym ip a p reloc e l s v name off : seg ip = Ok (Some (reloc, e)) -> sym e ((ip - reloc) mod 2 ^ 64) = Ok (Some (v, name)) -> src e ((ip - reloc) mod 2 ^ 64) = Ok l ->
    Sources (lit "in") l s -> pointer p a -> canonical 10 off ((a - reloc - v) mod 2 ^ 64) -> Line ip a ([9] ++ p ++ [9] ++ name ++ lit "+" ++ off ++ s ++ [10]).
(** The lines of a stack: the first address as it is, the others looked up just before the return address; then an empty line. *)
Inductive CallerLines : list Z -> list Z -> Prop :=
| ClNil : CallerLines [] [10]
| ClCons a r t u : Line (a - 1) a t -> CallerLines r u -> CallerLines (a :: r) (t ++ u).
Inductive StackLines : list Z -> list Z -> Prop :=
| SlNil : StackLines [] [10]
| SlCons a r t u : Line a a t -> CallerLines r u -> StackLines (a :: r) (t ++ u).
(** What is printed of a block whose guards should be [st]. *)
Definition BlockText (m : memory) (st : list Z) (b : hblk) (t : list Z) : Prop :=
  exists p n s head tail, pointer p (hbPtr b) /\ canonical 10 n (hbSize b) /\ StackLines (hbStack b) s /\ guards m b head tail /\
    exists bh bt, ((head = st /\ bh = []) \/ (head <> st /\ bh = lit " BADHEAD")) /\ ((tail = st /\ bt = []) \/ (tail <> st /\ bt = lit " BADTAIL")) /\
    t = lit "ptr=" ++ p ++ bh ++ bt ++ lit " size=" ++ n ++ [10] ++ s.
(** Every address of the stacks can be looked up. *)
Definition lookable (ip : Z) : Prop :=
  exists s, seg ip = Ok s /\ match s with None => True | Some (reloc, e) => (exists y, sym e ((ip - reloc) mod 2 ^ 64) = Ok y) /\ (exists l, src e ((ip - reloc) mod 2 ^ 64) = Ok l /\ Forall (fun x => - 2 ^ 31 <= snd x < 2 ^ 31) l) end.
End Text.

(** struct hdbg_info of heap.h, 64-bit: the ends of the four lists; limits and statistics; settings; the stack of the crash. *)
Record hinfo : Type := mkHI { iHeap1 : Z; iFree1 : Z; iBig1 : Z; iLasts : list Z (* the other five list words *);
  iFmax : Z; iFsize : Z; iTotal : Z; iPeak : Z; iMallocs : Z; iFrees : Z; iCallocs : Z; iReallocs : Z; iAligneds : Z; iPads : list Z (* three paddings *);
  iLevel : Z; iSerial : Z; iDoFill : Z; iFrames : Z; iRest : list Z (* the four words after maxframes *); iCrash : list Z }.
Definition infoBytes (i : hinfo) : list Z :=
  match iLasts i, iPads i with
  | [h; f; p1; p2; b], [x; y; z] =>
      words [iHeap1 i; h; iFree1 i; f; p1; p2; iBig1 i; b] ++ leBytes 4 (iFmax i) ++ leBytes 4 (iFsize i) ++ words [iTotal i; iPeak i] ++
      leBytes 4 (iMallocs i) ++ leBytes 4 (iFrees i) ++ leBytes 4 (iCallocs i) ++ leBytes 4 (iReallocs i) ++ leBytes 4 (iAligneds i) ++ leBytes 4 x ++
      leBytes 4 (iLevel i) ++ leBytes 4 y ++ words [iSerial i] ++ leBytes 4 (iDoFill i) ++ leBytes 4 z ++ words (iFrames i :: iRest i) ++ words (iCrash i)
  | _, _ => []
  end.
Definition infoOk (i : hinfo) : Prop :=
  zlen (iLasts i) = 5 /\ zlen (iPads i) = 3 /\ zlen (iRest i) = 4 /\ zlen (iCrash i) = 512 /\ Forall isWord [iHeap1 i; iFree1 i; iBig1 i; iFrames i] /\
  Forall (fun v => 0 <= v < 2 ^ 32) [iMallocs i; iFrees i; iCallocs i; iReallocs i; iAligneds i].
(** The counts, in the order of the report. *)
Definition countLines (l : list (string * Z)) (t : list Z) : Prop :=
  exists ns, Forall2 (fun x n => canonical 10 n (snd x)) l ns /\ t = concat (map (fun xn => lit (fst (fst xn)) ++ snd xn ++ [10]) (combine l ns)).

(** The frames of a stack with frame pointers: at the frame pointer the caller's frame pointer, then the return address.  The walk ends where the
    frame pointers do not ascend, or by more than half a megabyte, or at a null return address. *)
Inductive Frames (m : memory) : Z -> list Z -> Prop :=
| FrEnd bp nb ip : isWord nb -> isWord ip -> holds m bp (leBytes 8 nb ++ leBytes 8 ip) -> nb <= bp \/ bp + 524296 <= nb \/ ip = 0 -> Frames m bp []
| FrNext bp nb ip r : isWord nb -> isWord ip -> holds m bp (leBytes 8 nb ++ leBytes 8 ip) -> bp < nb < bp + 524296 -> ip <> 0 -> Frames m nb r -> Frames m bp (ip :: r).
