(** Specification of an allocator as its client sees it, with quarantine. *)
From Verif Require Import Base Heap.

(** a block: the pointer and size the client has, and the extent of the underlying allocation *)
Record blk : Type := mkB { bPtr : Z; bSize : Z; bBase : Z; bFull : Z }.
(** live blocks, latest first; freed blocks, in order of freeing; the largest sum of live sizes so far; descriptor addresses obtained so far *)
Record sp : Type := mkSp { spLive : list blk; spFreed : list blk; spPeak : Z; spDescs : list Z }.
Definition spInit : sp := mkSp [] [] 0 [].
(** the last [max] freed blocks, which are still held, and those before them, which are not *)
Definition held (max : nat) (freed : list blk) : list blk := skipn (length freed - max) freed.
Definition gone (max : nat) (freed : list blk) : list blk := firstn (length freed - max) freed.
Definition sumSizes (l : list blk) : Z := fold_right (fun b acc => bSize b + acc) 0 l.
Definition apart (a b : blk) : Prop := bBase a + bFull a <= bBase b \/ bBase b + bFull b <= bBase a.
Section Spec.
Variable inBuffer : Z -> bool.   (* is the address in the static bootstrap buffer? *)
(** what may be assumed of the real allocator: a block that is not null, inside the address space outside the bootstrap buffer, and apart from all blocks it has given out and not got back *)
Definition freshBlock (max : nat) (s : sp) (b : blk) : Prop :=
  0 < bBase b /\ bBase b + bFull b <= W64 /\ inBuffer (bBase b) = false /\ forall c, In c (spLive s ++ held max (spFreed s)) -> apart b c.
Definition freshDesc (s : sp) (d : Z) : Prop := 0 < d < W64 /\ ~ In d (spDescs s).
Definition addBlock (s : sp) (b : blk) (d : Z) : sp := mkSp (b :: spLive s) (spFreed s) (Z.max (spPeak s) (sumSizes (b :: spLive s))) (d :: spDescs s).
(** sizes whose sum with the bookkeeping does not overflow *)
Definition mallocBlk (size r : Z) : blk := mkB (r + 16) size r (size + 20).
(** the least multiple of the alignment that has room for the guard *)
Definition alignedBlk (align size r : Z) : blk := let pad := align * ((16 + align - 1) / align) in mkB (r + pad) size r (pad + size + 4).
(** events of a program that uses its memory correctly, with the pointer each returns *)
Inductive okEv (max : nat) : sp -> hev -> Z -> sp -> Prop :=
| OkMalloc s size r d : 0 <= size -> freshBlock max s (mallocBlk size r) -> freshDesc s d -> sumSizes (spLive s) + size < W64 ->
    okEv max s (EMalloc size r d) (r + 16) (addBlock s (mallocBlk size r) d)
| OkAligned s al size r d : 0 < al -> 0 <= size -> freshBlock max s (alignedBlk al size r) -> freshDesc s d -> sumSizes (spLive s) + size < W64 ->
    okEv max s (EAligned al size r d) (bPtr (alignedBlk al size r)) (addBlock s (alignedBlk al size r) d)
| OkCalloc s n size r d : 0 <= n * size -> freshBlock max s (mallocBlk (n * size) r) -> freshDesc s d -> sumSizes (spLive s) + n * size < W64 ->
    okEv max s (ECalloc n size r d) (r + 16) (addBlock s (mallocBlk (n * size) r) d)
| OkFreeNull s : okEv max s (EFree 0) 0 s
| OkFree s l1 b l2 : spLive s = l1 ++ b :: l2 -> okEv max s (EFree (bPtr b)) 0 (mkSp (l1 ++ l2) (spFreed s ++ [b]) (spPeak s) (spDescs s))
| OkReallocNew s size r d : 0 <= size -> freshBlock max s (mallocBlk size r) -> freshDesc s d -> sumSizes (spLive s) + size < W64 ->
    okEv max s (ERealloc 0 size r d) (r + 16) (addBlock s (mallocBlk size r) d)
| OkReallocFits s b size r d : In b (spLive s) -> 0 <= size <= bSize b -> okEv max s (ERealloc (bPtr b) size r d) (bPtr b) s
| OkReallocMoves s l1 b l2 size r d : spLive s = l1 ++ b :: l2 -> bSize b < size -> freshBlock max s (mallocBlk size r) -> freshDesc s d -> sumSizes (spLive s) + size < W64 ->
    okEv max s (ERealloc (bPtr b) size r d) (r + 16)
      (mkSp (mallocBlk size r :: l1 ++ l2) (spFreed s ++ [b]) (Z.max (spPeak s) (size + sumSizes (spLive s))) (d :: spDescs s))
| OkWrite s b a v : In b (spLive s) -> bPtr b <= a < bPtr b + bSize b -> okEv max s (EWrite a v) 0 s.
Inductive okRun (max : nat) : sp -> list hev -> sp -> Prop :=
| RunNil s : okRun max s [] s
| RunCons s e p s' r t : okEv max s e p s' -> okRun max s' r t -> okRun max s (e :: r) t.
End Spec.
