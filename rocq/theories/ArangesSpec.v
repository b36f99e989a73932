(** Specification of address range tables (DWARF 6.1.2) and unit address ranges (3.1.1). *)
From Verif Require Import Base CfiSpec LinesSpec.

(** A set of the 32-bit DWARF format: the unit's offset, the size of an address (4 or 8) and the
    (start, length) tuples. *)
Record aset : Type := mkSet { asUnit : Z; asSize : nat; asTuples : list (Z * Z) }.
Definition encodeTuple (n : nat) (t : Z * Z) : list Z := leBytes n (fst t) ++ leBytes n (snd t).
(** Header of 12 bytes, padding up to a multiple of the tuple size, tuples, (0,0). *)
Definition encodeSet (s : aset) : list Z :=
  let body := leBytes 2 2 ++ leBytes 4 (asUnit s) ++ [Z.of_nat (asSize s); 0] ++ [0; 0; 0; 0] ++
              flat_map (encodeTuple (asSize s)) (asTuples s ++ [(0, 0)]) in
  unitLength false (zlen body) ++ body.
Definition wfSet (s : aset) : Prop :=
  0 <= asUnit s < W32 /\ (asSize s = 4%nat \/ asSize s = 8%nat) /\
  Forall (fun t => 0 <= fst t /\ 0 < snd t /\ fst t + snd t < 256 ^ Z.of_nat (asSize s)) (asTuples s) /\
  zlen (encodeSet s) < 4294967280.

(** An interval of addresses of a unit, [iStart, iEnd). *)
Record ival : Type := mkIv { iStart : Z; iEnd : Z; iUnit : Z }.
Definition ivCovers (i : ival) (a : Z) : Prop := iStart i <= a < iEnd i.
Definition ivDisjoint (i j : ival) : Prop := iEnd i <= iStart j \/ iEnd j <= iStart i.
Definition setIvals (s : aset) : list ival := map (fun t => mkIv (fst t) (fst t + snd t) (asUnit s)) (asTuples s).

(** What a unit's root DIE says: low_pc with high_pc either an address or a size, and ranges. *)
Inductive high : Type := HighAddr (a : Z) | HighSize (n : Z).
Record sunit : Type := mkSU { suOff : Z; suPc : option (Z * high); suRanges : list (Z * Z) }.
Definition pcIval (u : sunit) : list ival :=
  match suPc u with
  | Some (l, HighAddr a) => [mkIv l a (suOff u)]
  | Some (l, HighSize n) => [mkIv l (l + n) (suOff u)]
  | None => []
  end.
Definition rangeIvals (u : sunit) : list ival := map (fun r => mkIv (fst r) (snd r) (suOff u)) (suRanges u).
Definition unitIvals (u : sunit) : list ival := pcIval u ++ rangeIvals u.

(** Consistent: non-empty 64-bit intervals, any two disjoint or the same. *)
Definition ivOk (i : ival) : Prop := 0 <= iStart i < iEnd i /\ iEnd i < W64.
Definition consistent (l : list ival) : Prop :=
  Forall ivOk l /\ (forall i j, In i l -> In j l -> i = j \/ ivDisjoint i j).
