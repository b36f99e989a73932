(** Specification of the ELF symbol tables and hash sections, from the System V gABI ("Symbol
    Table", "Hash Table") and the GNU hash section format, without reference to pstack's code. *)
From Verif Require Import Base CfiSpec.

(** The hash functions on names (bytes are unsigned). *)
Definition abiHash (name : list Z) : Z :=
  fold_left (fun h c => let x := (16 * h + c) mod 2 ^ 32 in Z.lxor (x mod 2 ^ 28) (16 * (x / 2 ^ 28))) name 0.
Definition dlHash (name : list Z) : Z := fold_left (fun h c => (33 * h + c) mod 2 ^ 32) name 5381.

Definition isName (s : list Z) : Prop := Forall (fun b => 0 < b < 256) s.

(** A symbol: its name and the fields of its table entry. *)
Record ssym : Type := mkSS { ssName : list Z; ssNameOff : Z; ssInfo : Z; ssOther : Z; ssShndx : Z; ssValue : Z; ssSize : Z }.
Definition encodeSym (s : ssym) : list Z :=
  leBytes 4 (ssNameOff s) ++ [ssInfo s; ssOther s] ++ leBytes 2 (ssShndx s) ++ leBytes 8 (ssValue s) ++ leBytes 8 (ssSize s).
(** A well-formed symbol: fields in range, and its name in the string table. *)
Definition wfSym (strtab : list Z) (s : ssym) : Prop :=
  isName (ssName s) /\ 0 <= ssNameOff s < 2 ^ 32 /\ (exists rest, zdrop (ssNameOff s) strtab = ssName s ++ 0 :: rest) /\
  isByte (ssInfo s) /\ isByte (ssOther s) /\ 0 <= ssShndx s < 2 ^ 16 /\ 0 <= ssValue s < 2 ^ 64 /\ 0 <= ssSize s < 2 ^ 64.

(** ** GNU hash section *)
Record gtab : Type := mkGT { gtSymoff : Z; gtShift : Z; gtBloom : list Z; gtBuckets : list Z; gtChain : list Z }.
Definition encodeGT (t : gtab) : list Z :=
  leBytes 4 (zlen (gtBuckets t)) ++ leBytes 4 (gtSymoff t) ++ leBytes 4 (zlen (gtBloom t)) ++ leBytes 4 (gtShift t) ++
  flat_map (leBytes 8) (gtBloom t) ++ flat_map (leBytes 4) (gtBuckets t) ++ flat_map (leBytes 4) (gtChain t).
(** Hash and bucket of the symbol at index [i] of the symbol table. *)
Definition hashAt (tab : list ssym) (i h : Z) : Prop := exists s, znth i tab = Some s /\ dlHash (ssName s) = h.
(** [t] hashes the symbols of [tab] from [gtSymoff t] on: symbols are grouped by bucket, a bucket
    holds the index of its first symbol (or 0), each chain word is the symbol's hash with bit 0
    telling whether it is the last of its bucket, and the Bloom filter has both bits of each hash. *)
Record wfGT (t : gtab) (tab : list ssym) : Prop := {
  gwBloomN : 0 < zlen (gtBloom t) < 2 ^ 32;
  gwBucketN : 0 < zlen (gtBuckets t) < 2 ^ 32;
  gwSize : zlen (encodeGT t) < 2 ^ 32;
  gwShift : 0 <= gtShift t < 32;
  gwSymoff : 1 <= gtSymoff t;
  gwCount : zlen tab < 2 ^ 32;
  gwChainN : zlen (gtChain t) = Z.max 0 (zlen tab - gtSymoff t);
  gwSymoffR : gtSymoff t < 2 ^ 32;
  gwBloomR : Forall (fun w => 0 <= w < 2 ^ 64) (gtBloom t);
  gwBucket : forall b v, znth b (gtBuckets t) = Some v ->
    (* an empty bucket *)
    (v = 0 /\ forall i h, gtSymoff t <= i -> hashAt tab i h -> h mod zlen (gtBuckets t) <> b) \/
    (* or the index of the first symbol of the bucket *)
    (gtSymoff t <= v < zlen tab /\ (exists h, hashAt tab v h /\ h mod zlen (gtBuckets t) = b) /\
     forall i h, gtSymoff t <= i < v -> hashAt tab i h -> h mod zlen (gtBuckets t) <> b);
  (* the symbols of a bucket are consecutive *)
  gwGroup : forall i j k hi hj hk, gtSymoff t <= i -> i < j -> j < k ->
    hashAt tab i hi -> hashAt tab j hj -> hashAt tab k hk ->
    hi mod zlen (gtBuckets t) = hk mod zlen (gtBuckets t) -> hj mod zlen (gtBuckets t) = hi mod zlen (gtBuckets t);
  gwChain : forall i h, gtSymoff t <= i -> hashAt tab i h ->
    exists last : bool, znth (i - gtSymoff t) (gtChain t) = Some (2 * (h / 2) + if last then 1 else 0) /\
    (last = true <-> forall h', hashAt tab (i + 1) h' -> h' mod zlen (gtBuckets t) <> h mod zlen (gtBuckets t));
  gwBloom : forall i h, gtSymoff t <= i -> hashAt tab i h ->
    exists w, znth ((h / 64) mod zlen (gtBloom t)) (gtBloom t) = Some w /\
    Z.testbit w (h mod 64) = true /\ Z.testbit w ((h / 2 ^ gtShift t) mod 64) = true }.

(** ** System V hash section *)
Record htab : Type := mkHT { htBuckets : list Z; htChains : list Z }.
Definition encodeHT (t : htab) : list Z :=
  leBytes 4 (zlen (htBuckets t)) ++ leBytes 4 (zlen (htChains t)) ++
  flat_map (leBytes 4) (htBuckets t) ++ flat_map (leBytes 4) (htChains t).
(** The indexes met from [i] following the chain words until STN_UNDEF. *)
Inductive chainOf (t : htab) : Z -> list Z -> Prop :=
| CEnd : chainOf t 0 []
| CNext i n l : i <> 0 -> znth i (htChains t) = Some n -> chainOf t n l -> chainOf t i (i :: l).
(** Each bucket's chain ends, and holds (once) exactly the symbols other than 0 whose hash selects
    the bucket. *)
Record wfHT (t : htab) (tab : list ssym) : Prop := {
  hwBuckets : 0 < zlen (htBuckets t) < 2 ^ 32;
  hwChains : zlen (htChains t) = zlen tab;
  hwCount : zlen tab < 2 ^ 32;
  hwRange : Forall (fun v => 0 <= v < zlen tab) (htBuckets t ++ htChains t);
  hwBucket : forall b v, znth b (htBuckets t) = Some v ->
    exists l, chainOf t v l /\
    forall i s, 0 < i -> znth i tab = Some s -> (In i l <-> abiHash (ssName s) mod zlen (htBuckets t) = b) }.
