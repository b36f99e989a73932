(** Specification of the text shown for an argument. *)
From Verif Require Import Base DwarfReaderProofs MapsSpec CfiSpec Args.

(** A numeral without leading zeros; a decimal number with a minus sign if negative; a pointer. *)
Definition canonical (base : Z) (s : list Z) (v : Z) : Prop := numeral base s v /\ (hd 0 s = 48 -> s = [48]).
Definition decimal (s : list Z) (v : Z) : Prop :=
  (0 <= v /\ canonical 10 s v) \/ (v < 0 /\ exists r, s = 45 :: r /\ canonical 10 r (- v)).
Definition pointer (s : list Z) (v : Z) : Prop :=
  (v = 0 /\ s = [48]) \/ (0 < v /\ exists r, s = 48 :: 120 :: r /\ canonical 16 r v).

Definition isCV (tag : Z) : Prop := tag = 22 \/ tag = 38 \/ tag = 53.      (* typedef, const, volatile *)
(** The type [t] is, looking through typedefs, const and volatile, the type [k]. *)
Inductive strips (types : Z -> option tdie) : Z -> Z -> Prop :=
| stEnd k d : types k = Some d -> ~ isCV (tTag d) -> strips types k k
| stCV k d k2 k3 : types k = Some d -> isCV (tTag d) -> tRef d = Some k2 -> strips types k2 k3 -> strips types k k3.
(** The bytes [bs] are in memory at [a]. *)
Definition holds (m : memory) (a : Z) (bs : list Z) : Prop := forall i, 0 <= i < zlen bs -> m (a + i) = znth i bs.

Definition isPtr (tag : Z) : Prop := tag = 15 \/ tag = 16.                 (* pointer, reference *)
(** What is shown for the object of type [k] (not a typedef etc.) at the address [a]. *)
Inductive shows (m : memory) (str : Z -> res (list Z)) (types : Z -> option tdie) : Z -> Z -> list Z -> Prop :=
(* a signed integer of n = 2, 4 or 8 bytes *)
| shSigned a k d n v s : a <> 0 -> types k = Some d -> tTag d = 36 -> tSize d = Some (Z.of_nat n) -> tEnc d = Some 5 ->
    n = 2%nat \/ n = 4%nat \/ n = 8%nat -> - 2 ^ (8 * Z.of_nat n - 1) <= v < 2 ^ (8 * Z.of_nat n - 1) ->
    holds m a (leBytes n (v mod 2 ^ (8 * Z.of_nat n))) -> decimal s v -> shows m str types a k s
(* an unsigned one, in the lower half of its range *)
| shUnsigned a k d n v s : a <> 0 -> types k = Some d -> tTag d = 36 -> tSize d = Some (Z.of_nat n) -> tEnc d = Some 7 ->
    n = 2%nat \/ n = 4%nat \/ n = 8%nat -> 0 <= v < 2 ^ (8 * Z.of_nat n - 1) ->
    holds m a (leBytes n v) -> decimal s v -> shows m str types a k s
(* a character *)
| shChar a k d c : a <> 0 -> types k = Some d -> tTag d = 36 -> tSize d = Some 1 -> (tEnc d = Some 6 \/ tEnc d = Some 8) ->
    holds m a [c] -> shows m str types a k [c]
(* a truth value of one byte *)
| shTrue a k d c : a <> 0 -> types k = Some d -> tTag d = 36 -> tSize d = Some 1 -> tEnc d = Some 2 ->
    holds m a [c] -> c <> 0 -> shows m str types a k [116; 114; 117; 101]
| shFalse a k d : a <> 0 -> types k = Some d -> tTag d = 36 -> tSize d = Some 1 -> tEnc d = Some 2 ->
    holds m a [0] -> shows m str types a k [102; 97; 108; 115; 101]
(* a pointer (or reference) to void, to char, null, to something shown in turn *)
| shVoidPtr a k d p s : a <> 0 -> types k = Some d -> isPtr (tTag d) -> tSize d = Some 8 -> tRef d = None ->
    0 <= p < 2 ^ 64 -> holds m a (leBytes 8 p) -> pointer s p -> shows m str types a k s
| shString a k d p s t k' d' txt : a <> 0 -> types k = Some d -> isPtr (tTag d) -> tSize d = Some 8 -> tRef d = Some t ->
    strips types t k' -> types k' = Some d' -> tName d' = [99; 104; 97; 114] -> str p = Ok txt ->
    0 <= p < 2 ^ 64 -> holds m a (leBytes 8 p) -> pointer s p -> shows m str types a k (s ++ [32; 34] ++ txt ++ [34])
| shNullPtr a k d s t k' d' : a <> 0 -> types k = Some d -> isPtr (tTag d) -> tSize d = Some 8 -> tRef d = Some t ->
    strips types t k' -> types k' = Some d' -> tName d' <> [99; 104; 97; 114] ->
    holds m a (leBytes 8 0) -> s = [48; 45; 62; 110; 117; 108; 108; 112; 116; 114] -> shows m str types a k s
| shPtr a k d p s t k' d' s' : a <> 0 -> types k = Some d -> isPtr (tTag d) -> tSize d = Some 8 -> tRef d = Some t ->
    strips types t k' -> types k' = Some d' -> tName d' <> [99; 104; 97; 114] -> p <> 0 ->
    0 <= p < 2 ^ 64 -> holds m a (leBytes 8 p) -> pointer s p -> shows m str types p k' s' -> shows m str types a k (s ++ [45; 62] ++ s').

(** The formal parameters among the children of a function, in order. *)
Definition params (cs : list child) : list param := flat_map (fun c => match c with Param p => [p] | OtherDie => [] end) cs.
(** Items separated by ", ". *)
Fixpoint commaList (l : list (list Z)) : list Z :=
  match l with
  | [] => []
  | [x] => x
  | x :: r => x ++ [44; 32] ++ commaList r
  end.

(** A measure that shrinks from a type to the type it refers to, where the printer follows. *)
Definition ranked (types : Z -> option tdie) (rank : Z -> nat) : Prop :=
  forall k d t, types k = Some d -> (isCV (tTag d) \/ isPtr (tTag d)) -> tRef d = Some t -> (rank t < rank k)%nat.
