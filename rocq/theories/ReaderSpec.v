(** Specification vocabulary for readers: what a user thinks a reader is. *)
From Verif Require Import Base.

(** [rd] serves the byte source [src]: every request inside the 64-bit offset space yields the
    longest readable run of at most [count] bytes; where not even the first byte can be read
    (or nothing was asked for) it may instead fail with an exception. *)
Definition serves (rd : Z -> Z -> res (list Z)) (src : memory) : Prop :=
  forall off count, 0 <= off -> 0 <= count -> off + count < W64 ->
    rd off count = Ok (prefix src off (Z.to_nat count)) \/
    (rd off count = Throw /\ prefix src off (Z.to_nat count) = []).

(** Text up to the first NUL, or to the end. *)
Fixpoint untilNul (l : list Z) : list Z :=
  match l with
  | [] => []
  | c :: r => if c =? 0 then [] else c :: untilNul r
  end.

(** Split a byte list into records of [sz] bytes (a trailing partial record is dropped). *)
Fixpoint records (fuel : nat) (sz : Z) (l : list Z) : list (list Z) :=
  match fuel with
  | O => []
  | S f => if (zlen l <? sz) then [] else ztake sz l :: records f sz (zdrop sz l)
  end.
