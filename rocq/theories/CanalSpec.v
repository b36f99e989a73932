(** Specification of canal's patterns and symbols. *)
From Verif Require Import Base.

(** [*] (42) matches any text, every other character itself *)
Inductive matches : list Z -> list Z -> Prop :=
| MNil : matches [] []
| MChar c p n : c <> 42 -> matches p n -> matches (c :: p) (c :: n)
| MStar s p n : matches p n -> matches (42 :: p) (s ++ n).
