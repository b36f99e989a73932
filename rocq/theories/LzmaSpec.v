(** Specification for LzmaReader: the data a compressed stream stands for. *)
From Verif Require Import Base Lzma.

(** the index agrees with the blocks *)
Definition consistent (bs : list lblock) : Prop := forall b, In b bs -> 0 <= lbSize b /\ forall d, lbDec b = Good d -> zlen d = lbSize b.
Definition plain (b : lblock) : list Z := match lbDec b with Good d => d | _ => zeros (lbSize b) end.
Definition decompressed (bs : list lblock) : list Z := flat_map plain bs.
(** every block that has a byte in the range decodes *)
Definition decodes (bs : list lblock) (off size : Z) : Prop :=
  forall pre b post, bs = pre ++ b :: post -> lzSize pre < off + size -> off < lzSize pre + lbSize b -> exists d, lbDec b = Good d.
