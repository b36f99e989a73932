(** Specification of name lookup tables, DWARF 3/4 section 6.1.1, 32-bit format. *)
From Verif Require Import Base CfiSpec.

(** One unit's contribution: version, offset and length of the unit in .debug_info, entries. *)
Record sPubUnit : Type := mkSPU { spVersion : Z; spInfoOffset : Z; spInfoLength : Z; spNames : list (Z * list Z) }.
Definition encodeName (e : Z * list Z) : list Z := leBytes 4 (fst e) ++ snd e ++ [0].
(** Everything after the unit_length field. *)
Definition pubBody (u : sPubUnit) : list Z :=
  leBytes 2 (spVersion u) ++ leBytes 4 (spInfoOffset u) ++ leBytes 4 (spInfoLength u) ++
  flat_map encodeName (spNames u) ++ leBytes 4 0.
Definition encodePub (u : sPubUnit) : list Z := leBytes 4 (zlen (pubBody u)) ++ pubBody u.
(** Entries have a non-zero offset and a name without NUL. *)
Definition wfName (e : Z * list Z) : Prop := 0 < fst e < W32 /\ Forall (fun b => 0 < b < 256) (snd e).
Definition wfPub (u : sPubUnit) : Prop :=
  0 <= spVersion u < W16 /\ 0 <= spInfoOffset u < W32 /\ 0 <= spInfoLength u < W32 /\
  Forall wfName (spNames u) /\ zlen (pubBody u) < 4294967280.
