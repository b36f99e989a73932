(** Specification for ELF segments, notes, symbols and section names, from the gABI, without
    reference to pstack's code. *)
From Verif Require Import Base CfiSpec.

(** ** Notes: 4-byte words namesz, descsz, type; the NUL-terminated name and the descriptor are each
    followed by padding to a multiple of 4 bytes. *)
Record snote : Type := mkSN { snName : list Z; snType : Z; snDesc : list Z; snPad1 : list Z; snPad2 : list Z }.
Definition encodeNote (n : snote) : list Z :=
  leBytes 4 (zlen (snName n) + 1) ++ leBytes 4 (zlen (snDesc n)) ++ leBytes 4 (snType n) ++
  (snName n ++ 0 :: snPad1 n) ++ snDesc n ++ snPad2 n.
Definition wfNote (n : snote) : Prop :=
  Forall (fun b => 0 < b < 256) (snName n) /\ Forall isByte (snDesc n ++ snPad1 n ++ snPad2 n) /\
  zlen (snName n) + 1 < 2 ^ 32 /\ zlen (snDesc n) < 2 ^ 32 /\ 0 <= snType n < 2 ^ 31 /\
  zlen (snPad1 n) < 4 /\ (zlen (snName n) + 1 + zlen (snPad1 n)) mod 4 = 0.
(** A sequence of notes; the padding after the last descriptor may be missing. *)
Fixpoint wfNotes (ns : list snote) : Prop :=
  match ns with
  | [] => True
  | n :: r => wfNote n /\ zlen (snDesc n) + zlen (snPad2 n) <= 4 * ((zlen (snDesc n) + 3) / 4) /\
              (r <> [] -> (zlen (snDesc n) + zlen (snPad2 n)) mod 4 = 0) /\ wfNotes r
  end.

(** ** Sections by name: the names under which a section may be found, in order of preference. *)
Definition isDebugName (n : list Z) : Prop := exists r, n = [46; 100; 101; 98; 117; 103; 95] ++ r.
Definition endsDwo (n : list Z) : Prop := exists r, n = r ++ [46; 100; 119; 111].
(** ".debug_x" may be compressed as ".zdebug_x" *)
Definition zname (n : list Z) : list Z := [46; 122] ++ skipn 1 n.
Definition dwoname (n : list Z) : list Z := n ++ [46; 100; 119; 111].
Inductive aliasOf : list Z -> list Z -> Prop :=
| AlSelf n : aliasOf n n
| AlZ n : isDebugName n -> aliasOf n (zname n)
| AlDwo n : ~ endsDwo n -> aliasOf n (dwoname n)
| AlZDwo n : isDebugName n -> ~ endsDwo n -> aliasOf n (zname (dwoname n)).
