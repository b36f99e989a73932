(** Specification of location lists: DWARF 5 section 2.6.2 / 7.7.3 and DWARF 4 section 2.6.2,
    8-byte addresses. *)
From Verif Require Import Base LebSpec CfiSpec.

(** Entries of a DWARF 5 list; each bounded entry carries the bytes of its location description. *)
Inductive lle : Type :=
| LOffsetPair (s e : Z) (blk : list Z)   (* relative to the base address *)
| LBaseAddress (a : Z)
| LStartLength (s n : Z) (blk : list Z)  (* an address and a length *)
| LStartEnd (s e : Z) (blk : list Z)
| LDefault (blk : list Z).

Definition encodeL (x : lle) : list Z :=
  match x with
  | LOffsetPair s e blk => 4 :: uleb s ++ uleb e ++ uleb (zlen blk) ++ blk
  | LDefault blk => 5 :: uleb (zlen blk) ++ blk
  | LBaseAddress a => 6 :: leBytes 8 a
  | LStartEnd s e blk => 7 :: leBytes 8 s ++ leBytes 8 e ++ uleb (zlen blk) ++ blk
  | LStartLength s n blk => 8 :: leBytes 8 s ++ uleb n ++ uleb (zlen blk) ++ blk
  end.
Definition encodeList (l : list lle) : list Z := flat_map encodeL l ++ [0].

(** The bounded address range [(s, e, blk)] of each entry of the list in order, given the base. *)
Fixpoint bounded (base : Z) (l : list lle) : list (Z * Z * list Z) :=
  match l with
  | [] => []
  | LOffsetPair s e blk :: r => (base + s, base + e, blk) :: bounded base r
  | LStartLength s n blk :: r => (s, s + n, blk) :: bounded base r
  | LStartEnd s e blk :: r => (s, e, blk) :: bounded base r
  | LBaseAddress a :: r => bounded a r
  | LDefault _ :: r => bounded base r
  end.
(** The description for [pc]: the first whose half-open range contains it. *)
Fixpoint pick (pc : Z) (l : list (Z * Z * list Z)) : option (list Z) :=
  match l with
  | [] => None
  | (s, e, blk) :: r => if (s <=? pc) && (pc <? e) then Some blk else pick pc r
  end.

(** Well formed: operands are addresses, blocks are sized to the data. *)
Definition addr64 (x : Z) : Prop := 0 <= x < 2 ^ 64.
Definition wfL (x : lle) : Prop :=
  match x with
  | LOffsetPair s e blk => addr64 s /\ addr64 e /\ addr64 (zlen blk)
  | LStartLength s n blk => addr64 s /\ addr64 n /\ addr64 (s + n) /\ addr64 (zlen blk)
  | LStartEnd s e blk => addr64 s /\ addr64 e /\ addr64 (zlen blk)
  | LBaseAddress a => addr64 a
  | LDefault blk => addr64 (zlen blk)
  end.

(** DWARF 4: pairs of offsets with a 2-byte block size; a pair whose first half is the largest
    address selects a new base; 0,0 ends. *)
Inductive le4 : Type := L4Pair (s e : Z) (blk : list Z) | L4Base (a : Z).
Definition encodeL4 (x : le4) : list Z :=
  match x with
  | L4Pair s e blk => leBytes 8 s ++ leBytes 8 e ++ leBytes 2 (zlen blk) ++ blk
  | L4Base a => leBytes 8 (2 ^ 64 - 1) ++ leBytes 8 a
  end.
Definition encodeList4 (l : list le4) : list Z := flat_map encodeL4 l ++ leBytes 8 0 ++ leBytes 8 0.
Fixpoint bounded4 (base : Z) (l : list le4) : list (Z * Z * list Z) :=
  match l with
  | [] => []
  | L4Pair s e blk :: r => (base + s, base + e, blk) :: bounded4 base r
  | L4Base a :: r => bounded4 a r
  end.
Definition wfL4 (x : le4) : Prop :=
  match x with
  | L4Pair s e blk => addr64 s /\ addr64 e /\ zlen blk < 2 ^ 16 /\ ~ (s = 0 /\ e = 0) /\ s <> 2 ^ 64 - 1
  | L4Base a => addr64 a
  end.

(** No run-time address of the list wraps past the end of the address space. *)
Definition noWrap (bias : Z) (l : list (Z * Z * list Z)) : Prop :=
  Forall (fun x => 0 <= bias + fst (fst x) < 2 ^ 64 /\ 0 <= bias + snd (fst x) < 2 ^ 64) l.
(** The entries on which pstack is claimed to agree: absolute start_length entries only while the
    base address is 0 (a unit without low_pc and before any base entry). *)
Fixpoint agrees (base : Z) (l : list lle) : Prop :=
  match l with
  | [] => True
  | LOffsetPair _ _ _ :: r => agrees base r
  | LBaseAddress a :: r => agrees a r
  | LStartLength _ _ _ :: r => base = 0 /\ agrees base r
  | LStartEnd _ _ _ :: _ | LDefault _ :: _ => False
  end.
