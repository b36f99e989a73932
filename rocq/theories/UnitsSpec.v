(** Specification of .debug_info's units: DWARF 2 to 5, section 7.5.1. *)
From Verif Require Import Base CfiSpec Units.

(** Version 5 unit types: what follows the common fields. *)
Inductive ukind : Type := UCompile | UPartial | USkeleton (id : Z) | USplit (id : Z) | UTypes (sig to : Z) | USplitTypes (sig to : Z).
Definition kindCode (k : ukind) : Z := match k with UCompile => 1 | UTypes _ _ => 2 | UPartial => 3 | USkeleton _ => 4 | USplit _ => 5 | USplitTypes _ _ => 6 end.
Record sunit : Type := mkSU { suVersion : Z; suLong : bool; suKind : ukind; suAbbrev : Z; suAddrLen : Z; suBody : list Z }.
Definition offSize (u : sunit) : nat := if suLong u then 8%nat else 4%nat.
Definition kindBytes (u : sunit) : list Z :=
  match suKind u with
  | UCompile | UPartial => []
  | USkeleton i | USplit i => leBytes 8 i
  | UTypes s t | USplitTypes s t => leBytes 8 s ++ leBytes (offSize u) t
  end.
Definition unitRest (u : sunit) : list Z :=
  leBytes 2 (suVersion u) ++
  (if suVersion u >=? 5 then [kindCode (suKind u); suAddrLen u] ++ leBytes (offSize u) (suAbbrev u) ++ kindBytes u
   else leBytes (offSize u) (suAbbrev u) ++ [suAddrLen u]) ++ suBody u.
Definition unitBytes (u : sunit) : list Z :=
  (if suLong u then leBytes 4 4294967295 ++ leBytes 8 (zlen (unitRest u)) else leBytes 4 (zlen (unitRest u))) ++ unitRest u.
(** Without type units. *)
Definition suOk (u : sunit) : Prop :=
  2 <= suVersion u <= 5 /\ (suVersion u = 2 -> suLong u = false) /\ 0 <= suAbbrev u < 256 ^ Z.of_nat (offSize u) /\
  match suKind u with UCompile => True | UTypes _ _ | USplitTypes _ _ => False | UPartial => suVersion u = 5 | USkeleton i | USplit i => suVersion u = 5 /\ 0 <= i < 2 ^ 64 end /\
  (suLong u = false -> zlen (unitRest u) < 4294967280) /\ Forall isByte (unitBytes u).
(** A section: its units follow each other. *)
Definition sectionOf (us : list sunit) : list Z := flat_map unitBytes us.
Fixpoint starts (off : Z) (us : list sunit) : list (Z * sunit) :=
  match us with
  | [] => []
  | u :: r => (off, u) :: starts (off + zlen (unitBytes u)) r
  end.
(** the 8 bytes that identify a unit with a split part; other units have none: zeros *)
Definition idOf (k : ukind) : list Z := match k with USkeleton i | USplit i => leBytes 8 i | _ => repeat 0 8 end.
(** [h] is the unit [u] at [o]: its contents lie between its root and its end.  The length is kept modulo 2^32.
    Offsets in it have 4 or 8 bytes; in version 2, where only references to other units have this size, it is that of an address. *)
Definition isUnit (data : list Z) (h : unitH) (x : Z * sunit) : Prop :=
  uhOff h = fst x /\ uhEnd h = fst x + zlen (unitBytes (snd x)) /\ uhVersion h = suVersion (snd x) /\ uhType h = kindCode (suKind (snd x)) /\
  uhAddrLen h = suAddrLen (snd x) /\ uhAbbrev h = suAbbrev (snd x) /\ (exists rest, zdrop (uhRoot h) data = suBody (snd x) ++ rest) /\
  fst x < uhRoot h /\ uhRoot h + zlen (suBody (snd x)) = uhEnd h /\
  uhLength h = zlen (unitRest (snd x)) mod 2 ^ 32 /\ uhId h = idOf (suKind (snd x)) /\
  uhDwarfLen h = (if suVersion (snd x) <=? 2 then 8 else Z.of_nat (offSize (snd x))).

(** Histories of a user: get a unit by its offset, list all units, find the entry at an offset. *)
Inductive uop : Type := UGet (o : Z) | UAll | UDie (o : Z).
Inductive ureply : Type := RUnit (r : res unitH) | RUnits (r : res (list unitH)).
Fixpoint ureplies (data : list Z) (entry : unitH -> Z -> res bool) (fuel : nat) (m : umap) (ops : list uop) : list ureply :=
  match ops with
  | [] => []
  | UGet o :: r => let (m', x) := getUnit data m o in RUnit x :: ureplies data entry fuel m' r
  | UAll :: r => let (m', x) := unitsFrom data fuel m 0 in RUnits x :: ureplies data entry fuel m' r
  | UDie o :: r => let (m', x) := infoDie data entry fuel m o in RUnit x :: ureplies data entry fuel m' r
  end.
(** The right answers.  A unit is asked for at the start of one.  An entry is found in the unit whose bytes
    contain its offset, if that unit has an entry there; otherwise there is an exception. *)
Definition rightU (data : list Z) (entry : unitH -> Z -> res bool) (us : list sunit) (o : uop) (r : ureply) : Prop :=
  match o, r with
  | UGet a, RUnit (Ok h) => exists u, In (a, u) (starts 0 us) /\ isUnit data h (a, u)
  | UAll, RUnits (Ok l) => Forall2 (isUnit data) l (starts 0 us)
  | UDie a, RUnit r => (zlen data <= a /\ r = Throw) \/
      exists x h, In x (starts 0 us) /\ isUnit data h x /\ fst x <= a < fst x + zlen (unitBytes (snd x)) /\
        r = match entry h a with Ok b => if b then Ok h else Throw | Throw => Throw | UB => UB | OutOfFuel => OutOfFuel end
  | _, _ => False
  end.
Definition askableU (us : list sunit) (o : uop) : Prop := match o with UGet a => In a (map fst (starts 0 us)) | UAll => True | UDie a => 0 <= a end.
