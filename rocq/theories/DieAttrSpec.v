(** Specification of attributes, indexed addresses and range lists (DWARF 5, 2.17, 7.4-7.5, 7.25, 7.27). *)
From Verif Require Import Base CfiSpec LinesSpec Die DieAttr.

(** ** Attributes of an entry *)
(** The entry has an attribute [name] of this form and value. *)
Definition has (e : entry) (name form : Z) (v : dval) : Prop :=
  exists i impl, nth_error (eAttrs e) i = Some (name, form, impl) /\ nth_error (eVals e) i = Some v.
Definition hasNo (e : entry) (name : Z) : Prop := ~ In name (map (fun a => fst (fst a)) (eAttrs e)).
(** One value per specification, no attribute twice (DWARF 2.2). *)
Definition wfEntry (e : entry) : Prop := length (eVals e) = length (eAttrs e) /\ NoDup (map (fun a => fst (fst a)) (eAttrs e)).

(** The entry [o] refers to another entry [p] by its attribute [name]: ref_addr holds an offset in
    the section, ref1-8 and ref_udata one in the unit. *)
Definition refersTo (ents : Z -> option entry) (o name p : Z) : Prop :=
  exists e form w, ents o = Some e /\ has e name form (VWord w) /\
    ((form = 0x10 /\ p = w) \/ (In form [0x11; 0x12; 0x13; 0x14; 0x15] /\ p = eUnit e + w)) /\ 0 <= p < W64 /\ p <> o /\ ents p <> None.
(** Names not looked for in another entry. *)
Definition ownOnly (name : Z) : Prop := name = 0x3c \/ name = 0x31 \/ name = 0x47.
(** What the attribute of [o] is: its own, or else that of the abstract origin, or else that of the
    specification, or else there is none. *)
Inductive Lookup (ents : Z -> option entry) (name : Z) : Z -> option (Z * Z * dval) -> Prop :=
| LOwn o e form v : ents o = Some e -> has e name form v -> Lookup ents name o (Some (o, form, v))
| LOnly o e : ents o = Some e -> hasNo e name -> ownOnly name -> Lookup ents name o None
| LOrigin o e p x : ents o = Some e -> hasNo e name -> ~ ownOnly name -> refersTo ents o 0x31 p ->
    Lookup ents name p (Some x) -> Lookup ents name o (Some x)
| LOriginNone o e p : ents o = Some e -> hasNo e name -> ~ ownOnly name -> refersTo ents o 0x31 p -> hasNo e 0x47 ->
    Lookup ents name p None -> Lookup ents name o None
| LBoth o e p q r : ents o = Some e -> hasNo e name -> ~ ownOnly name -> refersTo ents o 0x31 p -> refersTo ents o 0x47 q ->
    Lookup ents name p None -> Lookup ents name q r -> Lookup ents name o r
| LSpec o e p r : ents o = Some e -> hasNo e name -> ~ ownOnly name -> hasNo e 0x31 -> refersTo ents o 0x47 p ->
    Lookup ents name p r -> Lookup ents name o r
| LNone o e : ents o = Some e -> hasNo e name -> ~ ownOnly name -> hasNo e 0x31 -> hasNo e 0x47 -> Lookup ents name o None.

(** ** Indexed tables *)
(** A table of 8-byte addresses at [base] in .debug_addr, after its header, which ends with the
    sizes of an address and of a segment selector. *)
Definition addrTable (d : list Z) (base : Z) (addrs : list Z) : Prop :=
  exists pre post, d = pre ++ [8; 0] ++ flat_map (leBytes 8) addrs ++ post /\ base = zlen pre + 2 /\ 6 <= zlen pre /\ Forall (fun a => 0 <= a < W64) addrs.

(** ** Range lists *)
Inductive rl4 : Type := R4Base (b : Z) | R4Pair (s e : Z).
Definition encodeR4 (x : rl4) : list Z := match x with R4Base b => leBytes 8 (W64 - 1) ++ leBytes 8 b | R4Pair s e => leBytes 8 s ++ leBytes 8 e end.
Definition encodeRanges4 (l : list rl4) : list Z := flat_map encodeR4 l ++ leBytes 8 0 ++ leBytes 8 0.
Definition wfR4 (x : rl4) : Prop :=
  match x with R4Base b => 0 <= b < W64 | R4Pair s e => 0 <= s < W64 - 1 /\ 0 <= e < W64 /\ ~ (s = 0 /\ e = 0) end.
Fixpoint means4 (base : Z) (l : list rl4) : list (Z * Z) :=
  match l with [] => [] | R4Base b :: r => means4 b r | R4Pair s e :: r => (base + s, base + e) :: means4 base r end.

Inductive rl5 : Type :=
| R5Basex (i : Z) | R5StartxEndx (i j : Z) | R5StartxLen (i n : Z) | R5Offset (s e : Z) | R5Base (b : Z) | R5StartEnd (s e : Z) | R5StartLen (s n : Z).
Definition encodeR5 (alen : nat) (x : rl5) : list Z :=
  match x with
  | R5Basex i => 1 :: uleb i
  | R5StartxEndx i j => 2 :: uleb i ++ uleb j
  | R5StartxLen i n => 3 :: uleb i ++ uleb n
  | R5Offset s e => 4 :: uleb s ++ uleb e
  | R5Base b => 5 :: leBytes alen b
  | R5StartEnd s e => 6 :: leBytes alen s ++ leBytes alen e
  | R5StartLen s n => 7 :: leBytes alen s ++ uleb n
  end.
Definition encodeRanges5 (alen : nat) (l : list rl5) : list Z := flat_map (encodeR5 alen) l ++ [0].
(** operands in range; indices in the address table [addrs] *)
Definition isIdx (addrs : list Z) (i : Z) : Prop := 0 <= i < zlen addrs.
Definition wfR5 (alen : nat) (addrs : list Z) (x : rl5) : Prop :=
  let addr a := 0 <= a < 256 ^ Z.of_nat alen in let num n := 0 <= n < W64 in
  match x with
  | R5Basex i => isIdx addrs i | R5StartxEndx i j => isIdx addrs i /\ isIdx addrs j | R5StartxLen i n => isIdx addrs i /\ num n
  | R5Offset s e => num s /\ num e | R5Base b => addr b | R5StartEnd s e => addr s /\ addr e | R5StartLen s n => addr s /\ num n
  end.
Definition tab (addrs : list Z) (i : Z) : Z := nth (Z.to_nat i) addrs 0.
Fixpoint means5 (addrs : list Z) (base : Z) (l : list rl5) : list (Z * Z) :=
  match l with
  | [] => []
  | R5Basex i :: r => means5 addrs (tab addrs i) r
  | R5StartxEndx i j :: r => (tab addrs i, tab addrs j) :: means5 addrs base r
  | R5StartxLen i n :: r => (tab addrs i, tab addrs i + n) :: means5 addrs base r
  | R5Offset s e :: r => (base + s, base + e) :: means5 addrs base r
  | R5Base b :: r => means5 addrs b r
  | R5StartEnd s e :: r => (s, e) :: means5 addrs base r
  | R5StartLen s n :: r => (s, s + n) :: means5 addrs base r
  end.
(** Addresses do not wrap. *)
Definition noWrapR (l : list (Z * Z)) : Prop := Forall (fun r => fst r < W64 /\ snd r < W64) l.

(** ** The tree in document order, each entry with its ancestors *)
Fixpoint preorder (anc : list Z) (t : ftree) : list (list Z * Z) :=
  match t with FT o ks => (anc, o) :: flat_map (preorder (anc ++ [o])) ks end.
Definition isNO (c : contains) : bool := match c with NO => true | _ => false end.
Definition isYES (c : contains) : bool := match c with YES => true | _ => false end.
(** An entry of the wanted tag that covers the address, reached through entries that do not exclude it. *)
Definition hit (cov : Z -> contains) (tag : Z -> Z) (want : Z) (x : list Z * Z) : bool :=
  forallb (fun a => negb (isNO (cov a))) (fst x) && isYES (cov (snd x)) && (tag (snd x) =? want).

(** ** The addresses of an entry *)
(** The address an attribute of class address stands for: DW_FORM_addr holds it, the addrx forms
    hold its index in the unit's table. *)
Definition addrIs (addrs : list Z) (form : Z) (v : dval) (a : Z) : Prop :=
  (form = 0x01 /\ v = VWord a) \/ (In form [0x1b; 0x29; 0x2a; 0x2b; 0x2c] /\ exists i, v = VWord i /\ isIdx addrs i /\ a = tab addrs i).
(** The end of [start, ...): high_pc is an address, or of class constant and then a size. *)
Definition endIs (addrs : list Z) (start form : Z) (v : dval) (e : Z) : Prop :=
  addrIs addrs form v e \/ (In form [0x0b; 0x05; 0x06; 0x07; 0x0f] /\ exists n, v = VWord n /\ 0 <= n /\ e = start + n).
(** The range list at offset [off] is [rs], for base address [base]. *)
Definition rangesAre (s : secs) (u : uenv) (addrs : list Z) (off base : Z) (rs : list (Z * Z)) : Prop :=
  0 <= base /\ noWrapR rs /\
  if uVer u <? 5 then
    Forall isByte (sRanges s) /\ zlen (sRanges s) + 32 < W64 /\
    exists pre l post, sRanges s = pre ++ encodeRanges4 l ++ post /\ zlen pre = off /\ Forall wfR4 l /\ rs = means4 base l
  else
    Forall isByte (sRnglists s) /\ zlen (sRnglists s) + 32 < W64 /\
    exists alen pre l post, Z.of_nat alen = uAddrLen u /\ (0 < alen <= 8)%nat /\
      sRnglists s = pre ++ encodeRanges5 alen l ++ post /\ zlen pre = off /\ Forall (wfR5 alen addrs) l /\
      Forall (fun x => match x with R5StartxEndx _ _ => False | _ => True end) l /\ rs = means5 addrs base l.
(** The table of a unit. *)
Definition unitTable (s : secs) (u : uenv) (addrs : list Z) : Prop :=
  match sAddr s with
  | Some d => Forall isByte d /\ zlen d + 32 < W64 /\ addrTable d (uAddrBase u) addrs
  | None => addrs = []
  end.
