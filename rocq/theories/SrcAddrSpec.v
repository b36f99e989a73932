(** Specification: the root entry of a unit admits or excludes an address (DWARF 3.1.1, 2.17). *)
From Verif Require Import Base CfiSpec Lines LinesSpec Aranges ArangesSpec ArangesProofs Die DieAttr DieAttrSpec DieAttrProofs.
Open Scope Z_scope.

(** the base of the entry's range list: its own low_pc, or that of its unit *)
Definition listBase (u : uenv) (addrs : list Z) (e : entry) (base : Z) : Prop :=
  (hasNo e 0x11 /\ base = unitBase u) \/ (exists lf lv, has e 0x11 lf lv /\ addrIs addrs lf lv base /\ uLow u = Some base).
(** [d] is a section of range lists whose first contribution has the format [long] and the length [n], and the table at [base] says that list number
    [slot] is [v] bytes from there (DWARF 5, 7.28) *)
Definition numberedList (d : list Z) (base slot v : Z) : Prop :=
  exists (long : bool) n vs, Forall isByte d /\ zlen d < 2 ^ 63 /\ 0 <= base /\ (if long then 0 <= n < 2 ^ 64 else 0 <= n < 4294967280) /\
    (exists rest, d = (if long then leBytes 4 4294967295 ++ leBytes 8 n else leBytes 4 n) ++ rest) /\
    (exists rest, zdrop base d = flat_map (leBytes (if long then 8 else 4)) vs ++ rest) /\
    znth slot vs = Some v /\ 0 <= v /\ base + v < 2 ^ 64 /\ v < (if long then 2 ^ 64 else 2 ^ 32).
(** forms of an offset in another section: data4 and data8 (DWARF 2 and 3), sec_offset *)
Definition offsetForm (form : Z) : Prop := In form [0x06; 0x07; 0x17].
(** the value [v] of DW_AT_ranges, of that form, names the range list at [off]: by its offset, or (DWARF 5) by its number in the unit's table *)
Definition listValue (sc : secs) (u : uenv) (form : Z) (v : dval) (off : Z) : Prop :=
  (offsetForm form /\ v = VWord off) \/ (form = 0x23 /\ exists slot w, v = VWord slot /\ numberedList (sRnglists sc) (uRngBase u) slot w /\ off = uRngBase u + w).
Definition listAt (sc : secs) (u : uenv) (e : entry) (off : Z) : Prop := exists form v, has e 0x55 form v /\ listValue sc u form v off.
(** low_pc and high_pc around the address; a range list with a range around it; nothing said *)
Inductive admits (sc : secs) (u : uenv) (addrs : list Z) (e : entry) (a : Z) : Prop :=
| AdRange lf lv hf hv start fin : has e 0x11 lf lv -> has e 0x12 hf hv -> addrIs addrs lf lv start -> endIs addrs start hf hv fin ->
    0 <= start -> fin < W64 -> start <= a < fin -> admits sc u addrs e a
| AdList off rs base : listAt sc u e off -> hasNo e 0x12 -> listBase u addrs e base -> rangesAre sc u addrs off base rs ->
    (exists r, In r rs /\ fst r <= a < snd r) -> admits sc u addrs e a
| AdUnknown : hasNo e 0x55 -> hasNo e 0x31 -> hasNo e 0x47 -> hasNo e 0x11 \/ hasNo e 0x12 -> admits sc u addrs e a.
Inductive excludes (sc : secs) (u : uenv) (addrs : list Z) (e : entry) (a : Z) : Prop :=
| ExRange lf lv hf hv start fin : has e 0x11 lf lv -> has e 0x12 hf hv -> addrIs addrs lf lv start -> endIs addrs start hf hv fin ->
    0 <= start -> fin < W64 -> ~ (start <= a < fin) -> excludes sc u addrs e a
| ExList off rs base : listAt sc u e off -> hasNo e 0x12 -> listBase u addrs e base -> rangesAre sc u addrs off base rs ->
    (forall r, In r rs -> ~ (fst r <= a <= snd r)) -> excludes sc u addrs e a.
(** a line number program that ends its last sequence, and whose rows are within 64-bit addresses, positive line numbers and the files [lo..hi] *)
Definition closed (prog : list linsn) : Prop := prog = [] \/ exists q, prog = q ++ [LEndSequence].
Definition rowsIn (lo hi : Z) (rows : list sreg) : Prop := Forall (fun r => 0 <= rAddr r < 2 ^ 64 /\ 0 <= rLine r < 2 ^ 31 /\ lo <= rFile r <= hi) rows.

(** what says which unit an address belongs to: .debug_aranges (absent, or the encoding of [sets]) and the units' own ranges [sus] ([units]: as read);
    [ivs]: all of them, consistent *)
Definition addressMap (fuel : nat) (sec : option (list Z)) (units : list rootUnit) (sets : list aset) (sus : list sunit) (ivs : list ival) : Prop :=
  match sec with
  | Some d => d = flat_map encodeSet sets /\ Forall isByte d /\ zlen d + 32 < W64 /\ (length d < fuel)%nat
  | None => sets = []
  end /\ Forall wfSet sets /\ Forall2 unitRel units sus /\
  ivs = flat_map setIvals sets ++ flat_map pcIval sus ++ flat_map rangeIvals sus /\ consistent ivs /\
  Forall (fun r => iEnd r - iStart r <= iStart r) (flat_map rangeIvals sus).
(** the unit at [u]: its root entry [e] is a compilation or partial unit, with the table of addresses [addrs] and its line table at [off] of .debug_line *)
Definition unitIs (roots : Z -> option Z) (ents : Z -> option entry) (units : Z -> uenv) (sc : secs) (u : Z) (e : entry) (addrs : list Z) : Prop :=
  exists o, roots u = Some o /\ ents o = Some e /\ wfEntry e /\ unitTable sc (units (eUnit e)) addrs.
Definition linesFrom (e : entry) (off : Z) : Prop := (eTag e = 0x11 \/ eTag e = 0x3c) /\ (exists form, offsetForm form /\ has e 0x10 form (VWord off)) /\ 0 <= off < 2 ^ 64.
