(** What the Python theorems are stated with: objects in the target's memory, and questions about the output.  Nothing here uses the printer. *)
From Coq Require Import String.
From Verif Require Import Base CfiSpec Python.

(** little-endian value [v] of [n] bytes at [a]; a readable stretch *)
Definition field (m : memory) (a : Z) (n : nat) (v : Z) : Prop :=
  0 <= v < 256 ^ Z.of_nat n /\ forall i b, nth_error (leBytes n v) i = Some b -> m (a + Z.of_nat i) = Some b.
Definition readable (m : memory) (a n : Z) : Prop := 0 <= a /\ 0 <= n /\ a + n <= W64 /\ forall k, a <= k < a + n -> m k <> None.
Definition bytesAt (m : memory) (a : Z) (l : list Z) : Prop := 0 <= a /\ a + zlen l <= W64 /\ forall i b, nth_error l i = Some b -> m (a + Z.of_nat i) = Some b.
Definition byteMem (m : memory) : Prop := forall a b, m a = Some b -> isByte b.

(** a type object, and a live object of that type that is [size] bytes long and has the ob_size field [n] *)
Definition typeAt (m : memory) (lay : layout) (t name basic item flags dictoff : Z) : Prop :=
  296 <= lTypeSize lay /\ readable m t (lTypeSize lay) /\ field m (t + 24) 8 name /\ field m (t + 32) 8 basic /\ field m (t + 40) 8 item /\
  field m (t + 168) 8 flags /\ field m (t + 288) 8 dictoff.
Definition objectAt (m : memory) (a size t n : Z) : Prop :=
  a <> 0 /\ 24 <= size <= stackMax /\ readable m a size /\ (exists refs, refs <> 0 /\ field m a 8 refs) /\ field m (a + 8) 8 t /\ field m (a + 16) 8 (u64 n) /\ - 2 ^ 63 < n < 2 ^ 63.
(** the printer has not yet met type [t], or has its fields *)
Definition typeKnown (s : pst) (t name basic item flags dictoff : Z) : Prop :=
  match find (fun e => fst e =? t) (pTypes s) with None => True | Some e => snd e = Some (mkPT name basic item flags (s64 dictoff)) end.

(** the objects whose printing was requested directly below a node *)
Definition calls (l : list out) : list Z := flat_map (fun o => match o with Call a _ => [a] | _ => [] end) l.
(** objects whose contents are listed somewhere in the output *)
Fixpoint listed (o : out) : list Z :=
  match o with
  | Tok _ => []
  | Call _ b => flat_map listed b
  | Obj a b => (match calls b with [] => [] | _ => [a] end) ++ flat_map listed b
  end.
(** a failure message somewhere in the output *)
Fixpoint fails (o : out) : bool :=
  match o with
  | Tok (TLit s) => String.eqb s "(print failed)"
  | Tok _ => false
  | Call _ b => existsb fails b
  | Obj _ b => existsb fails b
  end.

(** the value of a vector of digits in base 2^30, least significant first *)
Fixpoint digitsValue (l : list Z) : Z := match l with [] => 0 | d :: r => d + 2 ^ 30 * digitsValue r end.
(** line tables: (address increment, line increment) pairs; the entries that begin at or before [lasti] *)
Fixpoint starts (a : Z) (es : list (Z * Z)) : list (Z * Z) := match es with [] => [] | (d, i) :: r => (a + d, i) :: starts (a + d) r end.
Fixpoint total (l : list Z) : Z := match l with [] => 0 | x :: r => x + total r end.
Definition lineOf (first lasti : Z) (es : list (Z * Z)) : Z := first + total (map snd (filter (fun e => fst e <=? lasti) (starts 0 es))).
Definition lineTable (es : list (Z * Z)) : list Z := flat_map (fun e => [fst e; snd e mod 256]) es.

(** python 2 dictionaries: slots (key, value); a slot is in use if neither is null *)
Definition inUse (e : Z * Z) : bool := negb (fst e =? 0) && negb (snd e =? 0).
Definition slots2At (m : memory) (table : Z) (l : list (Z * Z)) : Prop :=
  readable m table (24 * zlen l) /\
  forall i k v, nth_error l i = Some (k, v) -> field m (table + 24 * Z.of_nat i + 8) 8 k /\ field m (table + 24 * Z.of_nat i + 16) 8 v.
Definition flat2 (l : list (Z * Z)) : list Z := flat_map (fun e => [fst e; snd e]) l.
(** python 3 dictionaries: an index table, -1 and -2 for empty and deleted, and entries (key, value) *)
Definition width (size : Z) : Z := if size <? 256 then 1 else if size <? 65536 then 2 else if size <? 4294967296 then 4 else 8.
Definition keysAt (m : memory) (keys : Z) (ix : list Z) (es : list (Z * Z)) : Prop :=
  let size := zlen ix in let w := width size in
  size < 2 ^ 62 /\
  readable m keys (40 + w * size + 24 * zlen es) /\ field m (keys + 8) 8 size /\
  (forall i x, nth_error ix i = Some x -> field m (keys + 40 + w * Z.of_nat i) (Z.to_nat w) (x mod 256 ^ w) /\ - 256 ^ w / 2 <= x < 256 ^ w / 2 /\ (x = -1 \/ x = -2 \/ 0 <= x < zlen es)) /\
  (forall i k v, nth_error es i = Some (k, v) -> field m (keys + 40 + w * size + 24 * Z.of_nat i + 8) 8 k /\ field m (keys + 40 + w * size + 24 * Z.of_nat i + 16) 8 v).
Definition used3 (ix : list Z) : list Z := filter (fun x => negb (x =? -1) && negb (x =? -2)) ix.

(** a string object whose text is [s] *)
Definition stringAt (v3 : bool) (m : memory) (str : Z -> res (list Z)) (p : Z) (s : list Z) : Prop :=
  0 <= p /\ p + 72 < W64 /\
  if v3 then readable m p 48 /\ str (p + 48) = Ok s /\ exists state, field m (p + 32) 4 state /\ (state / 32) mod 2 = 1 /\ (state / 64) mod 2 = 1 /\ (state / 128) mod 2 = 1
  else str (p + 36) = Ok s.
(** one frame of a Python stack, and what the memory says about it: a code object with a name, a file name, a first line and a line table *)
Record pyframe : Type := mkPF { fAddr : Z; fFunc : list Z; fFile : list Z; fFirst : Z; fLasti : Z; fTable : list (Z * Z) }.
Definition lineTableAt (v3 : bool) (m : memory) (tab : Z) (es : list (Z * Z)) : Prop :=
  readable m tab 24 /\ field m (tab + 16) 8 (zlen (lineTable es)) /\ bytesAt m (tab + (if v3 then 32 else 36)) (lineTable es) /\ zlen (lineTable es) < stackMax /\
  Forall (fun e => 0 <= fst e < 256 /\ (if v3 then -128 <= snd e < 128 else 0 <= snd e < 256)) es.
Definition codeAt (v3 : bool) (m : memory) (lay : layout) (str : Z -> res (list Z)) (c : Z) (f : pyframe) : Prop :=
  readable m c (lCodeSize lay) /\
  (exists p, field m (c + lName lay) 8 p /\ stringAt v3 m str p (fFunc f)) /\ (exists p, field m (c + lFilename lay) 8 p /\ stringAt v3 m str p (fFile f)) /\
  (exists p, field m (c + lLnotab lay) 8 p /\ lineTableAt v3 m p (fTable f)) /\ field m (c + lFirstline lay) 4 (fFirst f mod 2 ^ 32) /\
  0 <= fFirst f < 2 ^ 30.
Definition okLayout (lay : layout) : Prop :=
  64 <= lFrameLasti lay < 1000 /\ lCodeSize lay < 1000 /\
  Forall (fun o => 0 <= o /\ o + 8 <= lCodeSize lay) [lName lay; lFilename lay; lLnotab lay; lFirstline lay].
Definition frameAt (v3 : bool) (m : memory) (lay : layout) (str : Z -> res (list Z)) (t basic item : Z) (f : pyframe) (back : Z) : Prop :=
  exists n c loc, objectAt m (fAddr f) (basic + item * Z.abs n) t n /\ 0 < item /\ Z.abs n <= 65536 /\ lFrameLasti lay + 4 <= basic /\
    field m (fAddr f + 24) 8 back /\ field m (fAddr f + 32) 8 c /\ field m (fAddr f + 56) 8 loc /\ c <> 0 /\
    field m (fAddr f + lFrameLasti lay) 4 (fLasti f mod 2 ^ 32) /\ - 2 ^ 31 <= fLasti f < 2 ^ 31 /\ codeAt v3 m lay str c f.
(** a chain of frames linked by f_back *)
Fixpoint stackAt (v3 : bool) (m : memory) (lay : layout) (str : Z -> res (list Z)) (t basic item : Z) (fs : list pyframe) (a : Z) : Prop :=
  match fs with
  | [] => a = 0
  | f :: r => fAddr f = a /\ exists back, frameAt v3 m lay str t basic item f back /\ stackAt v3 m lay str t basic item r back
  end.
(** the text of a frame, after its indentation *)
Definition frameText (indent : Z) (f : pyframe) : list out :=
  map Tok [TPrefix indent; TStr (fFunc f); TLit " in "; TStr (fFile f); TLit ":"; TNum (lineOf (fFirst f) (fLasti f) (fTable f)); TLit (String (Ascii.ascii_of_nat 10) EmptyString)].
(** [n] pointers at [a] *)
Definition pointersAt (m : memory) (a : Z) (l : list Z) : Prop := readable m a (8 * zlen l) /\ forall i p, nth_error l i = Some p -> field m (a + 8 * Z.of_nat i) 8 p.
(** the 30-bit digits of an integer object, and the integer: negative if the size field is *)
Definition digitsAt (m : memory) (a : Z) (ds : list Z) : Prop := forall i d, nth_error ds i = Some d -> field m (a + 24 + 4 * Z.of_nat i) 4 d /\ 0 <= d < 2 ^ 30.
Definition intValue (n : Z) (ds : list Z) : Z := if n <? 0 then - digitsValue ds else digitsValue ds.
(** a python 2 dictionary with [used] entries whose table has the slots [l], and a python 3 one *)
Definition dict2At (m : memory) (a : Z) (used mask : Z) (table : Z) (l : list (Z * Z)) : Prop :=
  field m (a + 24) 8 used /\ used <> 0 /\ field m (a + 32) 8 mask /\ field m (a + 40) 8 table /\ zlen l = mask + 1 /\ mask < 2 ^ 62 /\ slots2At m table l.
(** the value of entry [j]: its own, or that of the instance if keys are shared *)
Definition value3 (values : Z) (vs : list Z) (j : nat) (v : Z) : Z := if values =? 0 then v else nth j vs 0.
Definition item3 (values : Z) (vs : list Z) (es : list (Z * Z)) (x : Z) : list Z :=
  match nth_error es (Z.to_nat x) with Some (k, v) => [k; value3 values vs (Z.to_nat x) v] | None => [] end.
Definition dict3At (m : memory) (a used keys values : Z) (ix : list Z) (es : list (Z * Z)) (vs : list Z) : Prop :=
  field m (a + 16) 8 used /\ used <> 0 /\ field m (a + 32) 8 keys /\ field m (a + 40) 8 values /\ keysAt m keys ix es /\
  (values <> 0 -> pointersAt m values vs /\ length vs = length es).
(** a file name without its directory; the first "python" in it *)
Definition baseOf (s b : list Z) : Prop := ~ In 47 b /\ exists d, s = d ++ b /\ (d = [] \/ exists d', d = d' ++ [47]).
Definition word : list Z := [112; 121; 116; 104; 111; 110].
Definition firstPython (b pre rest : list Z) : Prop := b = pre ++ word ++ rest /\ forall pre' rest', b = pre' ++ word ++ rest' -> (length pre <= length pre')%nat.
(** all the tokens of an output in order; the top-level groups; the parentheses among the tokens that are not inside a group *)
Fixpoint tokens (o : out) : list tok := match o with Tok t => [t] | Call _ b => flat_map tokens b | Obj _ b => flat_map tokens b end.
Definition objs (l : list out) : list Z := flat_map (fun o => match o with Obj a _ => [a] | _ => [] end) l.
Fixpoint countC (c : Ascii.ascii) (s : string) : nat := match s with EmptyString => 0%nat | String x r => ((if Ascii.eqb x c then 1 else 0) + countC c r)%nat end.
Definition ownCount (c : Ascii.ascii) (l : list out) : nat := list_sum (map (fun o => match o with Tok (TLit s) => countC c s | _ => 0%nat end) l).
(** null-terminated lists of thread states and of interpreters *)
Fixpoint threadsAt (m : memory) (size nextOff : Z) (l : list Z) (a : Z) : Prop :=
  match l with
  | [] => a = 0
  | t :: r => a = t /\ t <> 0 /\ readable m t size /\ 0 <= nextOff /\ nextOff + 8 <= size /\ exists n, field m (t + nextOff) 8 n /\ threadsAt m size nextOff r n
  end.
Definition interpAt (m : memory) (p next head mods : Z) : Prop := p <> 0 /\ readable m p 24 /\ field m p 8 next /\ field m (p + 8) 8 head /\ field m (p + 16) 8 mods.
Fixpoint interpsAt (m : memory) (l : list Z) (a : Z) : Prop :=
  match l with [] => a = 0 | p :: r => a = p /\ exists next head mods, interpAt m p next head mods /\ interpsAt m r next end.
