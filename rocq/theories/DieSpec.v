(** Specification of debugging information entries (DWARF 2-5, sections 2 and 7.5). *)
From Verif Require Import Base CfiSpec LinesSpec.

(** What decides the size of an attribute: the version, the size of an offset (4 or 8 according to
    the format) and the size of an address. *)
Record fmt : Type := mkFmt { fVer : Z; fOff : nat; fAddr : nat }.

(** An attribute value in its form (7.5.5). *)
Inductive aval : Type :=
| AFixed (form : Z) (size : nat) (v : Z)       (* a form of fixed size *)
| ALeb (form : Z) (v : Z)                      (* an unsigned LEB128 form *)
| ASdata (v : Z)
| AAddr (v : Z)
| AOffset (form : Z) (v : Z)                   (* strp, line_strp, sec_offset, GNU_strp_alt: section offsets *)
| ARefAddr (form : Z) (v : Z)                  (* ref_addr, GNU_ref_alt *)
| AString (s : list Z)
| ABlock (form : Z) (bytes : list Z)
| AFlag (b : Z) | APresent | AImplicit (v : Z).
(** data1/2/4/8, ref1/2/4/8, ref_sig8, strx1-4, addrx1-4 *)
Definition fixedForms : list (Z * nat) :=
  [(0x0b, 1%nat); (0x05, 2%nat); (0x06, 4%nat); (0x07, 8%nat); (0x11, 1%nat); (0x12, 2%nat); (0x13, 4%nat); (0x14, 8%nat); (0x20, 8%nat);
   (0x25, 1%nat); (0x26, 2%nat); (0x27, 3%nat); (0x28, 4%nat); (0x29, 1%nat); (0x2a, 2%nat); (0x2b, 3%nat); (0x2c, 4%nat)].
(** udata, ref_udata, strx, addrx, loclistx, rnglistx, GNU_addr_index, GNU_str_index *)
Definition lebForms : list Z := [0x0f; 0x15; 0x1a; 0x1b; 0x22; 0x23; 0x1f01; 0x1f02].
Definition offsetForms : list Z := [0x0e; 0x1f; 0x17; 0x1f21].
(** block1, block2, block4 by the size of their length; block and exprloc have a LEB128 length *)
Definition blockForms : list (Z * nat) := [(0x0a, 1%nat); (0x03, 2%nat); (0x04, 4%nat)].
Definition lebBlockForms : list Z := [0x09; 0x18].

Definition formOfA (v : aval) : Z :=
  match v with
  | AFixed f _ _ | ALeb f _ | AOffset f _ | ARefAddr f _ | ABlock f _ => f
  | ASdata _ => 0x0d | AAddr _ => 0x01 | AString _ => 0x08 | AFlag _ => 0x0c | APresent => 0x19 | AImplicit _ => 0x21
  end.
Definition blockLen (form n : Z) : list Z :=
  match find (fun p => fst p =? form) blockForms with Some (_, k) => leBytes k n | None => uleb n end.
(** A reference to another unit has, in version 2, the size of an address. *)
Definition refSize (f : fmt) : nat := if fVer f <=? 2 then fAddr f else fOff f.
Definition encodeA (f : fmt) (v : aval) : list Z :=
  match v with
  | AFixed _ n x => leBytes n x
  | ALeb _ x => uleb x | ASdata x => sleb x
  | AAddr x => leBytes (fAddr f) x
  | AOffset _ x => leBytes (fOff f) x
  | ARefAddr _ x => leBytes (refSize f) x
  | AString s => cstr s
  | ABlock form b => blockLen form (zlen b) ++ b
  | AFlag b => [b] | APresent | AImplicit _ => []
  end.
Definition wfA (f : fmt) (v : aval) : Prop :=
  match v with
  | AFixed form n x => In (form, n) fixedForms /\ 0 <= x < 256 ^ Z.of_nat n
  | ALeb form x => In form lebForms /\ 0 <= x < 2 ^ 64
  | ASdata x => - 2 ^ 63 <= x < 2 ^ 63
  | AAddr x => 0 <= x < 256 ^ Z.of_nat (fAddr f)
  | AOffset form x => In form offsetForms /\ 0 <= x < 256 ^ Z.of_nat (fOff f) /\ (fVer f <= 2 -> In form [0x0e; 0x1f])
  | ARefAddr form x => (form = 0x10 \/ (form = 0x1f20 /\ 2 < fVer f)) /\ 0 <= x < 256 ^ Z.of_nat (refSize f)
  | AString s => isText s
  | ABlock form b => (In form lebBlockForms \/ exists k, In (form, k) blockForms /\ zlen b < 256 ^ Z.of_nat k)
  | AFlag b => isByte b | APresent => True | AImplicit x => - 2 ^ 63 <= x < 2 ^ 63
  end.
Definition wfFmt (f : fmt) : Prop := 2 <= fVer f <= 5 /\ (fOff f = 4%nat \/ fOff f = 8%nat) /\ (0 < fAddr f <= 8)%nat /\ (fVer f = 2 -> fOff f = 4%nat /\ fAddr f = 8%nat).
(** The offset is small enough to be read as a signed number. *)
Definition offsetSmall (f : fmt) (v : aval) : Prop :=
  match v with AOffset _ x => 2 * x < 256 ^ Z.of_nat (fOff f) | _ => True end.

(** ** Abbreviation declarations (7.5.3) *)
Record sdecl : Type := mkDecl { sdCode : Z; sdTag : Z; sdKids : bool; sdAttrs : list (Z * Z * Z) }.   (* name, form, implicit value *)
Definition encodeSpec (a : Z * Z * Z) : list Z :=
  let '(name, form, v) := a in uleb name ++ uleb form ++ (if form =? 0x21 then sleb v else []).
Definition encodeDecl (d : sdecl) : list Z :=
  uleb (sdCode d) ++ uleb (sdTag d) ++ [if sdKids d then 1 else 0] ++ flat_map encodeSpec (sdAttrs d) ++ [0; 0].
Definition encodeDecls (l : list sdecl) : list Z := flat_map encodeDecl l ++ [0].
Definition wfDecl (d : sdecl) : Prop :=
  0 < sdCode d < W64 /\ 0 <= sdTag d < W64 /\
  Forall (fun a => let '(name, form, v) := a in 0 < name < W64 /\ 0 < form < W64 /\ (if form =? 0x21 then - 2 ^ 63 <= v < 2 ^ 63 else v = 0)) (sdAttrs d).

(** ** The tree of entries *)
(** An entry: the code of its declaration, its attribute values, its children. *)
Inductive dtree : Type := DT (code : Z) (vals : list aval) (kids : list dtree).
Definition tCode (t : dtree) := let 'DT c _ _ := t in c.
Definition tVals (t : dtree) := let 'DT _ v _ := t in v.
Definition tKids (t : dtree) := let 'DT _ _ k := t in k.
Definition declOf (ds : list sdecl) (code : Z) : option sdecl := find (fun d => sdCode d =? code) ds.
Definition hasKids (ds : list sdecl) (code : Z) : bool := match declOf ds code with Some d => sdKids d | None => false end.
(** Children follow their parent and are ended by a null entry (2.3). *)
Fixpoint encodeT (f : fmt) (ds : list sdecl) (t : dtree) : list Z :=
  match t with
  | DT c vs ks => uleb c ++ flat_map (encodeA f) vs ++ (if hasKids ds c then flat_map (encodeT f ds) ks ++ [0] else [])
  end.
Definition headLen (f : fmt) (t : dtree) : Z := zlen (uleb (tCode t) ++ flat_map (encodeA f) (tVals t)).
(** Well-formed at offset [off] of the section, in a unit starting at [base]: the values have the
    declared forms, only entries declared to have children have any, and a DW_AT_sibling
    attribute (name 1) is a reference relative to the unit to what follows the subtree. *)
Definition sibOk (base endoff : Z) (a : Z * Z * Z) (v : aval) : Prop :=
  fst (fst a) = 1 -> In (formOfA v) [0x11; 0x12; 0x13; 0x14; 0x15] /\ (forall n x, v = AFixed (formOfA v) n x -> base + x = endoff) /\ (forall x, v = ALeb (formOfA v) x -> base + x = endoff).
Inductive wfT (f : fmt) (ds : list sdecl) (base : Z) : Z -> dtree -> Prop :=
| WfT off c vs ks d :
    declOf ds c = Some d ->
    Forall2 (fun a v => snd (fst a) = formOfA v /\ (forall x, v = AImplicit x -> x = snd a) /\ wfA f v /\
                        sibOk base (off + zlen (encodeT f ds (DT c vs ks))) a v) (sdAttrs d) vs ->
    (sdKids d = false -> ks = []) ->
    wfL f ds base (off + headLen f (DT c vs ks)) ks ->
    wfT f ds base off (DT c vs ks)
with wfL (f : fmt) (ds : list sdecl) (base : Z) : Z -> list dtree -> Prop :=
| WfNil off : wfL f ds base off []
| WfCons off t ts : wfT f ds base off t -> wfL f ds base (off + zlen (encodeT f ds t)) ts -> wfL f ds base off (t :: ts).
(** The offsets of a tree's children. *)
Fixpoint offsL (f : fmt) (ds : list sdecl) (off : Z) (ts : list dtree) : list Z :=
  match ts with [] => [] | t :: r => off :: offsL f ds (off + zlen (encodeT f ds t)) r end.
Definition kidOffs (f : fmt) (ds : list sdecl) (off : Z) (t : dtree) : list Z := offsL f ds (off + headLen f t) (tKids t).
(** [inTree t0 off0 t off]: [t] occurs in [t0] at offset [off]; [kidAt p poff k koff] child relation. *)
Inductive kidAt (f : fmt) (ds : list sdecl) : Z -> dtree -> Z -> dtree -> Prop :=
| KidAt off t l1 k l2 : tKids t = l1 ++ k :: l2 ->
    kidAt f ds off t (off + headLen f t + zlen (flat_map (encodeT f ds) l1)) k.
Inductive inTree (f : fmt) (ds : list sdecl) : Z -> dtree -> Z -> dtree -> Prop :=
| InHere off t : inTree f ds off t off t
| InKid off t ko k o x : kidAt f ds off t ko k -> inTree f ds ko k o x -> inTree f ds off t o x.
