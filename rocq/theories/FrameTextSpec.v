(** Specification of how frames are described: qualified names, types' names, the inlined calls at an
    address, and the lines of a frame. *)
From Coq Require Import Ascii String.
From Verif Require Import Base Json Lines Die DieAttr DieAttrSpec.

(** Text of a string literal. *)
Definition lit (s : string) : list Z := map (fun c => Z.of_nat (nat_of_ascii c)) (list_ascii_of_string s).
Fixpoint join (sep : list Z) (l : list (list Z)) : list Z :=
  match l with [] => [] | [x] => x | x :: r => x ++ sep ++ join sep r end.

Section Names.
Context (ents : Z -> option entry) (par : Z -> Z) (str : entry -> Z -> dval -> res (list Z)) (kids : Z -> list Z).

(** The declaration behind an entry: a definition refers to it with DW_AT_specification, an
    instance of an inlined function with DW_AT_abstract_origin. *)
Inductive DeclOf : Z -> Z -> Prop :=
| DSelf o e : ents o = Some e -> hasNo e 0x47 -> hasNo e 0x31 -> DeclOf o o
| DSpec o p d : refersTo ents o 0x47 p -> DeclOf p d -> DeclOf o d
| DOrigin o e p d : ents o = Some e -> hasNo e 0x47 -> refersTo ents o 0x31 p -> DeclOf p d -> DeclOf o d.
Definition tagIs (o tag : Z) : Prop := exists e, ents o = Some e /\ eTag e = tag.
(** The declaration of an entry below those of the entries around it, outermost first, up to the
    unit (DW_TAG_compile_unit 0x11 or partial_unit 0x3c). *)
Inductive Path : Z -> list Z -> Prop :=
| PUnit o d : DeclOf o d -> (tagIs d 0x11 \/ tagIs d 0x3c) -> Path o []
| PIn o d l : DeclOf o d -> ~ tagIs d 0x11 -> ~ tagIs d 0x3c -> par d <> 0 -> Path (par d) l -> Path o (l ++ [d]).
(** The text of the entry's DW_AT_name, empty if there is none. *)
Definition nameIs (o : Z) (n : list Z) : Prop :=
  exists r, Lookup ents 0x03 o r /\
    match r with None => n = [] | Some (o', form, v) => exists e', ents o' = Some e' /\ str e' form v = Ok n end.
(** The tags whose names qualify the names declared in them: namespace, structure, class, union, interface,
    enumeration. *)
Definition scopeTag (tag : Z) : Prop := In tag [0x39; 0x13; 0x02; 0x17; 0x38; 0x04].
(** The names of the qualifying scopes among the entries. *)
Inductive Qualifiers : list Z -> list (list Z) -> Prop :=
| QNil : Qualifiers [] []
| QScope o e l n ns : ents o = Some e -> scopeTag (eTag e) -> nameIs o n -> Qualifiers l ns -> Qualifiers (o :: l) (n :: ns)
| QOther o e l ns : ents o = Some e -> ~ scopeTag (eTag e) -> Qualifiers l ns -> Qualifiers (o :: l) ns.

(** The entry that DW_AT_type of an entry names; none for void. *)
Definition typeIs (o : Z) (t : option Z) : Prop :=
  exists r, Lookup ents 0x49 o r /\
    match r with
    | None => t = None
    | Some (o', form, v) => exists p, t = Some p /\ (exists e' w, ents o' = Some e' /\ v = VWord w /\
        ((form = 0x10 /\ p = w) \/ (In form [0x11; 0x12; 0x13; 0x14; 0x15] /\ p = eUnit e' + w)) /\ 0 <= p < W64 /\ ents p <> None)
    end.
(** How a type is written: its name; else pointers, qualifiers, references and function types after
    (around) the type they are built on. *)
Inductive TypeText : option Z -> list Z -> Prop :=
| TTVoid : TypeText None (lit "void")
| TTNamed o n : nameIs o n -> n <> [] -> TypeText (Some o) n
| TTBuilt o tag suffix b t : tagIs o tag -> In (tag, suffix) [(0x0f, " *"%string); (0x26, " const"%string); (0x35, " volatile"%string); (0x10, "&"%string)] ->
    nameIs o [] -> typeIs o b -> TypeText b t -> TypeText (Some o) (t ++ lit suffix)
| TTFunction o b t args : tagIs o 0x15 -> nameIs o [] -> typeIs o b -> TypeText b t -> ArgTexts (kids o) args ->
    TypeText (Some o) (t ++ lit "(" ++ join (lit ", ") args ++ lit ")")
with ArgTexts : list Z -> list (list Z) -> Prop :=
| ATNil : ArgTexts [] []
| ATParam a l t n ns : tagIs a 0x05 -> typeIs a t -> TypeText t n -> ArgTexts l ns -> ArgTexts (a :: l) (n :: ns)
| ATOther a e l ns : ents a = Some e -> eTag e <> 0x05 -> ArgTexts l ns -> ArgTexts (a :: l) ns.
End Names.

(** ** Inlined calls *)
Definition offOf (t : ftree) : Z := match t with FT o _ => o end.
Inductive subTree : ftree -> ftree -> Prop :=
| stRefl t : subTree t t
| stKid o ks k t : In k ks -> subTree t k -> subTree t (FT o ks).
(** The entries below [t] of the wanted tag that cover the address and are reached through entries that
    do not exclude it, in document order. *)
Definition hitsBelow (cov : Z -> contains) (tag : Z -> Z) (want : Z) (t : ftree) : list Z :=
  map snd (filter (DieAttrSpec.hit cov tag want) (tl (preorder [] t))).
Definition hitsIn (cov : Z -> contains) (tag : Z -> Z) (want : Z) (t : ftree) : list Z :=
  map snd (filter (DieAttrSpec.hit cov tag want) (preorder [] t)).
(** The code of an address belongs to one branch: of two siblings at most one has such entries. *)
Definition oneBranch (cov : Z -> contains) (tag : Z -> Z) (want : Z) (t : ftree) : Prop :=
  forall o ks, subTree (FT o ks) t -> ForallOrdPairs (fun a b => hitsIn cov tag want a = [] \/ hitsIn cov tag want b = []) ks.

(** ** Lines of a frame *)
(** A place in the source as written: file and line. *)
Definition place : Type := (list Z * list Z)%type.
Definition atText (p : place) : list Z := lit " at " ++ fst p ++ lit ":" ++ snd p.
(** The file called number [k] in the line table, with its directory in verbose mode. *)
Definition fileIs (verbose : bool) (li : lineInfo) (k : Z) (n : list Z) : Prop :=
  exists f d, znth k (liFiles li) = Some f /\ znth (fDir f) (liDirs li) = Some d /\ n = if verbose then d ++ lit "/" ++ fName f else fName f.
(** The number of a frame, as written, in at least two columns. *)
Definition column (no : list Z) : list Z := no ++ repeat 32 (2 - length no).
Definition inlineText (no : list Z) (name : list Z) (p : place) : list Z :=
  lit "#" ++ column no ++ lit " inlined            in " ++ name ++ atText p ++ [10].
(** The line of a frame in an image: number, address, function with flags, arguments, offset in the
    function if known, image with the address in it in verbose mode, place if known, how the frame was found in verbose mode. *)
Definition mainText (no ip name args : list Z) (off : option (list Z)) (image : list Z) (inImage : option (list Z)) (p : option place) (via : option (list Z)) : list Z :=
  lit "#" ++ column no ++ lit " 0x" ++ ip ++ lit " in " ++ name ++ lit "(" ++ args ++ lit ")" ++
  (match off with Some t => lit "+" ++ t | None => [] end) ++ lit " in " ++ image ++
  (match inImage with Some t => lit "@0x" ++ t | None => [] end) ++
  (match p with Some p => atText p | None => [] end) ++
  (match via with Some t => lit " via " ++ t | None => [] end) ++ [10].
(** The inlined calls, innermost first: each is shown at the place of the code in it, which is where the previous one
    was called from. *)
Fixpoint inlineTexts (no : list Z) (ns : list (list Z)) (src : place) (sites : list place) : list Z :=
  match ns, sites with
  | n :: ns', c :: sites' => inlineText no n src ++ inlineTexts no ns' c sites'
  | _, _ => []
  end.
