(** Specification of a running program as the kernel and the dynamic linker present it: elf(5),
    getauxval(3), <link.h>. *)
From Verif Require Import Base CfiSpec ArgsSpec.

(** ** The auxiliary vector: pairs of words *)
Definition auxBytes (l : list (Z * Z)) : list Z := flat_map (fun e => leBytes 8 (fst e) ++ leBytes 8 (snd e)) l.
Definition wordOk (v : Z) : Prop := 0 <= v < 2 ^ 64.
(** The value of the last entry of type [t], [d] if there is none. *)
Fixpoint lastOf (t : Z) (l : list (Z * Z)) (d : Z) : Z :=
  match l with
  | [] => d
  | e :: r => lastOf t r (if fst e =? t then snd e else d)
  end.

(** ** Program headers *)
Record phd : Type := mkPhd { hType : Z; hFlags : Z; hOffset : Z; hVaddr : Z; hPaddr : Z; hFilesz : Z; hMemsz : Z; hAlign : Z }.
Definition phBytes (h : phd) : list Z :=
  leBytes 4 (hType h) ++ leBytes 4 (hFlags h) ++ leBytes 8 (hOffset h) ++ leBytes 8 (hVaddr h) ++ leBytes 8 (hPaddr h) ++
  leBytes 8 (hFilesz h) ++ leBytes 8 (hMemsz h) ++ leBytes 8 (hAlign h).
Definition phOk (h : phd) : Prop := 0 <= hType h < 2 ^ 32 /\ wordOk (hVaddr h) /\ wordOk (hFilesz h).
Definition ofType (t : Z) (hs : list phd) : list phd := filter (fun h => hType h =? t) hs.

(** ** The dynamic segment: tags and values; DT_DEBUG is 21 *)
Definition firstDebug (ds : list (Z * Z)) : Z :=
  match find (fun d => (fst d =? 21) && negb (snd d =? 0)) ds with Some d => snd d | None => 0 end.

(** ** Notes: sizes, type, name padded to 4 bytes, contents *)
Record note : Type := mkNote { nName : list Z; nType : Z; nDesc : list Z }.
Definition pad4 (l : list Z) : list Z := l ++ repeat 0 (Z.to_nat ((- zlen l) mod 4)).
Definition noteBytes (n : note) : list Z :=
  leBytes 4 (zlen (nName n)) ++ leBytes 4 (zlen (nDesc n)) ++ leBytes 4 (nType n) ++ pad4 (nName n) ++ nDesc n.
Definition noteOk (n : note) : Prop := 0 <= nType n < 2 ^ 32 /\ zlen (nName n) < 2 ^ 32 /\ zlen (nDesc n) < 2 ^ 32 /\ (nType n = 3 -> exists s, nName n = s ++ [0]).
(** A build ID is the contents of a note "GNU" of type 3. *)
Definition isBuildId (n : note) : bool := (nType n =? 3) && (if list_eq_dec Z.eq_dec (nName n) [71; 78; 85; 0] then true else false).
Definition buildId (ns : list note) : option (list Z) := option_map nDesc (find isBuildId ns).

(** ** The link map: entries at an address, each the load address and the name of an object *)
(** [linkPath a l b]: from [a], the entries [l] lead to [b]. *)
Inductive linkPath (m : memory) (str : Z -> res (list Z)) : Z -> list (Z * Z * list Z) -> Z -> Prop :=
| lpEnd b : linkPath m str b [] b
| lpCons a addr nm ld next prev name l b :
    a <> 0 -> wordOk addr -> wordOk nm -> wordOk next ->
    holds m a (leBytes 8 addr ++ leBytes 8 nm ++ leBytes 8 ld ++ leBytes 8 next ++ leBytes 8 prev) ->
    (nm = 0 /\ name = [] \/ nm <> 0 /\ str nm = Ok name) ->
    linkPath m str next l b -> linkPath m str a ((a, addr, name) :: l) b.
Definition linkMap (m : memory) (str : Z -> res (list Z)) (a : Z) (l : list (Z * Z * list Z)) : Prop := linkPath m str a l 0.
(** There are no [n] bytes of memory at [a]. *)
Definition unreadable (m : memory) (a n : Z) : Prop := forall bs, zlen bs = n -> ~ holds m a bs.
(** What [rd] (DT_DEBUG) points to: a structure with the address of the first entry at 8. *)
Definition rDebugAt (m : memory) (rd first : Z) : Prop :=
  wordOk first /\ exists v brk st ld, holds m rd (leBytes 8 v ++ leBytes 8 first ++ leBytes 8 brk ++ leBytes 8 st ++ leBytes 8 ld).

(** Entries whose address has not occurred before. *)
Fixpoint keepFirst (seen : list Z) (l : list (Z * list Z)) : list (Z * list Z) :=
  match l with
  | [] => []
  | e :: r => if in_dec Z.eq_dec (fst e) seen then keepFirst seen r else e :: keepFirst (fst e :: seen) r
  end.

(** ** The NT_FILE note of a core: number of entries, page size, entries, names *)
Record mapping : Type := mkMap { mName : list Z; mStart : Z; mEnd : Z; mPgoff : Z }.
Definition fileNoteBytes (pg : Z) (es : list mapping) : list Z :=
  leBytes 8 (zlen es) ++ leBytes 8 pg ++ flat_map (fun e => leBytes 8 (mStart e) ++ leBytes 8 (mEnd e) ++ leBytes 8 (mPgoff e)) es ++
  flat_map (fun e => mName e ++ [0]) es.
Definition mappingOk (e : mapping) : Prop := wordOk (mStart e) /\ wordOk (mEnd e) /\ wordOk (mPgoff e) /\ ~ In 0 (mName e).
(** The objects a link map lists besides its first entry: those with a name, but not the vdso. *)
Definition listed (vdso : Z) (l : list (Z * Z * list Z)) : list (Z * list Z) :=
  flat_map (fun x => let '(_, addr, name) := x in
                     match name with
                     | [] => []
                     | _ => if negb (vdso =? 0) && (addr =? vdso) then [] else [(addr, name)]
                     end) l.
