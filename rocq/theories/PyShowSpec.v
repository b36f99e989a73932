(** What the theorems about the text of Python values are stated with.  Nothing here uses the printer. *)
From Coq Require Import String.
From Verif Require Import Base CfiSpec Python PythonSpec.

(** the output of one object: text, indentation, and the places where another object is shown *)
Inductive piece : Type := Text (t : tok) | Indent | Value (a : Z).
Definition pieces (l : list out) : list piece :=
  flat_map (fun o => match o with Tok (TPrefix _) => [Indent] | Tok t => [Text t] | Call a _ => [Value a] | Obj _ _ => [] end) l.
Definition txt (s : string) : piece := Text (TLit s).
Definition newline : string := String (Ascii.ascii_of_nat 10) EmptyString.
(** elements of a list or tuple; items of a dictionary *)
Definition elementLines (l : list Z) : list piece := flat_map (fun x => [Indent; Value x; txt ("," ++ newline)]) l.
(** "name=value" lines under a heading; nothing if there are no variables *)
Definition varLines (title : string) (ns vs : list Z) : list piece :=
  match ns with [] => [] | _ => [Indent; txt (title ++ ":" ++ newline)] ++ flat_map (fun e => [Indent; Value (fst e); txt "="; Value (snd e); txt newline]) (combine ns vs) end.
(** a tuple object at [p] that holds [l] *)
Definition tupleAt (m : memory) (p : Z) (l : list Z) : Prop := readable m p 32 /\ field m (p + 16) 8 (zlen l) /\ pointersAt m (p + 24) l.

(** what a frame knows about its variables: the names of its local variables (arguments first), cells and free variables and the values of all of them; the
    numbers of positional and keyword-only parameters; whether there are an argument tuple and an argument dictionary *)
Record pyvars : Type := mkPV { vNames : list Z; vValues : list Z; vCells : list Z; vCellValues : list Z; vFree : list Z; vFreeValues : list Z;
  vPos : nat; vKw : nat; vStar : bool; vStarStar : bool; vDict : Z }.
Definition varsAt (v3 : bool) (m : memory) (lay : layout) (c a : Z) (v : pyvars) : Prop :=
  (exists p, field m (c + lVarnames lay) 8 p /\ tupleAt m p (vNames v)) /\ (exists p, field m (c + lCellvars lay) 8 p /\ tupleAt m p (vCells v)) /\
  (exists p, field m (c + lFreevars lay) 8 p /\ tupleAt m p (vFree v)) /\ field m (c + lNlocals lay) 4 (zlen (vValues v)) /\
  pointersAt m (a + lFrameLocals lay) (vValues v ++ vCellValues v ++ vFreeValues v) /\
  length (vNames v) = length (vValues v) /\ length (vCells v) = length (vCellValues v) /\ length (vFree v) = length (vFreeValues v) /\
  zlen (vValues v) < 2 ^ 20 /\ zlen (vCells v) <= 1000000 /\ zlen (vFree v) <= 1000000 /\
  field m (c + lArgcount lay) 4 (Z.of_nat (vPos v)) /\ (if v3 then field m (c + lKwonly lay) 4 (Z.of_nat (vKw v)) else vKw v = 0%nat) /\
  (exists flags, field m (c + lFlags lay) 4 flags /\ Z.testbit flags 2 = vStar v /\ Z.testbit flags 3 = vStarStar v) /\
  (vPos v + vKw v + (if vStar v then 1 else 0) + (if vStarStar v then 1 else 0) <= length (vValues v))%nat /\ field m (a + 56) 8 (vDict v).
Definition okLayout2 (lay : layout) : Prop :=
  0 <= lFrameLocals lay < 1000 /\ Forall (fun o => 0 <= o /\ o + 8 <= lCodeSize lay) [lArgcount lay; lKwonly lay; lNlocals lay; lFlags lay; lVarnames lay; lFreevars lay; lCellvars lay].
(** local variables, cells, free variables and the dictionary of locals *)
Definition localLines (v : pyvars) : list piece :=
  varLines "fastlocals" (vNames v) (vValues v) ++ varLines "cells" (vCells v) (vCellValues v) ++ varLines "freevars" (vFree v) (vFreeValues v) ++
  (if vDict v =? 0 then [] else [Indent; txt ("locals:" ++ newline); Value (vDict v)]).

(** positional arguments, separated; the last is followed by a separator if there are other parameters *)
Fixpoint posText (more : bool) (l : list Z) : list piece :=
  match l with
  | [] => []
  | x :: r => Value x :: (if more || negb (Nat.eqb (length r) 0) then [txt ", "] else []) ++ posText more r
  end.
(** the elements [xs] of the argument tuple; the names [kn] of the keyword-only parameters and [dn] of the argument dictionary as text *)
Definition argText (v : pyvars) (xs : list Z) (kn : list (list Z)) (dn : list Z) : list piece :=
  let n := (vPos v + vKw v)%nat in
  [txt "("] ++ posText (vStar v || vStarStar v || negb (Nat.eqb (vKw v) 0)) (firstn (vPos v) (vValues v)) ++ [txt "=("] ++
  (if vStar v then [Value (nth n (vNames v) 0)] ++ flat_map (fun x => [txt ", "; Value x]) xs else []) ++
  flat_map (fun e => [txt ", "; Text (TStr (fst e)); txt "="; Value (snd e)]) (combine kn (firstn (vKw v) (skipn (vPos v) (vValues v)))) ++
  (if vStarStar v then [txt ", "; Text (TStr dn); txt "="; Value (nth (if vStar v then S n else n) (vValues v) 0)] else []) ++ [txt ")"].
Definition argsAt (v3 : bool) (m : memory) (str : Z -> res (list Z)) (v : pyvars) (xs : list Z) (kn : list (list Z)) (dn : list Z) : Prop :=
  let n := (vPos v + vKw v)%nat in
  (vStar v = true -> exists t, nth_error (vValues v) n = Some t /\ tupleAt m t xs /\ zlen xs < 128) /\
  (vKw v < 128)%nat /\ Forall2 (stringAt v3 m str) (firstn (vKw v) (skipn (vPos v) (vNames v))) kn /\
  (vStarStar v = true -> exists p, nth_error (vNames v) (if vStar v then S n else n) = Some p /\ stringAt v3 m str p dn).
(** everything a frame shows *)
Definition frameShow (doargs dolocals : bool) (f : pyframe) (v : pyvars) (xs : list Z) (kn : list (list Z)) (dn : list Z) : list piece :=
  [Indent; Text (TStr (fFunc f))] ++ (if doargs then argText v xs kn dn else []) ++
  [txt " in "; Text (TStr (fFile f)); txt ":"; Text (TNum (lineOf (fFirst f) (fLasti f) (fTable f))); txt newline] ++ (if dolocals then localLines v else []).
(** what an object of each kind holds, and the text that shows it; [size] is its length *)
Inductive showsAs (v3 : bool) (m : memory) (str : Z -> res (list Z)) (a size : Z) : kind -> list piece -> Prop :=
  | sFloat bits : 24 <= size -> field m (a + 16) 8 bits -> showsAs v3 m str a size KFloat [Text (TFloat bits)]
  | sInt v : 24 <= size -> field m (a + 16) 8 (v mod 2 ^ 64) -> - 2 ^ 63 <= v < 2 ^ 63 -> showsAs v3 m str a size KInt [Text (TNum v)]
  | sBool v : 28 <= size -> (if v3 then field m (a + 24) 4 v else field m (a + 16) 8 v) -> showsAs v3 m str a size KBool [txt (if v =? 0 then "False" else "True")]
  | sType p s : 32 <= size -> field m (a + 24) 8 p -> str p = Ok s -> showsAs v3 m str a size KType [txt "type :"""; Text (TStr s); txt """"]
  | sClass p : 40 <= size -> field m (a + 32) 8 p -> showsAs v3 m str a size KClass [txt "<class "; Value p; txt ">"]
  | sModule d : 24 <= size -> field m (a + 16) 8 d -> showsAs v3 m str a size KModule [Value d]
  | sInstance c d : 32 <= size -> field m (a + 16) 8 c -> field m (a + 24) 8 d ->
      showsAs v3 m str a size KInstance [txt newline; Indent; txt "class: "; Value c; txt newline; Indent; txt ("dict: " ++ newline); Value d]
  | sList n items l : 32 <= size -> field m (a + 16) 8 n -> field m (a + 24) 8 items -> zlen l = n -> n <= 100 -> pointersAt m items l ->
      showsAs v3 m str a size KList ([txt ("[ " ++ newline)] ++ elementLines l ++ [Indent; txt "]"]).
