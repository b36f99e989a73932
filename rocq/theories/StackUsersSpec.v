(** Specification of stackusers' report, in terms of the call frame instructions of each function (CfiSpec.v,
    FramesSpec.v): the largest offset a register is saved at or the CFA has, anywhere in the function. *)
From Verif Require Import Base CfiSpec FramesSpec ArgsSpec.

(** An offset in a row: of a saved register or of the CFA. *)
Definition offsetIn (w : row) (n : Z) : Prop := (exists r, rowRule w r = RuleOffset n) \/ (exists r, rowCfa w = CfaRegOff r n).
(** The rows a program passes through from [s]: those after each of its prefixes. *)
Definition passes (ca da : Z) (ini : Z -> srule) (s : row * list saved) (p : list sinsn) (w : row) : Prop :=
  exists p1 p2 st, p = p1 ++ p2 /\ runS ca da ini s p1 = Some (w, st).
(** The deepest: the largest such offset, at least 0. *)
Definition deepest (ca da : Z) (ini : Z -> srule) (s : row * list saved) (p : list sinsn) (d : Z) : Prop :=
  0 <= d /\ (forall w n, passes ca da ini s p w -> offsetIn w n -> n <= d) /\
  (d = 0 \/ exists w, passes ca da ini s p w /\ offsetIn w d).

(** A function in the symbol table. *)
Record func : Type := mkFn { fnStart : Z; fnSize : Z; fnName : list Z }.
(** The programs of the FDE [f] and its CIE [c] for a function that starts at [a]: they are valid, end in [last], and get as deep as [d]. *)
Definition describes (a : Z) (c : scie) (f : sfde) (d last : Z) : Prop :=
  exists cieP fdeP ct t,
    scInsns c = encodeP cieP /\ sfInsns f = encodeP fdeP /\
    forallb (wfI (scCode c) (scData c)) cieP = true /\ forallb (wfI (scCode c) (scData c)) fdeP = true /\
    runS (scCode c) (scData c) noRules (emptyRow, []) cieP = Some ct /\ rowLoc (fst ct) < 2 ^ 64 /\
    (let s0 := (mkRow a (rowRule (fst ct)) (rowCfa (fst ct)), []) in
     runS (scCode c) (scData c) (rowRule (fst ct)) s0 fdeP = Some t /\ rowLoc (fst t) = last /\ last + 1 < 2 ^ 64 /\
     deepest (scCode c) (scData c) (rowRule (fst ct)) s0 fdeP d).

(** The report: a line for each function that has a size, lies in an executable segment and is asked for (all
    are if no names are given), in the order of the symbol table. *)
Definition asked (names : list (list Z)) (y : func) : Prop := names = [] \/ In (fnName y) names.
Definition functionLine (y : func) (deep extent size : list Z) : list Z := deep ++ [9] ++ extent ++ [9] ++ size ++ [9] ++ fnName y ++ [10].
Inductive Report (sa : Z) (es : list (Z * entry)) (fs : list (Z * sfde)) (inSeg inCode : Z -> Prop) (names : list (list Z)) : list func -> list Z -> Prop :=
| ReNone : Report sa es fs inSeg inCode names [] []
| ReNoSize y r t : fnSize y = 0 -> Report sa es fs inSeg inCode names r t -> Report sa es fs inSeg inCode names (y :: r) t
| ReData y r t : fnSize y <> 0 -> inSeg (fnStart y) -> ~ inCode (fnStart y) -> Report sa es fs inSeg inCode names r t -> Report sa es fs inSeg inCode names (y :: r) t
| ReOther y r t : fnSize y <> 0 -> inSeg (fnStart y) -> ~ asked names y -> Report sa es fs inSeg inCode names r t -> Report sa es fs inSeg inCode names (y :: r) t
| ReLine y r t x c d last deep extent size :
    fnSize y <> 0 -> inCode (fnStart y) -> asked names y ->
    In x fs -> covers sa es x (fnStart y) -> cieOf es (sfCie (snd x)) = Some c -> describes (fnStart y) c (snd x) d last ->
    decimal deep d -> decimal extent (last - fnStart y + 1) -> decimal size (fnSize y) ->
    Report sa es fs inSeg inCode names r t ->
    Report sa es fs inSeg inCode names (y :: r) (functionLine y deep extent size ++ t).
