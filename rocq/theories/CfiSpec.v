(** Specification of DWARF call frame information, written from the DWARF 5 standard
    (section 6.4) without reference to pstack's code. *)
From Verif Require Import Base LebSpec.

(** Little-endian encoding on [n] bytes. *)
Fixpoint leBytes (n : nat) (v : Z) : list Z :=
  match n with O => [] | S k => v mod 256 :: leBytes k (v / 256) end.

(** Call frame instructions (6.4.2.1 - 6.4.2.5) with their operands. *)
Inductive sinsn : Type :=
| SAdvanceLoc (d : Z) | SAdvanceLoc1 (d : Z) | SAdvanceLoc2 (d : Z) | SAdvanceLoc4 (d : Z)
| SSetLoc (a : Z)
| SOffset (r n : Z) | SOffsetExt (r n : Z) | SOffsetExtSf (r n : Z)
| SRestore (r : Z) | SRestoreExt (r : Z)
| SUndefined (r : Z) | SSameValue (r : Z) | SRegister (r1 r2 : Z)
| SRemember | SRestoreState
| SDefCfa (r n : Z) | SDefCfaSf (r n : Z) | SDefCfaRegister (r : Z)
| SDefCfaOffset (n : Z) | SDefCfaOffsetSf (n : Z) | SDefCfaExpression (blk : list Z)
| SExpression (r : Z) (blk : list Z) | SValExpression (r : Z) (blk : list Z)
| SNop.

Definition uleb := encodeU 10.
Definition sleb := encodeS 10.

(** Encoding, table 7.29. *)
Definition encodeI (i : sinsn) : list Z :=
  match i with
  | SAdvanceLoc d => [64 + d]
  | SOffset r n => (128 + r) :: uleb n
  | SRestore r => [192 + r]
  | SNop => [0]
  | SSetLoc a => 1 :: leBytes 8 a
  | SAdvanceLoc1 d => 2 :: leBytes 1 d
  | SAdvanceLoc2 d => 3 :: leBytes 2 d
  | SAdvanceLoc4 d => 4 :: leBytes 4 d
  | SOffsetExt r n => 5 :: uleb r ++ uleb n
  | SRestoreExt r => 6 :: uleb r
  | SUndefined r => 7 :: uleb r
  | SSameValue r => 8 :: uleb r
  | SRegister r1 r2 => 9 :: uleb r1 ++ uleb r2
  | SRemember => [10]
  | SRestoreState => [11]
  | SDefCfa r n => 12 :: uleb r ++ uleb n
  | SDefCfaRegister r => 13 :: uleb r
  | SDefCfaOffset n => 14 :: uleb n
  | SDefCfaExpression b => 15 :: uleb (zlen b) ++ b
  | SExpression r b => 16 :: uleb r ++ uleb (zlen b) ++ b
  | SOffsetExtSf r n => 17 :: uleb r ++ sleb n
  | SDefCfaSf r n => 18 :: uleb r ++ sleb n
  | SDefCfaOffsetSf n => 19 :: sleb n
  | SValExpression r b => 22 :: uleb r ++ uleb (zlen b) ++ b
  end.
Definition encodeP (p : list sinsn) : list Z := flat_map encodeI p.

(** Register rules and CFA rules (6.4.1). [RuleDefault]: no rule given, ABI default. *)
Inductive srule : Type :=
| RuleDefault | RuleUndefined | RuleSame | RuleOffset (n : Z) | RuleRegister (r : Z)
| RuleExpression (blk : list Z) | RuleValExpression (blk : list Z).
Inductive scfa : Type := CfaUnset | CfaRegOff (r n : Z) | CfaExpression (blk : list Z).

(** A row of the table: location, rules, CFA. *)
Record row : Type := mkRow { rowLoc : Z; rowRule : Z -> srule; rowCfa : scfa }.
Definition saved : Type := ((Z -> srule) * scfa)%type.

Definition upd (f : Z -> srule) (r : Z) (v : srule) : Z -> srule := fun x => if x =? r then v else f x.
Definition setRule (w : row) (r : Z) (v : srule) : row := mkRow (rowLoc w) (upd (rowRule w) r v) (rowCfa w).
Definition setCfaR (w : row) (v : scfa) : row := mkRow (rowLoc w) (rowRule w) v.
Definition setLocR (w : row) (l : Z) : row := mkRow l (rowRule w) (rowCfa w).

(** Meaning of one instruction; [None]: the program is invalid.  [ca]/[da]: alignment factors;
    [ini]: the rules established by the CIE's initial instructions. *)
Definition stepS (ca da : Z) (ini : Z -> srule) (s : row * list saved) (i : sinsn) : option (row * list saved) :=
  let '(w, st) := s in
  let ok w' := Some (w', st) in
  match i with
  | SAdvanceLoc d | SAdvanceLoc1 d | SAdvanceLoc2 d | SAdvanceLoc4 d => ok (setLocR w (rowLoc w + d * ca))
  | SSetLoc a => if rowLoc w <=? a then ok (setLocR w a) else None
  | SOffset r n | SOffsetExt r n | SOffsetExtSf r n => ok (setRule w r (RuleOffset (n * da)))
  | SRestore r | SRestoreExt r => ok (setRule w r (ini r))
  | SUndefined r => ok (setRule w r RuleUndefined)
  | SSameValue r => ok (setRule w r RuleSame)
  | SRegister r1 r2 => ok (setRule w r1 (RuleRegister r2))
  | SRemember => Some (w, (rowRule w, rowCfa w) :: st)
  | SRestoreState => match st with
                     | [] => None
                     | (rs, cfa) :: t => Some (mkRow (rowLoc w) rs cfa, t)
                     end
  | SDefCfa r n => ok (setCfaR w (CfaRegOff r n))
  | SDefCfaSf r n => ok (setCfaR w (CfaRegOff r (n * da)))
  | SDefCfaRegister r => match rowCfa w with CfaRegOff _ n => ok (setCfaR w (CfaRegOff r n)) | _ => None end
  | SDefCfaOffset n => match rowCfa w with CfaRegOff r _ => ok (setCfaR w (CfaRegOff r n)) | _ => None end
  | SDefCfaOffsetSf n => match rowCfa w with CfaRegOff r _ => ok (setCfaR w (CfaRegOff r (n * da))) | _ => None end
  | SDefCfaExpression b => ok (setCfaR w (CfaExpression b))
  | SExpression r b => ok (setRule w r (RuleExpression b))
  | SValExpression r b => ok (setRule w r (RuleValExpression b))
  | SNop => Some s
  end.

(** Instructions that create a new row: the current row is complete before them. *)
Definition changesLoc (i : sinsn) : bool :=
  match i with SAdvanceLoc _ | SAdvanceLoc1 _ | SAdvanceLoc2 _ | SAdvanceLoc4 _ | SSetLoc _ => true | _ => false end.

(** The whole table a program describes. *)
Fixpoint table (ca da : Z) (ini : Z -> srule) (s : row * list saved) (p : list sinsn) : option (list row) :=
  match p with
  | [] => Some [fst s]
  | i :: r => match stepS ca da ini s i with
              | None => None
              | Some s' => match table ca da ini s' r with
                           | None => None
                           | Some t => Some (if changesLoc i then fst s :: t else t)
                           end
              end
  end.
(** The row in force at [pc]: the last one that starts at or before it. *)
Fixpoint rowAt (pc : Z) (t : list row) : option row :=
  match t with
  | [] => None
  | w :: r => match rowAt pc r with
              | Some x => Some x
              | None => if rowLoc w <=? pc then Some w else None
              end
  end.

(** The operands are encodable and all quantities fit their machine representation. *)
Definition small (r : Z) : bool := (0 <=? r) && (r <? 2147483648).
Definition fits64 (x : Z) : bool := (- 9223372036854775808 <=? x) && (x <? 9223372036854775808).
Definition wfI (ca da : Z) (i : sinsn) : bool :=
  match i with
  | SAdvanceLoc d => (0 <=? d) && (d <? 64) && (d * ca <? 4294967296)
  | SAdvanceLoc1 d => (0 <=? d) && (d <? 256) && (d * ca <? 4294967296)
  | SAdvanceLoc2 d => (0 <=? d) && (d <? 65536) && (d * ca <? 4294967296)
  | SAdvanceLoc4 d => (0 <=? d) && (d * ca <? 4294967296) && (d <? 4294967296)
  | SSetLoc a => (0 <=? a) && (a <? 18446744073709551616)
  | SOffset r n => (0 <=? r) && (r <? 64) && (0 <=? n) && fits64 n && fits64 (n * da)
  | SOffsetExt r n => small r && (0 <=? n) && fits64 n && fits64 (n * da)
  | SOffsetExtSf r n => small r && fits64 n && fits64 (n * da)
  | SRestore r => (0 <=? r) && (r <? 64)
  | SRestoreExt r | SUndefined r | SSameValue r | SDefCfaRegister r => small r
  | SRegister r1 r2 => small r1 && small r2
  | SDefCfa r n => small r && (0 <=? n) && fits64 n
  | SDefCfaSf r n => small r && fits64 n && fits64 (n * da)
  | SDefCfaOffset n => (0 <=? n) && fits64 n
  | SDefCfaOffsetSf n => fits64 n && fits64 (n * da)
  | SDefCfaExpression _ => true
  | SExpression r _ | SValExpression r _ => small r
  | SRemember | SRestoreState | SNop => true
  end.
(** Every location the program reaches stays inside the 64-bit address space. *)
Definition locsFit (t : list row) : Prop := Forall (fun w => 0 <= rowLoc w < W64) t.

(** Running a whole program (used for the CIE's initial instructions). *)
Fixpoint runS (ca da : Z) (ini : Z -> srule) (s : row * list saved) (p : list sinsn) : option (row * list saved) :=
  match p with
  | [] => Some s
  | i :: r => match stepS ca da ini s i with None => None | Some s' => runS ca da ini s' r end
  end.
Definition noRules : Z -> srule := fun _ => RuleDefault.
Definition emptyRow : row := mkRow 0 noRules CfaUnset.

(** Programs in which remember_state and restore_state are correctly nested. *)
Inductive balanced : list sinsn -> Prop :=
| BalNil : balanced []
| BalPlain i p : i <> SRemember -> i <> SRestoreState -> balanced p -> balanced (i :: p)
| BalNest p q : balanced p -> balanced q -> balanced (SRemember :: p ++ SRestoreState :: q).
(** Instructions of a valid program that cannot fail because of the CFA's current form. *)
Definition needsCfaReg (i : sinsn) : bool :=
  match i with SDefCfaRegister _ | SDefCfaOffset _ | SDefCfaOffsetSf _ => true | _ => false end.

(** Encoded pointers (LSB exception handling supplement, DWARF EH pointer encodings).
    Formats with the value they denote and its encoding; applications with their base. *)
Inductive efmt : Type := FUleb | FUdata2 | FUdata4 | FUdata8 | FSleb | FSdata2 | FSdata4 | FSdata8 | FAbs.
Definition fmtCode (f : efmt) : Z :=
  match f with FAbs => 0 | FUleb => 1 | FUdata2 => 2 | FUdata4 => 3 | FUdata8 => 4
             | FSleb => 9 | FSdata2 => 10 | FSdata4 => 11 | FSdata8 => 12 end.
Definition fmtRange (f : efmt) (v : Z) : Prop :=
  match f with
  | FUleb | FUdata8 | FAbs => 0 <= v < 2 ^ 64
  | FUdata2 => 0 <= v < 2 ^ 16
  | FUdata4 => 0 <= v < 2 ^ 32
  | FSleb | FSdata8 => - 2 ^ 63 <= v < 2 ^ 63
  | FSdata2 => - 2 ^ 15 <= v < 2 ^ 15
  | FSdata4 => - 2 ^ 31 <= v < 2 ^ 31
  end.
Definition fmtBytes (f : efmt) (v : Z) : list Z :=
  match f with
  | FUleb => uleb v | FSleb => sleb v
  | FUdata2 => leBytes 2 v | FSdata2 => leBytes 2 (v mod 2 ^ 16)
  | FUdata4 => leBytes 4 v | FSdata4 => leBytes 4 (v mod 2 ^ 32)
  | FUdata8 | FAbs => leBytes 8 v | FSdata8 => leBytes 8 (v mod 2 ^ 64)
  end.
Inductive eapp : Type := AAbs | APcrel | ATextrel | ADatarel.
Definition appCode (a : eapp) : Z := match a with AAbs => 0 | APcrel => 16 | ATextrel => 32 | ADatarel => 48 end.
