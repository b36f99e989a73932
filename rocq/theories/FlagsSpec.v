(** Specification of command lines: which handlers a command line stands for. *)
From Verif Require Import Base Flags.

(** an option as passed to add(): long name, letter (0 for none), whether it takes an argument *)
Record odef : Type := mkO { oName : list Z; oShort : Z; oArg : bool }.
Definition letter (c : Z) : Prop := 48 <= c <= 57 \/ 65 <= c <= 90 \/ 97 <= c <= 122.
(** option tables: names not empty and without '=', all different; letters, all different *)
Definition okDefs (ds : list odef) : Prop :=
  Forall (fun d => oName d <> [] /\ ~ In 61 (oName d) /\ (oShort d = 0 \/ letter (oShort d))) ds /\
  NoDup (map oName ds) /\ NoDup (filter (fun c => negb (c =? 0)) (map oShort ds)).
Section Spec.
Variable ds : list odef.
(** the letters of options without argument, and the numbers of those options *)
Inductive letters : list Z -> list (nat * option (list Z)) -> Prop :=
| LNil : letters [] []
| LCons i d l calls : nth_error ds i = Some d -> oShort d <> 0 -> oArg d = false -> letters l calls -> letters (oShort d :: l) ((i, None) :: calls).
(** a text stands for an option if it is its name, or the start of its name and of no other's (and is no option's name itself) *)
Definition startsName (n : list Z) (d : odef) : Prop := exists r, oName d = n ++ r.
Inductive stands (n : list Z) (i : nat) (d : odef) : Prop :=
| SExact : nth_error ds i = Some d -> oName d = n -> stands n i d
| SShort : nth_error ds i = Some d -> n <> [] -> startsName n d -> (forall j d', nth_error ds j = Some d' -> startsName n d' -> j = i) -> stands n i d.
(** one unit of a command line, and the calls it stands for: option number and argument *)
Inductive item : list (list Z) -> list (nat * option (list Z)) -> Prop :=
| ILong n i d : stands n i d -> oArg d = false -> item [45 :: 45 :: n] [(i, None)]                                                 (* --name *)
| ILongEq n i d v : stands n i d -> oArg d = true -> item [45 :: 45 :: n ++ 61 :: v] [(i, Some v)]                                  (* --name=v *)
| ILongNext n i d v : stands n i d -> oArg d = true -> item [45 :: 45 :: n; v] [(i, Some v)]                                        (* --name v *)
| IShort l calls : letters l calls -> l <> [] -> item [45 :: l] calls                                                              (* -abc *)
| IShortArg l calls i d v : letters l calls -> nth_error ds i = Some d -> oShort d <> 0 -> oArg d = true -> v <> [] ->
    item [45 :: l ++ oShort d :: v] (calls ++ [(i, Some v)])                                                                       (* -abcv *)
| IShortNext l calls i d v : letters l calls -> nth_error ds i = Some d -> oShort d <> 0 -> oArg d = true ->
    item [45 :: l ++ [oShort d]; v] (calls ++ [(i, Some v)])                                                                       (* -abc v *)
| IOperand a : (forall r, a <> 45 :: r) \/ a = [45] -> item [a] [].
Inductive items : list (list Z) -> list (nat * option (list Z)) -> Prop :=
| ItNil : items [] []
| ItCons a b ca cb : item a ca -> items b cb -> items (a ++ b) (ca ++ cb).
(** no option has the text, or anything that starts with it, as its name *)
Definition unknownName (n : list Z) : Prop := forall d, In d ds -> ~ exists r, oName d = n ++ r.
Definition unknownLetter (c : Z) : Prop := forall d, In d ds -> oShort d <> c.
(** a command line that goes wrong at its first unit: the calls made before *)
Inductive wrong : list (list Z) -> list (nat * option (list Z)) -> Prop :=
| WLong n v rest : n <> [] -> ~ In 61 n -> v = [] \/ (exists w, v = 61 :: w) -> unknownName n -> wrong ((45 :: 45 :: n ++ v) :: rest) []   (* --unknown or --unknown=w *)
| WLongTwo n v i j d d' rest : n <> [] -> v = [] \/ (exists w, v = 61 :: w) -> (forall d, In d ds -> oName d <> n) -> nth_error ds i = Some d -> nth_error ds j = Some d' -> i <> j ->
    startsName n d -> startsName n d' -> wrong ((45 :: 45 :: n ++ v) :: rest) []                                                   (* --n, the start of two names *)
| WLongMissing n i d : stands n i d -> oArg d = true -> wrong [45 :: 45 :: n] []
| WLongExtra n i d v rest : stands n i d -> oArg d = false -> wrong ((45 :: 45 :: n ++ 61 :: v) :: rest) []
| WShort l calls c r rest : letters l calls -> unknownLetter c -> (l = [] -> c <> 45) -> wrong ((45 :: l ++ c :: r) :: rest) calls
| WShortMissing l calls i d : letters l calls -> nth_error ds i = Some d -> oShort d <> 0 -> oArg d = true -> wrong [45 :: l ++ [oShort d]] calls.
End Spec.
(** adding the options of a table in order; the handler of the i-th is i *)
Fixpoint build (f : flags) (ds : list odef) (h : nat) : res flags :=
  match ds with [] => Ok f | d :: r => let* f := add f (oName d) (oShort d) (oArg d) h in build f r (S h) end.
