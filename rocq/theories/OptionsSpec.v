(** Specification of pstack's command line: numbers, the help text, and what the options given mean. *)
From Coq Require Import Ascii String.
From Verif Require Import Base MapsSpec FrameTextSpec FlagsSpec.
Open Scope Z_scope.

(** An entry of the help text: letter if there is one, name, the argument's name if it takes one, and on the next line the description. *)
Definition entry (d : odef) (meta help : list Z) : list Z :=
  lit "    [" ++ (if oShort d =? 0 then [] else lit "-" ++ [oShort d] ++ lit "|") ++ lit "--" ++ oName d ++
  (if oArg d then lit " <" ++ meta ++ lit ">" else []) ++ lit "]" ++ [10] ++ lit "        " ++ help ++ [10].

(** Numbers as in C: decimal without leading zero, octal with one, hexadecimal after 0x; an int. *)
Inductive NumText : list Z -> Z -> Prop :=
| NtZero : NumText [48] 0
| NtDec s v : numeral 10 s v -> hd 0 s <> 48 -> NumText s v
| NtOct s v : numeral 8 s v -> NumText (48 :: s) v
| NtHex s v : numeral 16 s v -> NumText (48 :: 120 :: s) v.
Inductive IntText : list Z -> Z -> Prop :=
| ItPlain s v : NumText s v -> v < 2 ^ 31 -> IntText s v
| ItPlus s v : NumText s v -> v < 2 ^ 31 -> IntText (43 :: s) v
| ItMinus s v : NumText s v -> v <= 2 ^ 31 -> IntText (45 :: s) (- v).

Section Line.
Variable ds : list odef.
(** A command line: the options it gives, in order, and its operands.  A word that is "--" ends the options. *)
Definition isOperand (a : list Z) : Prop := (forall r, a <> 45 :: r) \/ a = [45].
Inductive line : list (list Z) -> list (nat * option (list Z)) -> list (list Z) -> Prop :=
| LnNil : line [] [] []
| LnEnd ops : line ([45; 45] :: ops) [] ops
| LnOp a b calls ops : isOperand a -> line b calls ops -> line (a :: b) calls (a :: ops)
| LnOpt a b ca calls ops : item ds a ca -> ca <> [] -> line b calls ops -> line (a ++ b) (ca ++ calls) ops.
(** The option called [n] is given; its arguments, in order; [t] is the last; how often it is given *)
Definition isOpt (n : string) (c : nat * option (list Z)) : Prop := exists d, nth_error ds (fst c) = Some d /\ oName d = lit n.
Definition isOptB (n : string) (c : nat * option (list Z)) : bool :=
  match nth_error ds (fst c) with Some d => if list_eq_dec Z.eq_dec (oName d) (lit n) then true else false | None => false end.
Definition Given (n : string) (calls : list (nat * option (list Z))) : Prop := exists c, In c calls /\ isOpt n c.
Definition argsOf (n : string) (calls : list (nat * option (list Z))) : list (list Z) :=
  flat_map (fun c => if isOptB n c then match snd c with Some t => [t] | None => [] end else []) calls.
Definition Last (n : string) (calls : list (nat * option (list Z))) (t : list Z) : Prop :=
  exists p i q, calls = p ++ (i, Some t) :: q /\ isOpt n (i, Some t) /\ ~ Given n q.
Definition times (n : string) (calls : list (nat * option (list Z))) : Z := zlen (filter (isOptB n) calls).
(** Search directories: the default ones and those given, or those given since --clear-search-paths was *)
Definition Dirs (n : string) (default : list (list Z)) (calls : list (nat * option (list Z))) (l : list (list Z)) : Prop :=
  (~ Given "clear-search-paths" calls /\ l = default ++ argsOf n calls) \/
  (exists p c q, calls = p ++ c :: q /\ isOpt "clear-search-paths" c /\ ~ Given "clear-search-paths" q /\ l = argsOf n q).
(** The last of the options that print something and exit *)
Definition infoOpts : list string := ["help"; "version"; "elf-dump"; "dwarf-dump"]%string.
Definition Informs (calls : list (nat * option (list Z))) : Prop := exists n, In n infoOpts /\ Given n calls.
Definition LastInfo (calls : list (nat * option (list Z))) (n : string) : Prop :=
  exists p c q, calls = p ++ c :: q /\ isOpt n c /\ In n infoOpts /\ ~ Informs q.
End Line.
