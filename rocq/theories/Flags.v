(** Model of class Flags (flags.cc, libpstack/flags.h:28-97) and of the part of glibc's getopt_long it relies on.  Strings are lists of characters.
    Handlers are represented by the number of the add() call they were passed to.  Simplifications: getopt_long is modelled from its documentation
    for option strings of letters (no leading '+', '-' or ':'), POSIXLY_CORRECT unset, and without its diagnostics; asserts are enabled. *)
From Verif Require Import Base ElfHash.

(** struct option *)
Record lopt : Type := mkLo { loName : list Z; loArg : bool; loVal : Z }.
(** flags.h:30-52 *)
Record flags : Type := mkFl { flLong : list lopt; flData : list (Z * nat); flNext : Z }.
Definition flEmpty : flags := mkFl [] [] (-2).
Fixpoint dataFind (d : list (Z * nat)) (v : Z) : option nat := match d with [] => None | (k, h) :: r => if k =? v then Some h else dataFind r v end.
(** Flags::add flags.cc:6-17; [handler] is the callback *)
Definition add (f : flags) (name : list Z) (flag : Z) (metavar : bool) (handler : nat) : res flags :=
  let '(flag, next) := if flag =? 0 then (flNext f - 1, flNext f - 1) else (flag, flNext f) in
  match dataFind (flData f) flag with
  | Some _ => Throw
  | None => Ok (mkFl (flLong f ++ [mkLo name metavar flag]) (flData f ++ [(flag, handler)]) next)
  end.
(** Flags::done flags.cc:19-32: the short options, with their ':' *)
Definition shorts (f : flags) : list Z := flat_map (fun o => if loVal o >? 0 then loVal o :: (if loArg o then [58] else []) else []) (flLong f).

(** getopt_long.  A short option letter in the option string: whether it takes an argument *)
Fixpoint shortFind (s : list Z) (c : Z) : option bool :=
  match s with
  | [] => None
  | x :: r => if x =? c then Some (match r with y :: _ => y =? 58 | [] => false end) else shortFind r c
  end.
Fixpoint isPrefix (p l : list Z) : bool := match p, l with [], _ => true | x :: p, y :: l => (x =? y) && isPrefix p l | _, [] => false end.
(** a long option: exactly, or by a prefix that fits just one (or several that mean the same) *)
Definition same (a b : lopt) : bool := Bool.eqb (loArg a) (loArg b) && (loVal a =? loVal b).
Definition longFind (ls : list lopt) (name : list Z) : option lopt :=
  match find (fun o => beq (loName o) name) ls with
  | Some o => Some o
  | None =>
      match filter (fun o => isPrefix name (loName o)) ls with
      | [] => None
      | o :: r => if forallb (same o) r then Some o else None
      end
  end.
(** up to '=', and what follows it *)
Fixpoint splitEq (a : list Z) : list Z * option (list Z) :=
  match a with [] => ([], None) | c :: r => if c =? 61 then ([], Some r) else let (n, v) := splitEq r in (c :: n, v) end.
(** the letters of one argument: the options met, and how it ends *)
Inductive cend : Type := CDone | CNeed (c : Z) | CBad.
Fixpoint cluster (s : list Z) (a : list Z) : list (Z * option (list Z)) * cend :=
  match a with
  | [] => ([], CDone)
  | c :: r =>
      if (c =? 58) || (c =? 59) then ([], CBad)
      else
        match shortFind s c with
        | None => ([], CBad)
        | Some false => let (l, e) := cluster s r in ((c, None) :: l, e)
        | Some true => match r with [] => ([], CNeed c) | _ => ([(c, Some r)], CDone) end
        end
  end.
(** all the results of getopt_long for an argument list: values with arguments, and whether the last was '?' *)
Fixpoint getopts (s : list Z) (ls : list lopt) (args : list (list Z)) : list (Z * option (list Z)) * bool :=
  match args with
  | [] => ([], false)
  | a :: rest =>
      if beq a [45; 45] then ([], false)
      else if isPrefix [45; 45] a then
        let (n, v) := splitEq (skipn 2 a) in
        match longFind ls n with
        | None => ([], true)
        | Some o =>
            if loArg o then
              match v with
              | Some v => let (l, b) := getopts s ls rest in ((loVal o, Some v) :: l, b)
              | None => match rest with
                        | [] => ([], true)
                        | v :: rest => let (l, b) := getopts s ls rest in ((loVal o, Some v) :: l, b)
                        end
              end
            else
              match v with
              | Some _ => ([], true)
              | None => let (l, b) := getopts s ls rest in ((loVal o, None) :: l, b)
              end
        end
      else if isPrefix [45] a && (1 <? zlen a) then
        match cluster s (tl a) with
        | (evs, CDone) => let (l, b) := getopts s ls rest in (evs ++ l, b)
        | (evs, CNeed c) => match rest with
                            | [] => (evs, true)
                            | v :: rest => let (l, b) := getopts s ls rest in (evs ++ (c, Some v) :: l, b)
                            end
        | (evs, CBad) => (evs, true)
        end
      else getopts s ls rest
  end.
(** Flags::parse flags.cc:52-76: the calls of handlers, and the outcome *)
Fixpoint dispatch (d : list (Z * nat)) (evs : list (Z * option (list Z))) (bad : bool) : list (nat * option (list Z)) * res unit :=
  match evs with
  | [] => ([], if bad then Throw else Ok tt)
  | (c, a) :: r =>
      if c =? -1 then ([], Ok tt)
      else if c =? 63 then ([], Throw)
      else match dataFind d c with
           | None => ([], Throw)
           | Some h => let (l, o) := dispatch d r bad in ((h, a) :: l, o)
           end
  end.
Definition parse (f : flags) (args : list (list Z)) : list (nat * option (list Z)) * res unit :=
  let (evs, bad) := getopts (shorts f) (flLong f) args in dispatch (flData f) evs bad.
