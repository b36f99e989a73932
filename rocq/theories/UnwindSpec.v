(** What unwinding one frame must produce (DWARF 5 section 6.4.1, 6.4.4; x86-64 psABI 3.6.2). *)
From Verif Require Import Base LebSpec CfiSpec ExprSpec.

(** [v] is the value of expression block [b] started with stack [stk]. *)
Definition exprValue (e : senv) (b stk : list Z) (v : Z) : Prop :=
  exists p rest, p <> [] /\ b = encodeE p /\ Forall wfO p /\ (forall n, ~ In (PFbreg n) p) /\
    safeRun e p stk = true /\ runE e p stk = Some (v :: rest).

Definition cfaValue (e : senv) (c : scfa) (v : Z) : Prop :=
  match c with
  | CfaUnset => False
  | CfaRegOff r n => exists x, sReg e r = Some x /\ v = word (x + n)
  | CfaExpression b => exprValue e b [] v
  end.

(** [v] is the value register [r] has in the caller under rule [s]; [e] describes the callee, whose
    CFA is [sCfa e].  Without a rule a register keeps its value, except the stack pointer (7),
    which is the CFA.  An undefined register has no value. *)
Definition ruleValue (e : senv) (r : Z) (s : srule) (v : Z) : Prop :=
  match s with
  | RuleDefault => if r =? 7 then v = sCfa e else sReg e r = Some v
  | RuleUndefined => False
  | RuleSame => sReg e r = Some v
  | RuleOffset n => sWord e (word (sCfa e + n)) = Some v
  | RuleRegister k => sReg e k = Some v
  | RuleExpression b => exists a, exprValue e b [sCfa e] a /\ sWord e a = Some v
  | RuleValExpression b => exprValue e b [sCfa e] v
  end.

(** Registers besides the general ones that are saved in memory, and how many bytes each takes: the vector and floating point
    registers (17-40), flags, segment registers and bases (49-55, 58, 59), mxcsr (64), x87 control and status words (65, 66). *)
Definition saveWidth (r : Z) : option nat :=
  if (17 <=? r) && (r <=? 40) then Some 16%nat
  else if ((49 <=? r) && (r <=? 55)) || (r =? 58) || (r =? 59) then Some 8%nat
  else if r =? 64 then Some 4%nat
  else if (r =? 65) || (r =? 66) then Some 2%nat
  else None.
