(** Specification of DWARF location expressions, from the DWARF 5 standard (section 2.5, 2.6, 7.7),
    for the generic type: 64-bit words. *)
From Verif Require Import Base LebSpec CfiSpec.

Inductive sop : Type :=
| PDeref | PConsts (n : Z) | PConstu (n : Z) | PConst2s (n : Z) | PConst4u (n : Z) | PConst4s (n : Z)
| PMinus | PPlus | PPlusUconst (n : Z) | PBreg (r n : Z) | PLit (n : Z)
| PNot | PAbs | PNeg | PAnd | PDiv | PMul | PMod | POr | PXor
| PLe | PGe | PEq | PLt | PGt | PNe | PShl | PShr | PShra
| PAddr (a : Z) | PCallFrameCfa | PFbreg (n : Z) | PStackValue.

Definition encodeO (o : sop) : list Z :=
  match o with
  | PAddr a => 3 :: leBytes 8 a
  | PDeref => [6]
  | PConst2s n => 11 :: leBytes 2 (n mod 2 ^ 16)
  | PConst4u n => 12 :: leBytes 4 n
  | PConst4s n => 13 :: leBytes 4 (n mod 2 ^ 32)
  | PConstu n => 16 :: uleb n
  | PConsts n => 17 :: sleb n
  | PAbs => [25] | PAnd => [26] | PDiv => [27] | PMinus => [28] | PMod => [29] | PMul => [30] | PNeg => [31]
  | PNot => [32] | POr => [33] | PPlus => [34]
  | PPlusUconst n => 35 :: uleb n
  | PShl => [36] | PShr => [37] | PShra => [38] | PXor => [39]
  | PEq => [41] | PGe => [42] | PGt => [43] | PLe => [44] | PLt => [45] | PNe => [46]
  | PLit n => [48 + n]
  | PBreg r n => (112 + r) :: sleb n
  | PFbreg n => 145 :: sleb n
  | PCallFrameCfa => [156]
  | PStackValue => [159]
  end.
Definition encodeE (p : list sop) : list Z := flat_map encodeO p.

(** Operand ranges of the encodings. *)
Definition wfO (o : sop) : Prop :=
  match o with
  | PAddr a => 0 <= a < 2 ^ 64
  | PConst2s n => - 2 ^ 15 <= n < 2 ^ 15
  | PConst4u n => 0 <= n < 2 ^ 32
  | PConst4s n => - 2 ^ 31 <= n < 2 ^ 31
  | PConstu n | PPlusUconst n => 0 <= n < 2 ^ 64
  | PConsts n => - 2 ^ 63 <= n < 2 ^ 63
  | PLit n => 0 <= n < 32
  | PBreg r n => 0 <= r < 32 /\ - 2 ^ 63 <= n < 2 ^ 63
  | PFbreg n => - 2 ^ 63 <= n < 2 ^ 63
  | _ => True
  end.

(** What an expression refers to. *)
Record senv : Type := mkSenv {
  sReg : Z -> option Z;      (* contents of a general register *)
  sWord : Z -> option Z;     (* the 64-bit word at an address *)
  sCfa : Z; sFrameBase : Z; sBias : Z }.

Definition word (x : Z) : Z := x mod 2 ^ 64.
(** the signed reading of a word *)
Definition signed (x : Z) : Z := if x <? 2 ^ 63 then x else x - 2 ^ 64.
Definition truth (b : bool) : Z := if b then 1 else 0.

(** Meaning: the stack after the operation, top first; [None]: no meaning (stack underflow,
    division by zero, unreadable memory, unknown register). *)
Definition sem (e : senv) (o : sop) (s : list Z) : option (list Z) :=
  let un f := match s with x :: r => Some (word (f x) :: r) | _ => None end in
  (* [f] gets the former second entry, then the former top *)
  let bin f := match s with t :: x :: r => Some (word (f x t) :: r) | _ => None end in
  let cmp (f : Z -> Z -> bool) := bin (fun x t => truth (f (signed x) (signed t))) in
  match o with
  | PConsts n | PConstu n | PConst2s n | PConst4u n | PConst4s n | PLit n => Some (word n :: s)
  | PAddr a => Some (word (a + sBias e) :: s)
  | PDeref => match s with
              | a :: r => match sWord e a with Some v => Some (v :: r) | None => None end
              | [] => None
              end
  | PMinus => bin Z.sub
  | PPlus => bin Z.add
  | PPlusUconst n => un (fun x => x + n)
  | PBreg r n => match sReg e r with Some v => Some (word (v + n) :: s) | None => None end
  | PNot => un (fun x => 2 ^ 64 - 1 - x)
  | PAbs => un (fun x => Z.abs (signed x))
  | PNeg => un (fun x => - signed x)
  | PAnd => bin Z.land
  | POr => bin Z.lor
  | PXor => bin Z.lxor
  | PMul => bin Z.mul
  | PDiv => match s with
            | t :: x :: r => if t =? 0 then None else Some (word (Z.quot (signed x) (signed t)) :: r)
            | _ => None
            end
  | PMod => match s with
            | t :: x :: r => if t =? 0 then None else Some (word (Z.rem (signed x) (signed t)) :: r)
            | _ => None
            end
  | PLe => cmp Z.leb | PLt => cmp Z.ltb
  | PGe => cmp (fun a b => Z.leb b a) | PGt => cmp (fun a b => Z.ltb b a)
  | PEq => cmp Z.eqb | PNe => cmp (fun a b => negb (Z.eqb a b))
  | PShl => bin (fun x t => x * 2 ^ t)
  | PShr => bin (fun x t => x / 2 ^ t)
  | PShra => bin (fun x t => signed x / 2 ^ t)
  | PCallFrameCfa => Some (sCfa e :: s)
  | PFbreg n => Some (word (sFrameBase e + n) :: s)
  | PStackValue => Some s
  end.
Fixpoint runE (e : senv) (p : list sop) (s : list Z) : option (list Z) :=
  match p with
  | [] => Some s
  | o :: r => match sem e o s with None => None | Some s' => runE e r s' end
  end.

(** The operand combinations on which pstack is claimed to agree (the others are the subject of
    the refuted theorems): no signed overflow, shift counts below 64, ordering comparisons only
    between words of the same sign. *)
Definition fits (x : Z) : bool := (- 2 ^ 63 <=? x) && (x <? 2 ^ 63).
Definition safe (o : sop) (s : list Z) : bool :=
  match o, s with
  | PAbs, x :: _ => fits (Z.abs (signed x))
  | PNeg, x :: _ => fits (- signed x)
  | PMul, t :: x :: _ => fits (signed x * signed t)
  | (PDiv | PMod), t :: x :: _ => fits (Z.quot (signed x) (signed t))
  | (PLe | PLt | PGe | PGt), t :: x :: _ => Bool.eqb (x <? 2 ^ 63) (t <? 2 ^ 63)
  | (PShl | PShr | PShra), t :: _ => t <? 64
  | _, _ => true
  end.
Fixpoint safeRun (e : senv) (p : list sop) (s : list Z) : bool :=
  match p with
  | [] => true
  | o :: r => safe o s && match sem e o s with None => true | Some s' => safeRun e r s' end
  end.
