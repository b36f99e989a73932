(** Specification: the call frame instructions of a dump, as documents.  Instructions and their encoding are those of the standard (CfiSpec) and the GNU
    extensions. *)
From Coq Require Import Ascii String.
From Verif Require Import Base LebSpec CfiSpec ArgsSpec FrameTextSpec JsonDocSpec.

Inductive xinsn : Type :=
| Std (i : sinsn) | ValOffset (r n : Z) | ValOffsetSf (r n : Z) | GnuWindowSave | GnuArgsSize (n : Z) | GnuNegOffset (r n : Z).
Definition encodeX (i : xinsn) : list Z :=
  match i with
  | Std i => encodeI i
  | ValOffset r n => 20 :: uleb r ++ uleb n
  | ValOffsetSf r n => 21 :: uleb r ++ sleb n
  | GnuWindowSave => [45]
  | GnuArgsSize n => 46 :: uleb n
  | GnuNegOffset r n => 47 :: uleb r ++ uleb n
  end.
(** the operands can be encoded: registers and counts unsigned, at most 64 bits; factored offsets signed *)
Definition word64 (n : Z) : Prop := 0 <= n < 2 ^ 64.
Definition sword64 (n : Z) : Prop := - 2 ^ 63 <= n < 2 ^ 63.
Definition operands (i : xinsn) : Prop :=
  match i with
  | Std (SAdvanceLoc d) => 0 <= d < 64
  | Std (SAdvanceLoc1 d) => 0 <= d < 256
  | Std (SAdvanceLoc2 d) => 0 <= d < 65536
  | Std (SAdvanceLoc4 d) => 0 <= d < 2 ^ 32
  | Std (SSetLoc a) => word64 a
  | Std (SOffset r n) => 0 <= r < 64 /\ word64 n
  | Std (SRestore r) => 0 <= r < 64
  | Std (SOffsetExt r n) | Std (SDefCfa r n) | Std (SRegister r n) | ValOffset r n | GnuNegOffset r n => word64 r /\ word64 n
  | Std (SOffsetExtSf r n) | Std (SDefCfaSf r n) | ValOffsetSf r n => word64 r /\ sword64 n
  | Std (SRestoreExt r) | Std (SUndefined r) | Std (SSameValue r) | Std (SDefCfaRegister r) => word64 r
  | Std (SDefCfaOffset n) | GnuArgsSize n => word64 n
  | Std (SDefCfaOffsetSf n) => sword64 n
  | Std (SExpression r _) | Std (SValExpression r _) => 0 <= r < 2 ^ 32
  | Std (SDefCfaExpression _) | Std SRemember | Std SRestoreState | Std SNop | GnuWindowSave => True
  end.

(** The name in the standard and the operands in the order of the standard, with the names the dump gives them.  A block is shown by its length, and by its
    position [pos] in the section for val_expression. *)
Definition named (i : xinsn) (pos : Z) : string * list (string * Z) :=
  match i with
  | Std (SAdvanceLoc d) => ("DW_CFA_advance_loc", [("delta", d)])
  | Std (SAdvanceLoc1 d) => ("DW_CFA_advance_loc1", [("arg", d)])
  | Std (SAdvanceLoc2 d) => ("DW_CFA_advance_loc2", [("arg", d)])
  | Std (SAdvanceLoc4 d) => ("DW_CFA_advance_loc4", [("arg", d)])
  | Std (SSetLoc a) => ("DW_CFA_set_loc", [("arg", a)])
  | Std (SOffset r n) => ("DW_CFA_offset", [("register", r); ("offset", n)])
  | Std (SOffsetExt r n) => ("DW_CFA_offset_extended", [("reg", r); ("arg", n)])
  | Std (SOffsetExtSf r n) => ("DW_CFA_offset_extended_sf", [("register", r); ("scale", n)])
  | Std (SRestore r) => ("DW_CFA_restore", [("register", r)])
  | Std (SRestoreExt r) => ("DW_CFA_restore_extended", [("reg", r)])
  | Std (SUndefined r) => ("DW_CFA_undefined", [("reg", r)])
  | Std (SSameValue r) => ("DW_CFA_same_value", [("reg", r)])
  | Std (SRegister r1 r2) => ("DW_CFA_register", [("reg1", r1); ("reg2", r2)])
  | Std SRemember => ("DW_CFA_remember_state", [])
  | Std SRestoreState => ("DW_CFA_restore_state", [])
  | Std (SDefCfa r n) => ("DW_CFA_def_cfa", [("reg", r); ("offset", n)])
  | Std (SDefCfaSf r n) => ("DW_CFA_def_cfa_sf", [("register", r); ("offset", n)])
  | Std (SDefCfaRegister r) => ("DW_CFA_def_cfa_register", [("reg", r)])
  | Std (SDefCfaOffset n) => ("DW_CFA_def_cfa_offset", [("offset", n)])
  | Std (SDefCfaOffsetSf n) => ("DW_CFA_def_cfa_offset_sf", [("offset", n)])
  | Std (SDefCfaExpression b) => ("DW_CFA_def_cfa_expression", [("len", zlen b)])
  | Std (SExpression r b) => ("DW_CFA_expression", [("reg", r); ("length", zlen b)])
  | Std (SValExpression r b) => ("DW_CFA_val_expression", [("register", r); ("length", zlen b); ("offset", pos)])
  | Std SNop => ("DW_CFA_nop", [])
  | ValOffset r n => ("DW_CFA_val_offset", [("register", r); ("offset", n)])
  | ValOffsetSf r n => ("DW_CFA_val_offset_sf", [("register", r); ("offset", n)])
  | GnuWindowSave => ("DW_CFA_GNU_window_save", [])
  | GnuArgsSize n => ("DW_CFA_GNU_args_size", [("size", n)])
  | GnuNegOffset r n => ("DW_CFA_GNU_negative_offset_extended", [("register", r); ("scale", n)])
  end%string.
(** the length of the instruction without its block *)
Definition blockAt (i : xinsn) : Z :=
  match i with Std (SValExpression r b) => zlen (encodeX i) - zlen b | _ => 0 end.
(** [off] is where the instruction is *)
Definition insnDoc (off : Z) (i : xinsn) : jvalue :=
  let '(name, ops) := named i (off + blockAt i) in
  XObj ((lit "type", XStr (lit name)) :: map (fun kn => (lit (fst kn), XNum (snd kn))) ops).
Fixpoint insnDocs (off : Z) (p : list xinsn) : list jvalue :=
  match p with [] => [] | i :: r => insnDoc off i :: insnDocs (off + zlen (encodeX i)) r end.
Definition encodeXs (p : list xinsn) : list Z := flat_map encodeX p.

(** Instructions whose operands the dump shows as they are: see the other theorems for the rest *)
Definition shownRight (i : xinsn) : Prop :=
  match i with
  | Std (SAdvanceLoc4 d) => d < 2 ^ 31
  | Std (SDefCfaSf _ n) | Std (SDefCfaOffsetSf n) => 0 <= n
  | ValOffset _ _ | ValOffsetSf _ _ | GnuNegOffset _ _ => False
  | _ => True
  end.
