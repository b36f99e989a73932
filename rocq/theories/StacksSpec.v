(** Specification of the links of a stack that are not made by call frame information. *)
From Verif Require Import Base DwarfReaderProofs Regs Cfi Expr Unwind.

(** The 64-bit little-endian word at an address of the process. *)
Definition wordAt (m : memory) (a v : Z) : Prop :=
  exists b0 b1 b2 b3 b4 b5 b6 b7,
    m a = Some b0 /\ m (a + 1) = Some b1 /\ m (a + 2) = Some b2 /\ m (a + 3) = Some b3 /\
    m (a + 4) = Some b4 /\ m (a + 5) = Some b5 /\ m (a + 6) = Some b6 /\ m (a + 7) = Some b7 /\
    v = b0 + 256 * (b1 + 256 * (b2 + 256 * (b3 + 256 * (b4 + 256 * (b5 + 256 * (b6 + 256 * b7)))))).
Definition unreadable (m : memory) (a : Z) : Prop := exists i, 0 <= i < 8 /\ m (a + i) = None.

(** [y] is the caller of [x] by the frame pointer convention: at rbp the caller's rbp, above it the
    return address, which is in executable code; the rest of the registers are unchanged. *)
Definition framePointerLink (p : process) (x y : sframe) : Prop :=
  let r := fRegs x in let r' := fRegs y in
  r U_rip <> 0 /\ r U_rbp <> 0 /\
  wordAt (pMem p) (r U_rbp) (r' U_rbp) /\ wordAt (pMem p) (u64 (r U_rbp + 8)) (r' U_rip) /\
  r' U_rsp = u64 (r U_rbp + 16) /\ pExec p (r' U_rip) = true /\
  (forall c, c <> U_rbp -> c <> U_rip -> c <> U_rsp -> r' c = r c).
(** [y] is the caller of [x], which was called at an address that is not code: the return address is
    on top of the stack, the rest of the registers are unchanged. *)
Definition badCallLink (p : process) (x y : sframe) : Prop :=
  let r := fRegs x in let r' := fRegs y in
  pExec p (r U_rip) = false /\ wordAt (pMem p) (r U_rsp) (r' U_rip) /\ r' U_rsp = u64 (r U_rsp + 8) /\
  (forall c, c <> U_rip -> c <> U_rsp -> r' c = r c).
