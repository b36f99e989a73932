(** Model of CoreRegisters and its accessors on x86-64
    (libpstack/arch.h:79-211, libpstack/arch-x86_64.h:101-282). *)
From Verif Require Import Base.

(** Alternatives of RegisterValue (arch.h:79-99) that opReg uses on x86-64. *)
Inductive kind : Type := KU64 | KU32 | KU16 | KSimd128 | KSimd64 | KI387 | KChar.
Definition kind_eqb (a b : kind) : bool :=
  match a, b with
  | KU64, KU64 | KU32, KU32 | KU16, KU16 | KSimd128, KSimd128 | KSimd64, KSimd64 | KI387, KI387 | KChar, KChar => true
  | _, _ => false
  end.
(** A register value: the active alternative and its bits as a number. *)
Definition regval : Type := (kind * Z)%type.

(** Storage: fields of user_regs_struct and user_fpregs_struct (glibc sys/user.h).  Simd64 is a
    union with a 16-byte member (arch.h:66-77), so all three vector types are 16-byte cells; cell
    [k] of xmm_space is xmm_space + 4k, cell [k] of st_space is st_space + 4k. *)
Inductive cell : Type :=
| U_r15 | U_r14 | U_r13 | U_r12 | U_rbp | U_rbx | U_r11 | U_r10 | U_r9 | U_r8 | U_rax | U_rcx | U_rdx
| U_rsi | U_rdi | U_orig_rax | U_rip | U_cs | U_eflags | U_rsp | U_ss | U_fs_base | U_gs_base
| U_ds | U_es | U_fs | U_gs
| F_cwd | F_swd | F_ftw | F_fop | F_rip | F_rdp | F_mxcsr | F_mxcr_mask
| F_st (k : Z) | F_xmm (k : Z).
Definition cell_eq_dec (a b : cell) : {a = b} + {a <> b}.
Proof. decide equality; apply Z.eq_dec. Defined.
Definition coreRegs : Type := cell -> Z.

(** Where opReg finds register [reg] (arch-x86_64.h:102-281); [None] in the cell position is the
    local [notused] variable. *)
Inductive place : Type := InCell (c : cell) (k : kind) | NotUsed | Rejected.
Definition opReg (reg : Z) : place :=
  if reg =? 0 then InCell U_rax KU64 else if reg =? 1 then InCell U_rdx KU64
  else if reg =? 2 then InCell U_rcx KU64 else if reg =? 3 then InCell U_rbx KU64
  else if reg =? 4 then InCell U_rsi KU64 else if reg =? 5 then InCell U_rdi KU64
  else if reg =? 6 then InCell U_rbp KU64 else if reg =? 7 then InCell U_rsp KU64
  else if reg =? 8 then InCell U_r8 KU64 else if reg =? 9 then InCell U_r9 KU64
  else if reg =? 10 then InCell U_r10 KU64 else if reg =? 11 then InCell U_r11 KU64
  else if reg =? 12 then InCell U_r12 KU64 else if reg =? 13 then InCell U_r13 KU64
  else if reg =? 14 then InCell U_r14 KU64 else if reg =? 15 then InCell U_r15 KU64
  else if reg =? 16 then InCell U_rip KU64
  else if (17 <=? reg) && (reg <=? 32) then InCell (F_xmm (reg - 17)) KSimd128
  else if (33 <=? reg) && (reg <=? 40) then InCell (F_st (reg - 33)) KI387
  else if (41 <=? reg) && (reg <=? 48) then InCell (F_xmm (reg - 41)) KSimd64
  else if reg =? 49 then InCell U_eflags KU64 else if reg =? 50 then InCell U_es KU64
  else if reg =? 51 then InCell U_cs KU64 else if reg =? 52 then InCell U_ss KU64
  else if reg =? 53 then InCell U_ds KU64 else if reg =? 54 then InCell U_fs KU64
  else if reg =? 55 then InCell U_gs KU64 else if reg =? 58 then InCell U_fs_base KU64
  else if reg =? 59 then InCell U_gs_base KU64
  else if (60 <=? reg) && (reg <=? 61) then NotUsed
  else if reg =? 64 then InCell F_mxcsr KU32 else if reg =? 65 then InCell F_cwd KU16
  else if reg =? 66 then InCell F_swd KU16
  else if (67 <=? reg) && (reg <=? 154) then NotUsed
  else if reg =? -1 then InCell F_ftw KU16 else if reg =? -2 then InCell F_fop KU16
  else if reg =? -3 then InCell F_rip KU64 else if reg =? -4 then InCell F_rdp KU64
  else if reg =? -5 then InCell F_mxcr_mask KU32
  else Rejected.

(** CoreRegisters::getDwarf arch.h:202-206 and setDwarf 198-200 (with a RegisterValue: get<T>
    throws when the active alternative is not T, arch.h:135-138). *)
Definition getDwarf (r : coreRegs) (reg : Z) : res regval :=
  match opReg reg with
  | InCell c k => Ok (k, r c)
  | NotUsed => Ok (KChar, 0)
  | Rejected => Throw
  end.
Definition upd (r : coreRegs) (c : cell) (v : Z) : coreRegs :=
  fun x => if cell_eq_dec x c then v else r x.
Definition setDwarf (r : coreRegs) (reg : Z) (v : regval) : res coreRegs :=
  match opReg reg with
  | InCell c k => if kind_eqb (fst v) k then Ok (upd r c (snd v)) else Throw
  | NotUsed => if kind_eqb (fst v) KChar then Ok r else Throw
  | Rejected => Throw
  end.
(** std::get<gpreg>(regs.getDwarf(reg)), gpreg = unsigned long long. *)
Definition gpGet (r : coreRegs) (reg : Z) : res Z :=
  let* (k, v) := getDwarf r reg in if kind_eqb k KU64 then Ok v else Throw.
