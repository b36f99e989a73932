(** Model of a process that inspects itself: SelfProcess (self.cc:17-60) and gregset2user (process.cc:112-147), for x86-64. *)
From Verif Require Import Base Reader DwarfReaderProofs CfiSpec Regs ElfHash ElfObj Core Cfi Expr Unwind Stacks Service.

(** greg[i] of the ucontext (23 words) *)
Definition greg (g : list Z) (i : nat) : Z := nth i g 0.
(** core.field = v: user_regs_struct as bytes, the field at [off] *)
Definition putField (off v : Z) (u : list Z) : list Z := ztake off u ++ leBytes 8 (u64 v) ++ zdrop (off + 8) u.
(** gregset2user process.cc:113-138: the fields it writes, in its order, and the indices REG_R8 ... REG_RIP of <sys/ucontext.h>.  It leaves eflags, the segment registers,
    their bases and orig_rax as they are. *)
Definition gregset2user (g u : list Z) : list Z :=
  putField 128 (greg g 16) (* rip *) (putField 152 (greg g 15) (* rsp *) (putField 88 (greg g 14) (* rcx *) (putField 80 (greg g 13) (* rax *)
  (putField 96 (greg g 12) (* rdx *) (putField 40 (greg g 11) (* rbx *) (putField 32 (greg g 10) (* rbp *) (putField 104 (greg g 9) (* rsi *)
  (putField 112 (greg g 8) (* rdi *) (putField 0 (greg g 7) (* r15 *) (putField 8 (greg g 6) (* r14 *) (putField 16 (greg g 5) (* r13 *)
  (putField 24 (greg g 4) (* r12 *) (putField 48 (greg g 3) (* r11 *) (putField 56 (greg g 2) (* r10 *) (putField 64 (greg g 1) (* r9 *)
  (putField 72 (greg g 0) (* r8 *) u)))))))))))))))).
(** SelfProcess::getRegs self.cc:36-60.  [g], [fp]: what getcontext stores of the calling thread; [same]: pid == getpid(); [old]: the contents of the caller's
    structure.  A failed assert ends the program ([UB]).  The structure afterwards; [] if the return value is 0. *)
Definition selfRegs (same : bool) (g fp : list Z) (code size : Z) (old : list Z) : res (list Z) :=
  if negb same then UB
  else if code =? 1 then if size =? userSize then Ok (gregset2user g old) else UB
  else if code =? NT_FPREGSET then Ok (ztake size fp)
  else Ok [].
(** Process::getCoreRegs process.cc:1269-1281 of it; the thread asked for ([lwp]) is not looked at.  [u0], [f0]: the structures before (they are not initialised). *)
Definition selfCoreRegs (same : bool) (g fp u0 f0 : list Z) (lwp : Z) : res coreRegs :=
  let* u := getRegset (selfRegs same g fp 1 userSize u0) userSize in
  let* f := getRegset (selfRegs same g fp NT_FPREGSET fpSize f0) fpSize in
  Ok (cells u f).
(** The memory, self.cc:18-21: a MemReader at the null pointer, of numeric_limits<size_t>::max() bytes *)
Definition selfIo : reader := RMem 0 (W64 - 1).
(** listLWPs self.cc:31-33 calls back for the calling thread [tid] only; Process::getStacks process.cc:1227-1247 *)
Definition selfStacks (fuel : nat) (p : process) (maxframes : Z) (tid : Z) (same : bool) (g fp u0 f0 : list Z) : res (list (Z * list sframe)) :=
  match selfCoreRegs same g fp u0 f0 tid with
  | UB => UB
  | r => getStacks fuel p maxframes [(tid, match r with Ok x => Some x | _ => None end)] []
  end.
