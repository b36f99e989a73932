(** Model of how a thread's registers get from a core's notes to the unwinder and to libthread_db
    (Process::getRegset, getCoreRegs, CoreProcess::listLWPs, getPID), of the services libthread_db calls back
    (proc_service.cc), and of what getStacks then adds to each stack: libthread_db's information
    (process.cc:1249-1266) and the task's name (LiveProcess::getTaskName, live.cc:100-115). *)
From Verif Require Import Base Reader DwarfReaderProofs CfiSpec Regs ElfHash ElfObj Core Cfi Expr Unwind Stacks.

(** ** Registers *)
(** Process::getRegset proc.h:273-287: [bs] is what getRegs stored, its length the return value. *)
Definition getRegset (r : res (list Z)) (size : Z) : res (list Z) :=
  let* bs := r in
  if zlen bs =? 0 then Throw
  else if zlen bs <? size then Throw
  else Ok bs.
(** sizeof user_regs_struct, sizeof user_fpregs_struct, NT_FPREGSET (sys/user.h, elf.h) *)
Definition userSize : Z := 216.
Definition fpSize : Z := 512.
Definition NT_FPREGSET : Z := 2.
(** The structs' fields: user_regs_struct is 27 words of 8 bytes; user_fpregs_struct has cwd, swd, ftw, fop
    (2 bytes each), rip, rdp (8), mxcsr, mxcr_mask (4), st_space at 32 and xmm_space at 160. *)
Definition fieldOf (b : list Z) (off n : Z) : Z := leValue (ztake n (zdrop off b)).
Definition cells (u f : list Z) : coreRegs := fun c =>
  match c with
  | U_r15 => fieldOf u 0 8 | U_r14 => fieldOf u 8 8 | U_r13 => fieldOf u 16 8 | U_r12 => fieldOf u 24 8
  | U_rbp => fieldOf u 32 8 | U_rbx => fieldOf u 40 8 | U_r11 => fieldOf u 48 8 | U_r10 => fieldOf u 56 8
  | U_r9 => fieldOf u 64 8 | U_r8 => fieldOf u 72 8 | U_rax => fieldOf u 80 8 | U_rcx => fieldOf u 88 8
  | U_rdx => fieldOf u 96 8 | U_rsi => fieldOf u 104 8 | U_rdi => fieldOf u 112 8 | U_orig_rax => fieldOf u 120 8
  | U_rip => fieldOf u 128 8 | U_cs => fieldOf u 136 8 | U_eflags => fieldOf u 144 8 | U_rsp => fieldOf u 152 8
  | U_ss => fieldOf u 160 8 | U_fs_base => fieldOf u 168 8 | U_gs_base => fieldOf u 176 8 | U_ds => fieldOf u 184 8
  | U_es => fieldOf u 192 8 | U_fs => fieldOf u 200 8 | U_gs => fieldOf u 208 8
  | F_cwd => fieldOf f 0 2 | F_swd => fieldOf f 2 2 | F_ftw => fieldOf f 4 2 | F_fop => fieldOf f 6 2
  | F_rip => fieldOf f 8 8 | F_rdp => fieldOf f 16 8 | F_mxcsr => fieldOf f 24 4 | F_mxcr_mask => fieldOf f 28 4
  | F_st k => fieldOf f (32 + 16 * k) 16 | F_xmm k => fieldOf f (160 + 16 * k) 16
  end.
(** Process::getCoreRegs process.cc:1269-1281 of a core *)
Definition getCoreRegs (notes : list ndesc) (lwp : Z) : res coreRegs :=
  let* u := getRegset (getRegs notes lwp NT_PRSTATUS userSize) userSize in
  let* f := getRegset (getRegs notes lwp NT_FPREGSET fpSize) fpSize in
  Ok (cells u f).
(** The keys of the std::map lwpToPrStatusIdx: CoreProcess::listLWPs dead.cc:92-95 goes through them in order. *)
Fixpoint insKey (k : Z) (l : list Z) : list Z :=
  match l with
  | [] => [k]
  | x :: r => if k <? x then k :: l else if k =? x then l else x :: insKey k r
  end.
Definition keysOf (m : list (Z * Z)) : list Z := fold_left (fun l e => insKey (fst e) l) m [].
(** Process::getStacks of a core (process.cc:1227-1247; the constructor dead.cc:61-90 makes the index) *)
Definition coreStacks (fuel : nat) (p : process) (maxframes : Z) (notes : list ndesc) : res (list (Z * list sframe)) :=
  let* m := lwpIndex notes 0 [] in
  getStacks fuel p maxframes
    (map (fun id => (id, match getCoreRegs notes id with Ok r => Some r | _ => None end)) (keysOf m)) [].
(** CoreProcess::getPID dead.cc:238-242: pr_pid (offset 24) of the last NT_PRPSINFO (type 3, 136 bytes) note, zero
    if there is none (prpsinfo{}, dead.cc:64, 80-83). *)
Fixpoint prpsinfoOf (notes : list ndesc) (cur : list Z) : res (list Z) :=
  match notes with
  | [] => Ok cur
  | n :: r => if beq (ndName n) CORE && (ndType n =? 3)
              then if zlen (ndData n) <? 136 then Throw else prpsinfoOf r (ztake 136 (ndData n))
              else prpsinfoOf r cur
  end.
Definition corePid (notes : list ndesc) : res Z :=
  let* b := prpsinfoOf notes (zeros 136) in Ok (s32 (leValue (ztake 4 (zdrop 24 b)))).

(** ** proc_service.cc *)
(** What a callback answers: PS_OK and the bytes stored in the caller's buffer, or PS_ERR. *)
Inductive psAnswer : Type := PsOk (stored : list Z) | PsErr.
(** try { ... return PS_OK; } catch (...) { return PS_ERR; } *)
Definition psTry (r : res (list Z)) : res psAnswer :=
  match r with Ok bs => Ok (PsOk bs) | Throw => Ok PsErr | UB => UB | OutOfFuel => OutOfFuel end.
(** ps_pread 75-86, ps_pdread 115-125: readObj of [len] chars *)
Definition psRead (rd : Z -> Z -> res (list Z)) (addr len : Z) : res psAnswer := psTry (readObj rd 1 addr len).
(** ps_lgetregs 175-186.  It catches only pstack's Exception, the only thing a core's getRegs throws. *)
Definition psRegs (notes : list ndesc) (lwp : Z) : res psAnswer :=
  psTry (getRegset (getRegs notes lwp NT_PRSTATUS userSize) userSize).
(** ps_pwrite 100-104 *)
Definition psWrite (addr : Z) (bs : list Z) : psAnswer := PsErr.

(** ** What getStacks adds to the stacks *)
(** Procman::Lwp (proc.h): the stack of an LWP, its name and, if known, the thread it runs.  The information
    of libthread_db (td_thrinfo_t) is of any type: the fields used here are ti_lid and ti_tid. *)
Section Threads.
Context {info frame : Type} (lid tid : info -> Z).
Record lwpRec : Type := mkLwp { lwStack : list frame; lwName : option (list Z); lwInfo : option info }.
(** stacks.find(info.ti_lid), stack->second.threadInfo = info *)
Fixpoint setInfo (m : list (Z * lwpRec)) (i : info) : option (list (Z * lwpRec)) :=
  match m with
  | [] => None
  | (k, l) :: r => if k =? lid i then Some ((k, mkLwp (lwStack l) (lwName l) (Some i)) :: r)
                   else match setInfo r i with Some r' => Some ((k, l) :: r') | None => None end
  end.
(** process.cc:1249-1266: the threads in the order ta_thr_iter gives them, [None] if thr_get_info fails;
    the second result is the threads warned about (1261). *)
Fixpoint annotate (ts : list (option info)) (m : list (Z * lwpRec)) : list (Z * lwpRec) * list (Z * Z) :=
  match ts with
  | [] => (m, [])
  | None :: r => annotate r m
  | Some i :: r =>
      match setInfo m i with
      | Some m' => annotate r m'
      | None => let (m', w) := annotate r m in (m', (tid i, lid i) :: w)
      end
  end.
End Threads.
Arguments lwpRec : clear implicits.

(** ** Task names *)
(** std::getline: the text before the first newline *)
Fixpoint firstLine (s : list Z) : list Z :=
  match s with [] => [] | c :: r => if c =? 10 then [] else c :: firstLine r end.
(** string::find(c), string::rfind(c) *)
Fixpoint findChar (c : Z) (s : list Z) (i : Z) : option Z :=
  match s with [] => None | x :: r => if x =? c then Some i else findChar c r (i + 1) end.
Fixpoint rfindChar (c : Z) (s : list Z) (i : Z) (best : option Z) : option Z :=
  match s with [] => best | x :: r => rfindChar c r (i + 1) (if x =? c then Some i else best) end.
(** string::substr(pos, n): throws if pos > size, otherwise as much of n as there is *)
Definition substr (s : list Z) (pos n : Z) : res (list Z) :=
  if pos >? zlen s then Throw else Ok (ztake n (zdrop pos s)).
(** LiveProcess::getTaskName live.cc:100-115; [None] if /proc/pid/task/tid/stat cannot be opened, and what the
    base class answers (process.cc:1222-1225).  end - start - 1 is a size_t. *)
Definition getTaskName (stat : option (list Z)) : res (option (list Z)) :=
  match stat with
  | None => Ok None
  | Some s =>
      let line := firstLine s in
      match findChar 40 line 0, rfindChar 41 line 0 None with
      | Some st, Some en => let* n := substr line (st + 1) (u64 (en - st - 1)) in Ok (Some n)
      | _, _ => Ok None
      end
  end.
