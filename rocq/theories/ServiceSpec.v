(** Specification for Service.v: the registers the kernel saved for a thread, threads by LWP, and the line the
    kernel writes in /proc/pid/task/tid/stat.  No reference to pstack's functions. *)
From Verif Require Import Base CfiSpec Regs ElfObj Core CoreSpec.

(** ** Saved registers *)
(** The general registers of a thread are [u], its floating point state is [f]: pr_reg of its NT_PRSTATUS, and the
    first 512 bytes of the first of its own notes that has type NT_FPREGSET (2). *)
Definition fpIs (t : thread) (f : list Z) : Prop :=
  exists n rest, firstOfType 2 (threadNotes t) n /\ ndData n = f ++ rest /\ zlen f = 512.
Definition saved (t : thread) (u f : list Z) : Prop := regsAre (ndData (thStatus t)) u /\ fpIs t f.
(** no note with a whole floating point state *)
Definition noFp (t : thread) : Prop := forall n, firstOfType 2 (threadNotes t) n -> zlen (ndData n) < 512.
(** the number in [w] bytes at [off] *)
Definition numberAt (b : list Z) (off w v : Z) : Prop :=
  exists x y, b = x ++ leBytes (Z.to_nat w) v ++ y /\ zlen x = off /\ 0 <= v < 2 ^ (8 * w).
(** DWARF register (System V psABI for x86-64, figure 3.36), its offset in the kernel's user_regs_struct *)
Definition generalAt : list (Z * Z) :=
  [(0, 80); (1, 96); (2, 88); (3, 40); (4, 104); (5, 112); (6, 32); (7, 152); (8, 72); (9, 64); (10, 56); (11, 48);
   (12, 24); (13, 16); (14, 8); (15, 0); (16, 128); (49, 144); (50, 192); (51, 136); (52, 160); (53, 184); (54, 200);
   (55, 208); (58, 168); (59, 176)].
(** ... its offset and width in the fxsave area: xmm0-15, the x87 registers, mxcsr, the control and status words *)
Inductive floatAt : Z -> Z -> Z -> Prop :=
| FXmm k : 0 <= k < 16 -> floatAt (17 + k) (160 + 16 * k) 16
| FSt k : 0 <= k < 8 -> floatAt (33 + k) (32 + 16 * k) 16
| FMxcsr : floatAt 64 24 4
| FCw : floatAt 65 0 2
| FSw : floatAt 66 2 2.
(** The value of register [reg] of a thread whose saved state is [u], [f] *)
Inductive savedReg (u f : list Z) (reg v : Z) : Prop :=
| SGeneral off : In (reg, off) generalAt -> numberAt u off 8 v -> savedReg u f reg v
| SFloat off w : floatAt reg off w -> numberAt f off w v -> savedReg u f reg v.

(** ** Task names *)
(** /proc/pid/task/tid/stat (proc(5)): the id, the name in parentheses, and fields none of which has a
    parenthesis. *)
Definition statText (id name rest : list Z) : list Z := id ++ [32; 40] ++ name ++ [41; 32] ++ rest ++ [10].

(** ** Threads and LWPs *)
Section Threads.
Context {info : Type} (lid : info -> Z).
(** Of the threads listed, [i] is the last said to run on LWP [id]. *)
Definition lastOn (ts : list (option info)) (id : Z) (i : info) : Prop :=
  exists a b, ts = a ++ Some i :: b /\ lid i = id /\ forall j, In (Some j) b -> lid j <> id.
(** The threads, in order, said to run on an LWP that is not among [ids]. *)
Inductive strays (ids : list Z) : list (option info) -> list info -> Prop :=
| StNil : strays ids [] []
| StFailed r l : strays ids r l -> strays ids (None :: r) l
| StHome i r l : In (lid i) ids -> strays ids r l -> strays ids (Some i :: r) l
| StStray i r l : ~ In (lid i) ids -> strays ids r l -> strays ids (Some i :: r) (i :: l).
End Threads.
