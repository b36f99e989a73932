(** Model of Process::getStacks, process.cc:1227-1247 (the thread list without libthread_db's
    annotations).  A thread is its id and its registers, [None] if getCoreRegs throws. *)
From Verif Require Import Base Regs Cfi Expr Unwind.

(** [stacks.emplace]: an id already there keeps its entry (process.cc:1241). *)
Definition emplace (m : list (Z * list sframe)) (id : Z) (l : list sframe) : list (Z * list sframe) :=
  if existsb (fun e => fst e =? id) m then m else m ++ [(id, l)].
(** The callback given to listLWPs, process.cc:1235-1246: an exception drops the thread. *)
Definition oneStack (fuel : nat) (p : process) (maxframes : Z) (m : list (Z * list sframe)) (t : Z * option coreRegs) : res (list (Z * list sframe)) :=
  match snd t with
  | None => Ok m
  | Some regs =>
      let* (l, escaped) := unwindStack fuel p maxframes regs in
      Ok (if (escaped : bool) then m else emplace m (fst t) l)
  end.
Fixpoint getStacks (fuel : nat) (p : process) (maxframes : Z) (lwps : list (Z * option coreRegs)) (m : list (Z * list sframe)) : res (list (Z * list sframe)) :=
  match lwps with
  | [] => Ok m
  | t :: r => let* m' := oneStack fuel p maxframes m t in getStacks fuel p maxframes r m'
  end.
