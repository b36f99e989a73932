(** Specification of stop/resume brackets. *)
From Verif Require Import Base Live.

(** An open bracket: on one thread, or on the process, which then covers the main thread and every thread that
    the process listed while it was being stopped. *)
Inductive frame : Type := FT (t : Z) | FP (ts : list Z).
Definition covered (pid : Z) (scans : list (list (Z * outcome))) : list Z := pid :: map fst (concat scans).
(** The open brackets after some events, innermost first. *)
Definition push (pid : Z) (fs : list frame) (e : ev) : list frame :=
  match e with
  | EStop t _ => FT t :: fs
  | EStopProc _ scans => FP (covered pid scans) :: fs
  | EResume _ | EResumeProc => tl fs
  end.
Definition frames (pid : Z) (es : list ev) : list frame := fold_left (push pid) es [].
(** Events come from properly nested brackets (some possibly still open). *)
Inductive nested (pid : Z) : list ev -> Prop :=
| NNil : nested pid []
| NStop es t o : nested pid es -> nested pid (es ++ [EStop t o])
| NStopP es o sc : nested pid es -> nested pid (es ++ [EStopProc o sc])
| NRes es t fs : nested pid es -> frames pid es = FT t :: fs -> nested pid (es ++ [EResume t])
| NResP es ts fs : nested pid es -> frames pid es = FP ts :: fs -> nested pid (es ++ [EResumeProc]).
(** The number of open brackets covering a thread. *)
Definition inFrame (t : Z) (f : frame) : bool :=
  match f with FT u => t =? u | FP ts => existsb (Z.eqb t) ts end.
Definition outstanding (pid : Z) (es : list ev) (t : Z) : Z := zlen (filter (inFrame t) (frames pid es)).

(** The kernel's view of one thread: its attaches and detaches in order. *)
Definition isAD (t : Z) (k : kact) : list bool :=
  match k with KAttach u => if u =? t then [true] else [] | KDetach u => if u =? t then [false] else [] | _ => [] end.
Definition history (t : Z) (s : live) : list bool := flat_map (isAD t) (rev (trace s)).
(** attach, detach, attach, ... : [alternates l b] says [l] does so and ends attached iff [b] *)
Inductive alternates : list bool -> bool -> Prop :=
| AltNil : alternates [] false
| AltAttach l : alternates l false -> alternates (l ++ [true]) true
| AltDetach l : alternates l true -> alternates (l ++ [false]) false.
Definition attached (t : Z) (s : live) : Prop := exists l, history t s = l ++ [true].

(** The kernel lets thread [t] be stopped each time. *)
Definition good (o : outcome) : Prop := match o with AttachErr _ => False | Attached ws => exists a b, ws = a ++ WStop :: b /\ Forall (fun w => w = WIntr \/ exists s, w = WSig s 0) a end.
Definition goodFor (pid t : Z) (e : ev) : Prop :=
  match e with
  | EStop u o => u = t -> good o
  | EStopProc o scans => (pid = t -> good o) /\ forall o', In (t, o') (concat scans) -> good o'
  | _ => True
  end.
(** errno values are not zero *)
Definition wOk (w : wres) : Prop := match w with WErr e => e <> 0 | _ => True end.
Definition outOk (o : outcome) : Prop := match o with AttachErr e => e <> 0 | Attached ws => Forall wOk ws end.
Definition evOk (e : ev) : Prop :=
  match e with EStop _ o => outOk o | EStopProc o scans => outOk o /\ Forall (fun x => outOk (snd x)) (concat scans) | _ => True end.
(** Some event so far asked for thread [t] to stop. *)
Definition asked (pid : Z) (es : list ev) (t : Z) : Prop :=
  exists e, In e es /\ match e with EStop u _ => u = t | EStopProc _ scans => In t (covered pid scans) | _ => False end.
(** Whenever a process bracket closes, it covered [t], or nothing had ever stopped [t]. *)
Definition steady (pid : Z) (es : list ev) (t : Z) : Prop :=
  forall e1 e2 ts fs, es = e1 ++ EResumeProc :: e2 -> frames pid e1 = FP ts :: fs -> In t ts \/ ~ asked pid e1 t.
