(** Specification: the JSON document for the stacks of a process. *)
From Coq Require Import Ascii String.
From Verif Require Import Base JsonSpec FrameText FrameTextSpec JsonDocSpec JsonStack.
(* from FrameText and JsonStack only the records that describe frames and threads *)

(** Integers of up to 64 bits *)
Definition word (n : Z) : Prop := - 2 ^ 63 <= n < 2 ^ 64.
Definition member (k : string) (x : jvalue) : list Z * jvalue := (lit k, x).
(** [n] not known is null *)
Definition orNull {X} (says : X -> jvalue -> Prop) (o : option X) (x : jvalue) : Prop := match o with Some v => says v x | None => x = XNull end.
Definition textSays (s : list Z) (x : jvalue) : Prop := exists t, plainText s t /\ x = XStr t.
Definition symSays (s : symIn) (x : jvalue) : Prop :=
  exists n, textSays (syName s) n /\ word (syValue s) /\ word (sySize s) /\ word (syInfo s) /\ word (syOther s) /\ word (syShndx s) /\
  x = XObj [member "st_name" n; member "st_value" (XNum (syValue s)); member "st_size" (XNum (sySize s)); member "st_info" (XNum (syInfo s));
            member "st_other" (XNum (syOther s)); member "st_shndx" (XNum (syShndx s))].
Definition placeSays (p : list Z * Z) (x : jvalue) : Prop :=
  exists n, textSays (fst p) n /\ word (snd p) /\ x = XObj [member "file" n; member "line" (XNum (snd p))].
(** A frame whose function is described by [p]; 2^64 - 1 stands for an offset that is not known. *)
Definition frameSays (f : jframe) (x : jvalue) : Prop :=
  exists p die sym src, jfPF f = Ok p /\ word (jfIP f) /\ word (jfReloc f) /\ word (pfOffset p) /\
  textSays (pfName p) die /\ orNull symSays (jfSym f) sym /\ Forall2 placeSays (jfSource f) src /\
  x = XObj [member "ip" (XNum (jfIP f)); member "offset" (if pfOffset p =? 2 ^ 64 - 1 then XNull else XNum (pfOffset p)); member "trampoline" (XBool (jfTramp f));
            member "die" die; member "loadaddr" (XNum (jfReloc f)); member "symbol" sym; member "source" (XArr src)].
(** The offset in the function is known. *)
Definition known (f : jframe) : Prop := match jfPF f with Ok p => pfOffset p <> 2 ^ 64 - 1 | _ => True end.
(** Kinds of threads (thread_db.h) *)
Definition kindOf (t : Z) : string :=
  match t with 0 => "TD_THR_ANY_TYPE" | 1 => "TD_THR_USER" | 2 => "TD_THR_SYSTEM" | _ => "unknown type" end.
Definition threadSays (l : jlwp) (x : jvalue) : Prop :=
  exists info name stack, word (jlId l) /\ orNull textSays (jlName l) name /\ Forall2 frameSays (jlStack l) stack /\
  match jlInfo l with
  | None => info = []
  | Some i => word (thTid i) /\ word (thPri i) /\
      info = [member "ti_tid" (XNum (thTid i)); member "ti_type" (XStr (lit (kindOf (thType i)))); member "ti_pri" (XNum (thPri i))]
  end /\
  x = XObj (info ++ [member "ti_lid" (XNum (jlId l)); member "name" name; member "ti_stack" (XArr stack)]).
(** The list of the threads *)
Definition stacksSay (ls : list jlwp) (x : jvalue) : Prop := exists xs, Forall2 threadSays ls xs /\ x = XArr xs.
