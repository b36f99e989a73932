(** Specification of the tracing of a command's signals (proc(5), signal(7)). *)
From Verif Require Import Base MapsSpec.

(** Splitting at each space. *)
Fixpoint words (cmd : list Z) : list (list Z) :=
  match cmd with
  | [] => [[]]
  | c :: r => if c =? 32 then [] :: words r
              else match words r with
                   | w :: ws => (c :: w) :: ws
                   | [] => [[c]]
                   end
  end.
Definition spaces (cmd : list Z) : nat := length (filter (fun c => c =? 32) cmd).

(** /proc/<pid>/status: lines; those of the masks are "SigBlk:", "SigIgn:", "SigCgt:", a tab and a
    hexadecimal number whose bit s - 1 stands for the signal s. *)
Definition maskLine (letters : list Z) (l : list Z) (v : Z) : Prop :=
  exists s, l = [83; 105; 103] ++ letters ++ [58; 9] ++ s /\ numeral 16 s v.
Definition otherLine (l : list Z) : Prop :=
  forall letters s, In letters [[66; 108; 107]; [73; 103; 110]; [67; 103; 116]] -> l <> [83; 105; 103] ++ letters ++ [58; 9] ++ s.
Definition statusText (text : list Z) (blk ign cgt : Z) : Prop :=
  exists before b i c after,
    text = flat_map (fun l => l ++ [10]) (before ++ [b; i; c] ++ after) /\
    maskLine [66; 108; 107] b blk /\ maskLine [73; 103; 110] i ign /\ maskLine [67; 103; 116] c cgt /\
    Forall (fun l => ~ In 10 l /\ zlen l < 4095) (before ++ [b; i; c] ++ after) /\ Forall otherLine (before ++ after).
Definition hasSignal (mask sig : Z) : Prop := Z.testbit mask (sig - 1) = true.

(** The action of a signal nothing else was arranged for (signal(7), x86-64). *)
Inductive default : Type := Terminates | Ignored | Stops | Continues.
Definition defaultAction (sig : Z) : default :=
  if (sig =? 17) || (sig =? 23) || (sig =? 28) then Ignored           (* SIGCHLD, SIGURG, SIGWINCH *)
  else if (sig =? 18) then Continues                                  (* SIGCONT *)
  else if (sig =? 19) || (sig =? 20) || (sig =? 21) || (sig =? 22) then Stops (* SIGSTOP, SIGTSTP, SIGTTIN, SIGTTOU *)
  else Terminates.
