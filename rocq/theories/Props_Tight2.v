(** More of C125: repetition. *)
From Coq Require Import Ascii String.
From Verif Require Import Base Args FrameText FrameTextSpec Main MainSpec Props_Main.
Open Scope Z_scope.

(** Refuted: with a delay (-b) arguments are not independent: the first process is traced until the program is interrupted, and no later
    process is traced at all, nor is that reported. *)
Theorem C125_repeat_refuted : forall (img proc : Type) killOk attach fileType core openImg native pyTrace interrupted o (e : option img) n t0 a p args xs,
  moRepeat o = true -> (length xs < n)%nat -> Process (proc := proc) killOk attach fileType core e a p ->
  (forall k, (k < length xs)%nat -> interrupted (t0 + k)%nat = false) -> interrupted (t0 + length xs)%nat = true ->
  (forall k x, nth_error xs k = Some x -> oneRound native pyTrace o p (t0 + k) = (x, Ok tt)) ->
  (forall b, In b args -> exists q : proc, Process killOk attach fileType core e b q) ->
  argLoop killOk attach fileType core openImg native pyTrace interrupted n o e t0 (a :: args) = (List.concat xs, [], Ok tt).
Proof.
  intros img proc killOk attach fileType core openImg native pyTrace interrupted o e n t0 a p args xs Hr Hn P Hi Hs Hx Ha.
  cbn [argLoop]. rewrite (proj1 (load_process killOk attach fileType core openImg native pyTrace e a p) P). rewrite (C126_repeat proc native pyTrace interrupted o p n t0 xs Hr Hn Hi Hs Hx).
  rewrite (C126_interrupt_refuted img proc killOk attach fileType core openImg native pyTrace interrupted o e n (t0 + length xs) args); [cbn; now rewrite app_nil_r|lia|exact Hs|exact Ha].
Qed.
Print Assumptions C125_repeat_refuted.
Example C125_repeat_nonvacuous :
  argLoop C125_kill C125_attach C125_type (fun _ _ => Throw) (fun _ => Ok (Some 5)) C125_native (fun _ _ => ([], Ok false)) (fun t => (2 <=? t)%nat) 9 (mkMO false false true) None 0 [lit "7"; lit "8"]
    = (lit "7:-" ++ [10] ++ lit "7:-" ++ [10], [], Ok tt).
Proof. vm_compute. reflexivity. Qed.
