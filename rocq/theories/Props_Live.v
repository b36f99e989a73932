(** Property C39: stopping and resuming threads. *)
From Verif Require Import Base Live LiveSpec LiveProofs.

(** For every properly nested use of the brackets, complete or not, and whatever the kernel answers and whatever threads
    come and go: a thread is attached only while an open bracket covers it, and its attaches and
    detaches alternate, each attach being undone exactly once. *)
Theorem C39_never_attached_outside_bracket : forall pid es s t,
  nested pid es -> Forall evOk es -> runEvents pid newLive es = Ok s ->
  (attached t s -> 0 < outstanding pid es t) /\ exists b, alternates (history t s) b.
Proof.
  intros pid es s t Hn Hok H. destruct (run_safe _ _ _ Hn Hok H) as ([_ Ha] & B & _). split; [|eauto].
  intros A. apply (alternates_attached t s (Ha t)) in A. specialize (B t). unfold on in A. lia.
Qed.
(** When all brackets have ended nothing is attached. *)
Theorem C39_nothing_attached_at_end : forall pid es s t,
  nested pid es -> frames pid es = [] -> Forall evOk es -> runEvents pid newLive es = Ok s -> ~ attached t s.
Proof.
  intros pid es s t Hn Hf Hok H A. destruct (C39_never_attached_outside_bracket pid es s t Hn Hok H) as [L _]. specialize (L A). unfold outstanding in L. rewrite Hf in L. cbn in L. lia.
Qed.
(** Whatever was open, destroying the process object detaches everything. *)
Theorem C39_destroy_detaches : forall pid es s t,
  nested pid es -> Forall evOk es -> runEvents pid newLive es = Ok s -> ~ attached t (destroy s) /\ alternates (history t (destroy s)) false.
Proof.
  intros pid es s t Hn Hok H. destruct (run_safe _ _ _ Hn Hok H) as (I & _). destruct (destroy_spec s I) as ([_ Ha] & N). specialize (Ha t). split.
  - intros A. apply (alternates_attached _ _ Ha) in A. rewrite N in A. discriminate.
  - now rewrite N in Ha.
Qed.
(** A thread that the kernel lets us stop is attached exactly while its number of open brackets is positive, provided
    each process bracket that closes after the thread was first stopped covered it.  Missing for the
    full property: the other case, where it is false (below). *)
Theorem C39_attached_while_stopped_partial : forall pid es s t,
  nested pid es -> Forall evOk es -> Forall (goodFor pid t) es -> steady pid es t -> runEvents pid newLive es = Ok s ->
  (attached t s <-> 0 < outstanding pid es t).
Proof.
  intros pid es s t Hn Hok Hg Hst H. destruct (run_safe _ _ _ Hn Hok H) as ([_ Ha] & _). destruct (run_exact _ _ _ _ Hn Hok Hg Hst H) as [C E].
  rewrite (alternates_attached t s (Ha t)). unfold on. rewrite C, E. lia.
Qed.

(** A process with main thread 1 and thread 2, stopped, thread 2 stopped again, resumed: nested use. *)
Definition ok : outcome := Attached [WIntr; WSig 10 0; WStop].
Definition exEvents : list ev := [EStopProc ok [[(1, ok); (2, ok)]; [(1, ok); (2, ok)]]; EStop 2 ok; EResume 2].
Lemma ok_ok : outOk ok /\ good ok.
Proof. split; [repeat constructor|]. exists [WIntr; WSig 10 0], []. split; [reflexivity|]. constructor; [now left|]. constructor; [right; eauto|constructor]. Qed.
Lemma exEvents_nested : nested 1 exEvents /\ nested 1 (exEvents ++ [EResumeProc]).
Proof.
  assert (N : nested 1 exEvents).
  { change exEvents with ([EStopProc ok [[(1, ok); (2, ok)]; [(1, ok); (2, ok)]]; EStop 2 ok] ++ [EResume 2]). eapply NRes; [|reflexivity].
    change [EStopProc ok [[(1, ok); (2, ok)]; [(1, ok); (2, ok)]]; EStop 2 ok] with ([EStopProc ok [[(1, ok); (2, ok)]; [(1, ok); (2, ok)]]] ++ [EStop 2 ok]). apply NStop.
    change [EStopProc ok [[(1, ok); (2, ok)]; [(1, ok); (2, ok)]]] with ([] ++ [EStopProc ok [[(1, ok); (2, ok)]; [(1, ok); (2, ok)]]]). apply NStopP, NNil. }
  split; [exact N|]. eapply NResP; [exact N|reflexivity].
Qed.
Example C39_case : exists s, runEvents 1 newLive exEvents = Ok s /\ Forall evOk exEvents /\ Forall (goodFor 1 2) exEvents /\ steady 1 exEvents 2 /\
  attached 2 s /\ outstanding 1 exEvents 2 = 1 /\
  exists s', runEvents 1 newLive (exEvents ++ [EResumeProc]) = Ok s' /\ history 2 s' = [true; false] /\ history 1 s' = [true; false] /\ lwps s' = [].
Proof.
  eexists. split; [vm_compute; reflexivity|]. destruct ok_ok as [O G]. split; [repeat (constructor; try exact O)|]. split; [|split; [|split; [|split]]].
  - constructor; [|constructor; [|constructor; [|constructor]]]; cbn [goodFor]; auto. split; [discriminate|]. intros o' Hi. cbn in Hi. destruct Hi as [E|[E|[E|[E|[]]]]]; inversion E; subst; exact G.
  - intros e1 e2 ts fs E. exfalso. assert (Hi : In EResumeProc exEvents) by (rewrite E; apply in_app_iff; right; now left). cbn in Hi. destruct Hi as [H|[H|[H|[]]]]; discriminate.
  - exists []. reflexivity.
  - reflexivity.
  - eexists. split; [vm_compute; reflexivity|]. now vm_compute.
Qed.

(** The full property is false: a thread 2 that appears after the process was stopped, and is stopped and resumed by
    itself inside that bracket, is counted down once more when the process bracket closes; the next stop of the process
    does not attach it. *)
Theorem C39_later_thread_not_stopped_refuted : exists es s,
  nested 1 es /\ Forall evOk es /\ Forall (goodFor 1 2) es /\ runEvents 1 newLive es = Ok s /\ outstanding 1 es 2 = 1 /\ ~ attached 2 s.
Proof.
  pose (P1 := EStopProc ok [[(1, ok)]]). pose (P2 := EStopProc ok [[(1, ok); (2, ok)]; [(1, ok); (2, ok)]]).
  exists [P1; EStop 2 ok; EResume 2; EResumeProc; P2]. eexists. destruct ok_ok as [O G].
  split; [|split; [|split; [|split; [vm_compute; reflexivity|split; [reflexivity|]]]]].
  - change [P1; EStop 2 ok; EResume 2; EResumeProc; P2] with (((((([] ++ [P1]) ++ [EStop 2 ok]) ++ [EResume 2]) ++ [EResumeProc]) ++ [P2])).
    apply NStopP. eapply NResP; [eapply NRes; [apply NStop, NStopP, NNil|reflexivity]|reflexivity].
  - repeat (constructor; try exact O).
  - constructor; [|constructor; [|constructor; [|constructor; [|constructor; [|constructor]]]]]; cbn [goodFor P1 P2]; auto; (split; [discriminate|]); intros o' Hi; cbn in Hi;
      repeat (destruct Hi as [E|Hi]; [inversion E; subst; exact G|]); destruct Hi.
  - intros [l H]. vm_compute in H. destruct l as [|? [|? [|? ?]]]; discriminate.
Qed.
Print Assumptions C39_never_attached_outside_bracket. Print Assumptions C39_nothing_attached_at_end. Print Assumptions C39_destroy_detaches.
Print Assumptions C39_attached_while_stopped_partial. Print Assumptions C39_later_thread_not_stopped_refuted.
