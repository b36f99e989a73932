(** std::lower_bound / std::upper_bound on a random access sequence (libstdc++ bits/stl_algobase.h
    __lower_bound: halving search), with the comparison against the key as a predicate [p] that is
    meant to hold of a prefix.  upper_bound(k, less) is the same with p x := negb (less k x). *)
From Verif Require Import Base.

Section Bound.
Context {A : Type} (p : A -> bool).
Fixpoint lbLoop (fuel : nat) (l : list A) (first len : nat) : nat :=
  match fuel with
  | O => first
  | S f =>
      match len with
      | O => first
      | _ => let half := Nat.div2 len in
             match nth_error l (first + half) with
             | None => first
             | Some x => if p x then lbLoop f l (S (first + half)) (len - half - 1)
                         else lbLoop f l first half
             end
      end
  end.
Definition lowerBound (l : list A) : nat := lbLoop (length l) l 0 (length l).

Lemma lbLoop_spec l : forall fuel first len, (len <= fuel)%nat -> (first + len <= length l)%nat ->
  (forall x, (0 < first)%nat -> nth_error l (first - 1) = Some x -> p x = true) ->
  (forall x, nth_error l (first + len) = Some x -> p x = false) ->
  let r := lbLoop fuel l first len in
  (first <= r <= first + len)%nat /\
  (forall x, (0 < r)%nat -> nth_error l (r - 1) = Some x -> p x = true) /\
  (forall x, nth_error l r = Some x -> p x = false).
Proof.
  induction fuel as [|f IH]; intros first len Hf Hl H1 H2; cbn [lbLoop].
  - replace len with 0%nat in * by lia. rewrite Nat.add_0_r in *. repeat split; auto; lia.
  - destruct len as [|k]. { rewrite Nat.add_0_r in *. repeat split; auto; lia. }
    remember (S k) as len eqn:El. assert (Hh : (Nat.div2 len < len)%nat) by (apply Nat.lt_div2; lia).
    destruct (nth_error l (first + Nat.div2 len)) as [x|] eqn:E.
    2: { exfalso. apply nth_error_None in E. lia. }
    destruct (p x) eqn:Ep.
    + destruct (IH (S (first + Nat.div2 len)) (len - Nat.div2 len - 1)%nat) as (A1 & A2 & A3); try lia.
      * intros y _ Hy. replace (S (first + Nat.div2 len) - 1)%nat with (first + Nat.div2 len)%nat in Hy by lia. congruence.
      * intros y Hy. apply H2. rewrite <- Hy. f_equal. lia.
      * repeat split; [lia|lia|exact A2|exact A3].
    + destruct (IH first (Nat.div2 len)) as (A1 & A2 & A3); try lia; auto; [intros y Hy; congruence|]. repeat split; [lia|lia|exact A2|exact A3].
Qed.
(** Without any assumption on the sequence. *)
Lemma lowerBound_edge l : let r := lowerBound l in
  (r <= length l)%nat /\ (forall x, (0 < r)%nat -> nth_error l (r - 1) = Some x -> p x = true) /\ (forall x, nth_error l r = Some x -> p x = false).
Proof.
  destruct (lbLoop_spec l (length l) 0 (length l)) as (HA & HB & HC); try lia.
  - intros x H. assert (length l < length l)%nat; [|lia]. apply nth_error_Some. cbn in H. rewrite H. discriminate.
  - unfold lowerBound. split; [lia|]. auto.
Qed.
(** On a partitioned sequence: the length of the prefix satisfying [p]. *)
Lemma lowerBound_spec l : (forall i j x y, (i < j)%nat -> nth_error l i = Some x -> nth_error l j = Some y -> p y = true -> p x = true) ->
  let r := lowerBound l in (r <= length l)%nat /\ (forall i x, nth_error l i = Some x -> p x = (i <? r)%nat).
Proof.
  intros Hm. destruct (lowerBound_edge l) as (HA & HB & HC). cbv zeta. split; [exact HA|]. intros i x Hi.
  set (r := lowerBound l) in *. destruct (Nat.ltb_spec i r) as [Hlt|Hge].
  - destruct (Nat.eq_dec i (r - 1)) as [->|]; [apply HB; [lia|assumption]|].
    destruct (nth_error l (r - 1)) as [y|] eqn:Ey. 2: { apply nth_error_None in Ey. lia. }
    apply (Hm i (r - 1)%nat x y); auto; [lia|]. apply HB; [lia|reflexivity].
  - destruct (p x) eqn:Ep; [|reflexivity]. destruct (Nat.eq_dec i r) as [->|]; [rewrite (HC x Hi) in Ep; discriminate|].
    destruct (nth_error l r) as [y|] eqn:Ey.
    2: { apply nth_error_None in Ey. assert (i < length l)%nat by (apply nth_error_Some; congruence). lia. }
    rewrite <- (HC y eq_refl). symmetry. apply (Hm r i y x); auto; lia.
Qed.
End Bound.
