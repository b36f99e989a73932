(** C57, C96: running a command. *)
From Verif Require Import Base Maps MapsSpec MapsProofs Child ChildSpec ChildProofs.

(** C57.  [stops] are the signals at which the command stopped, with the masks of blocked, ignored and
    caught signals that /proc/<pid>/status showed then.  A signal that is blocked, ignored or caught is
    passed on unchanged (SIGSTOP and SIGTRAP are not); at any other, if its default action is to
    terminate, the stack is shown and the command killed; SIGTRAP, which exec causes, is never shown.
    Partial: signals up to 31 and those whose default is to terminate; see the refutations. *)
Definition handled (blk ign cgt sig : Z) : Prop := hasSignal blk sig \/ hasSignal ign sig \/ hasSignal cgt sig.
Theorem C57_signals_partial : forall (stops : list (Z * (Z * Z * Z) * list Z)) rest,
  Forall (fun st => let '(sig, (blk, ign, cgt), text) := st in
            1 <= sig <= 31 /\ statusText text blk ign cgt /\ blk < 2 ^ 64 /\ ign < 2 ^ 64 /\ cgt < 2 ^ 64) stops ->
  exists acts,
  watch (map (fun st => Stopped (fst (fst st)) (snd st)) stops ++ Ended :: rest) = Ok acts /\
  Forall2 (fun st a => let '(sig, (blk, ign, cgt), text) := st in
     (handled blk ign cgt sig -> sig <> 5 -> sig <> 19 -> a = Continue sig) /\
     (sig = 5 -> a = Continue 0) /\
     (handled blk ign cgt sig -> sig = 19 -> a = Continue 0) /\
     (~ handled blk ign cgt sig -> defaultAction sig = Terminates -> sig <> 5 -> a = ShowAndKill)) stops acts.
Proof.
  induction stops as [|[[sig [[blk ign] cgt]] text] stops IH]; intros rest F; [exists []; split; [reflexivity|constructor]|].
  apply Forall_cons_iff in F as [H0 F']. cbv beta iota in H0. destruct H0 as (Hs & T & L1 & L2 & L3). destruct (IH rest F') as (acts & E & A). cbn [map app watch fst snd].
  rewrite (readMasks_status text blk ign cgt) by assumption. cbn [bind]. unfold onStop. cbn [mBlk mIgn mCgt]. unfold sigBit. replace ((1 <=? sig) && (sig <=? 31)) with true by lia. cbn [bind]. rewrite E.
  rewrite land_bit by lia. rewrite !Z.lor_spec. change (5 - 1) with 4.
  set (h := Z.testbit blk (sig - 1) || Z.testbit cgt (sig - 1) || Z.testbit ign (sig - 1)).
  assert (P4 : Z.testbit (2 ^ 4) (sig - 1) = (sig =? 5)) by (destruct (Z.eqb_spec sig 5) as [->|]; [reflexivity|apply Z.pow2_bits_false; lia]). rewrite P4.
  assert (HH : handled blk ign cgt sig <-> h = true).
  { unfold handled, hasSignal, h. destruct (Z.testbit blk (sig - 1)), (Z.testbit cgt (sig - 1)), (Z.testbit ign (sig - 1)); cbn; intuition congruence. }
  exists ((if negb (h || (sig =? 5)) then ShowAndKill else Continue (if (sig =? 19) || (sig =? 5) then 0 else sig)) :: acts). split; [destruct (negb _); reflexivity|]. constructor; [|exact A].
  rewrite HH. destruct (Z.eqb_spec sig 5) as [->|N5]; [rewrite orb_true_r; cbn; repeat split; intros; congruence || lia|]. rewrite orb_false_r. destruct h; cbn [negb].
  - destruct (Z.eqb_spec sig 19) as [->|N19]; cbn [orb]; repeat split; intros; congruence || lia.
  - repeat split; intros; congruence || lia.
Qed.
Print Assumptions C57_signals_partial.
(** "X:\nSigPnd:\t0\nSigBlk:\t0\nSigIgn:\t1000\nSigCgt:\t2\nY\n": SIGPIPE (13) is ignored, SIGINT (2) caught *)
Definition C57_text : list Z :=
  [88; 58; 10; 83; 105; 103; 80; 110; 100; 58; 9; 48; 10; 83; 105; 103; 66; 108; 107; 58; 9; 48; 10;
   83; 105; 103; 73; 103; 110; 58; 9; 49; 48; 48; 48; 10; 83; 105; 103; 67; 103; 116; 58; 9; 50; 10; 89; 10].
Lemma C57_text_ok : statusText C57_text 0 4096 2.
Proof.
  exists [[88; 58]; [83; 105; 103; 80; 110; 100; 58; 9; 48]], [83; 105; 103; 66; 108; 107; 58; 9; 48], [83; 105; 103; 73; 103; 110; 58; 9; 49; 48; 48; 48], [83; 105; 103; 67; 103; 116; 58; 9; 50], [[89]].
  split; [reflexivity|]. split; [exists [48]; split; [reflexivity|apply NumOne; split; [lia|left; lia]]|].
  split. { exists [49; 48; 48; 48]. split; [reflexivity|]. change 4096 with (((1 * 16 + 0) * 16 + 0) * 16 + 0). change [49; 48; 48; 48] with ((([49] ++ [48]) ++ [48]) ++ [48]). do 3 (apply NumMore; [|split; [lia|left; lia]]). apply NumOne. split; [lia|left; lia]. }
  split; [exists [50]; split; [reflexivity|apply NumOne; split; [lia|left; lia]]|]. split.
  - repeat constructor; cbn; intuition lia.
  - repeat (apply Forall_cons || apply Forall_nil); intros letters s [<-|[<-|[<-|[]]]]; discriminate.
Qed.
Example C57_nonvacuous : watch [Stopped 5 C57_text; Stopped 2 C57_text; Stopped 13 C57_text; Stopped 11 C57_text; Ended] =
  Ok [Continue 0; Continue 2; Continue 13; ShowAndKill].
Proof. vm_compute. reflexivity. Qed.
(** Refuted: signals whose default action is to be ignored - a child of the command has ended
    (SIGCHLD, 17), or its window has changed (SIGWINCH, 28) - kill the command; so do SIGCONT and the
    stop signals. *)
Theorem C57_default_ignored_refuted : forall sig, In sig [17; 23; 28; 18; 19; 20; 21; 22] ->
  defaultAction sig <> Terminates /\ watch [Stopped sig C57_text; Ended] = Ok [ShowAndKill].
Proof. intros sig H. cbn in H. repeat destruct H as [<-|H]; [split; [discriminate|vm_compute; reflexivity]..|easy]. Qed.
(** Refuted: for the real-time signals from 33 on the shift is undefined. *)
Theorem C57_realtime_refuted : forall sig, 33 <= sig <= 64 -> watch [Stopped sig C57_text; Ended] = UB.
Proof.
  intros sig H. cbn [watch]. rewrite (readMasks_status C57_text 0 4096 2) by (try apply C57_text_ok; vm_compute; reflexivity). cbn [bind]. unfold onStop, sigBit. replace ((1 <=? sig) && (sig <=? 31)) with false by lia. replace (sig =? 32) with false by lia. reflexivity.
Qed.

(** C96.  The command is split at each space: as many arguments as words, the first argument is the
    first word and the last the last; they are the words if there are at most two.  Partial: with more
    than one space the words between are followed by text of the words after them; see
    [C96_three_words_refuted]. *)
Theorem C96_arguments_partial : forall cmd,
  (exists l, splitArgs (S (spaces cmd)) cmd 0 = Ok l /\ length l = length (words cmd) /\ last l [] = last (words cmd) []) /\
  (forall l, splitArgs (S (spaces cmd)) cmd 0 = Ok l -> hd [] l = hd [] (words cmd)) /\
  ((spaces cmd <= 1)%nat -> splitArgs (S (spaces cmd)) cmd 0 = Ok (words cmd)).
Proof.
  intros cmd. split; [|split].
  - destruct (split_count (S (spaces cmd)) [] cmd ltac:(lia)) as (l & E & L & LW). exists l. split; [exact E|]. split; [|exact LW]. rewrite L. clear.
    remember (length cmd) as n eqn:Hn. assert (Hle : (length cmd <= n)%nat) by lia. clear Hn. revert cmd Hle.
    induction n as [|n IH]; intros cmd Hn; (destruct (words_inv cmd) as [N|(w & r & -> & N)]; [rewrite (words_nospace _ N), (spaces_none _ N); reflexivity|]); rewrite app_length in Hn; cbn [length] in Hn; [lia|].
    rewrite (words_cons _ _ N), spaces_app, (spaces_none w N). cbn [length]. rewrite <- IH by lia. reflexivity.
  - intros l. destruct (words_inv cmd) as [N|(w & r & -> & N)].
    + rewrite (split_last _ [] cmd N : splitArgs _ cmd 0 = _), (words_nospace _ N). intros [= <-]. reflexivity.
    + rewrite (split_first _ w r N), (words_cons _ _ N). destruct (splitArgs _ _ _); cbn [bind]; [|discriminate..]. intros [= <-]. reflexivity.
  - destruct (words_inv cmd) as [N|(w & r & -> & N)].
    + intros _. now rewrite (split_last _ [] cmd N : splitArgs _ cmd 0 = _), (words_nospace _ N).
    + rewrite (split_first _ w r N), (words_cons _ _ N). rewrite spaces_app, (spaces_none w N). intros H. change (spaces (32 :: r)) with (S (spaces r)) in *. assert (S0 : spaces r = 0%nat) by lia. rewrite S0.
      assert (NR : ~ In 32 r). { intros I. assert (In 32 (filter (fun c => c =? 32) r)) by (apply filter_In; split; [exact I|reflexivity]). unfold spaces in S0. destruct (filter _ r); [easy|discriminate]. }
      replace (w ++ 32 :: r) with ((w ++ [32]) ++ r) by (rewrite <- app_assoc; reflexivity). cbn [Nat.add]. rewrite (split_last 0 (w ++ [32]) r NR). cbn [bind]. now rewrite (words_nospace _ NR).
Qed.
Print Assumptions C96_arguments_partial.
Example C96_nonvacuous : words [108; 115; 32; 97] = [[108; 115]; [97]] /\ splitArgs 5 [108; 115; 32; 97] 0 = Ok [[108; 115]; [97]].
Proof. split; reflexivity. Qed.
(** Refuted: "cp a b" is run with the arguments "cp", "a b" and "b". *)
Theorem C96_three_words_refuted : splitArgs 5 [99; 112; 32; 97; 32; 98] 0 = Ok [[99; 112]; [97; 32; 98]; [98]] /\
  words [99; 112; 32; 97; 32; 98] = [[99; 112]; [97]; [98]].
Proof. split; reflexivity. Qed.
Print Assumptions C57_default_ignored_refuted.
Print Assumptions C57_realtime_refuted.
Print Assumptions C96_three_words_refuted.
