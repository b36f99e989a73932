(** C124-C127: the arguments of pstack. *)
From Coq Require Import Ascii String.
From Verif Require Import Base MapsSpec CfiSpec Json Args FrameText FrameTextSpec Main MainSpec.

(** ** C124: what an argument is *)
Lemma digits_app s : forall v r, numeral 10 s v -> digitsOf 0 (s ++ r) = digitsOf v r.
Proof.
  intros v r N. revert r. induction N as [c d D|s v c d N IH D]; intros r; unfold digitOf in D.
  - cbn [app digitsOf]. replace ((48 <=? c) && (c <=? 57)) with true by lia. f_equal. lia.
  - rewrite <- app_assoc. rewrite IH. cbn [app digitsOf]. replace ((48 <=? c) && (c <=? 57)) with true by lia. f_equal. lia.
Qed.
Lemma digits_all s : forall a v, digitsOf a s = (v, []) -> Forall (fun c => 48 <= c <= 57) s /\ v = fold_left (fun a c => a * 10 + (c - 48)) s a.
Proof.
  induction s as [|c s IH]; intros a v H; cbn [digitsOf] in H; [inversion H; split; [constructor|reflexivity]|].
  destruct ((48 <=? c) && (c <=? 57)) eqn:C; [|discriminate]. destruct (IH _ _ H) as [F E]. split; [constructor; [lia|exact F]|exact E].
Qed.
Lemma numeral_fold s : s <> [] -> Forall (fun c => 48 <= c <= 57) s -> numeral 10 s (fold_left (fun a c => a * 10 + (c - 48)) s 0).
Proof.
  intros Hs F.
  assert (G : forall q p a, numeral 10 p a -> Forall (fun c => 48 <= c <= 57) q -> numeral 10 (p ++ q) (fold_left (fun a c => a * 10 + (c - 48)) q a)).
  { clear. induction q as [|c q IH]; intros p a N F; [now rewrite app_nil_r|]. cbn [fold_left]. change (c :: q) with ([c] ++ q). rewrite app_assoc.
    inversion F; subst. apply IH; [|assumption]. constructor; [exact N|]. unfold digitOf. lia. }
  destruct s as [|c s]; [congruence|]. inversion F; subst. cbn [fold_left]. change (c :: s) with ([c] ++ s). apply G; [|assumption]. replace (0 * 10 + (c - 48)) with (c - 48) by lia.
  constructor. unfold digitOf. lia.
Qed.
Lemma numeral_shape s v : numeral 10 s v -> 0 <= v /\ s <> [] /\ hd 0 s <> 45.
Proof.
  induction 1 as [c d D|s v c d N (I1 & I2 & I3) D]; unfold digitOf in D; [cbn; repeat split; try lia; discriminate|].
  split; [lia|]. split; [destruct s; discriminate|]. destruct s; [congruence|exact I3].
Qed.
Lemma parsePid_iff s v : parsePid s = Some v <-> PidText s v.
Proof.
  split.
  - unfold parsePid. intros H.
    assert (exists (neg : bool) body, s = (if neg then [45] else []) ++ body /\ (let '(x, rest) := digitsOf 0 body in
       if (zlen rest =? 0) && negb (zlen body =? 0) then let x := if neg then - x else x in if (- 2 ^ 31 <=? x) && (x <? 2 ^ 31) then Some x else None else None) = Some v) as (neg & body & -> & B).
    { destruct s as [|c r]; [exists false, []; now split|]. destruct (c =? 45) eqn:E; [exists true, r|exists false, (c :: r)]; split; try exact H; try reflexivity. cbn [app]. f_equal. lia. }
    clear H. destruct (digitsOf 0 body) as [x rest] eqn:D. destruct ((zlen rest =? 0) && negb (zlen body =? 0)) eqn:E; [|discriminate].
    assert (rest = []) as -> by (destruct rest; [reflexivity|rewrite zlen_cons in E; pose proof (zlen_nonneg rest); lia]).
    assert (Hb : body <> []) by (intros ->; change (zlen (@nil Z)) with 0 in E; lia).
    destruct (digits_all _ _ _ D) as [F Hx]. pose proof (numeral_fold body Hb F) as N. rewrite <- Hx in N. cbv zeta in B.
    destruct ((- 2 ^ 31 <=? (if neg then - x else x)) && ((if neg then - x else x) <? 2 ^ 31)) eqn:R; inversion B; subst v. destruct neg; cbn [app].
    + apply PtNeg; [exact N|lia].
    + apply PtPos; [exact N|lia].
  - intros H. unfold parsePid.
    assert (G : forall body x, numeral 10 body x -> digitsOf 0 body = (x, []) /\ negb (zlen body =? 0) = true /\ 0 <= x /\ hd 0 body <> 45).
    { intros body x N. pose proof (digits_app body x [] N) as D. rewrite app_nil_r in D. cbn [digitsOf] in D. destruct (numeral_shape _ _ N) as (P & Q & R). repeat split; try assumption.
      destruct body as [|c b]; [congruence|]. rewrite zlen_cons. pose proof (zlen_nonneg b). lia. }
    destruct H as [s v N R|s v N R]; destruct (G _ _ N) as (D & L & P & Q).
    + destruct s as [|c s]; [discriminate L|]. cbn [hd] in Q. replace (c =? 45) with false by lia. rewrite D, L. change (zlen (@nil Z)) with 0. cbn [Z.eqb andb]. replace ((- 2 ^ 31 <=? v) && (v <? 2 ^ 31)) with true by lia. reflexivity.
    + cbn [Z.eqb Pos.eqb]. rewrite D, L. change (zlen (@nil Z)) with 0. cbn [Z.eqb andb]. replace ((- 2 ^ 31 <=? - v) && (- v <? 2 ^ 31)) with true by lia. reflexivity.
Qed.
Lemma parsePid_none s : (forall v, ~ PidText s v) <-> parsePid s = None.
Proof.
  split.
  - intros H. destruct (parsePid s) as [v|] eqn:E; [|reflexivity]. apply parsePid_iff in E. destruct (H v E).
  - intros H v P. apply parsePid_iff in P. congruence.
Qed.
(** An argument that is a number of the range of process ids is that process, whatever files there are; any other
    is a file: a core is loaded, another ELF image is not a process, and what cannot be read is an error.
    Partial: zero and negative numbers, which are no process's id, are taken as processes, see [C124_negative_refuted]. *)
Theorem C124_argument_partial : forall (img proc : Type) killOk attach fileType core (exec : option img) id,
  (forall v, PidText id v -> load (proc := proc) killOk attach fileType core exec id = if killOk v then match attach exec v with Ok p => Ok (Some p) | Throw => Throw | UB => UB | OutOfFuel => OutOfFuel end else Throw) /\
  ((forall v, ~ PidText id v) ->
     (forall t, fileType id = Ok t -> t <> 4 -> load killOk attach fileType core exec id = Ok None) /\
     (fileType id = Ok 4 -> load killOk attach fileType core exec id = match core exec id with Ok p => Ok (Some p) | Throw => Throw | UB => UB | OutOfFuel => OutOfFuel end) /\
     (fileType id = Throw -> load killOk attach fileType core exec id = Throw)).
Proof.
  intros img proc killOk attach fileType core exec id. unfold load. split.
  - intros v P. apply parsePid_iff in P. rewrite P. destruct (killOk v); [|reflexivity]. now destruct (attach exec v).
  - intros N. apply parsePid_none in N. rewrite N. split; [|split].
    + intros t E T. rewrite E. cbn [bind]. replace (t =? 4) with false by lia. reflexivity.
    + intros E. rewrite E. cbn [bind]. cbn [Z.eqb Pos.eqb negb]. now destruct (core exec id).
    + intros E. now rewrite E.
Qed.
Print Assumptions C124_argument_partial.
Example C124_nonvacuous : PidText (lit "0042") 42 /\ (forall v, ~ PidText (lit "core.42") v) /\ (forall v, ~ PidText (lit "2147483648") v) /\ (forall v, ~ PidText (lit "+1") v) /\ (forall v, ~ PidText [] v).
Proof. split; [apply parsePid_iff; vm_compute; reflexivity|]. repeat split; apply parsePid_none; vm_compute; reflexivity. Qed.
(** Refuted: -1 (every process, to kill) and 0 (the process group). *)
Theorem C124_negative_refuted : forall (img proc : Type) killOk attach fileType core (exec : option img) (p : proc),
  (killOk (-1) = true -> attach exec (-1) = Ok p -> load killOk attach fileType core exec (lit "-1") = Ok (Some p)) /\
  (killOk 0 = true -> attach exec 0 = Ok p -> load killOk attach fileType core exec (lit "0") = Ok (Some p)).
Proof.
  intros img proc killOk attach fileType core exec p. unfold load. change (parsePid (lit "-1")) with (Some (-1)). change (parsePid (lit "0")) with (Some 0).
  split; intros -> ->; reflexivity.
Qed.
Print Assumptions C124_negative_refuted.

(** ** C125: the arguments *)
Section Loop.
Context {img proc : Type} (killOk : Z -> bool) (attach : option img -> Z -> res proc) (fileType : list Z -> res Z)
        (core : option img -> list Z -> res proc) (openImg : list Z -> res (option img))
        (native : proc -> nat -> wr) (pyTrace : proc -> nat -> list Z * res bool) (interrupted : nat -> bool).
Local Notation Image := (Image fileType openImg).
Local Notation Process := (Process killOk attach fileType core).
Local Notation Unreadable := (Unreadable killOk attach fileType core openImg).
Local Notation LastImage := (LastImage fileType openImg).
Local Notation load := (load killOk attach fileType core).

Lemma load_image e a i : Image a i -> load e a = Ok None /\ openImg a = Ok i.
Proof. intros (N & (t & T & T4) & O). split; [|exact O]. unfold load. apply parsePid_none in N. rewrite N, T. cbn [bind]. now replace (t =? 4) with false by lia. Qed.
Lemma load_process e a p : Process e a p <-> load e a = Ok (Some p).
Proof.
  unfold load, MainSpec.Process. split.
  - intros [(v & P & K & A')|(N & T & C)].
    + apply parsePid_iff in P. rewrite P, K, A'. reflexivity.
    + apply parsePid_none in N. rewrite N, T. cbn [bind Z.eqb Pos.eqb negb]. now rewrite C.
  - destruct (parsePid a) as [v|] eqn:P.
    + destruct (killOk v) eqn:K; [|discriminate]. destruct (attach e v) eqn:A'; cbn [bind]; try discriminate. intros H. inversion H; subst. left. exists v. apply parsePid_iff in P. repeat split; assumption.
    + destruct (fileType a) as [t| | |] eqn:T; cbn [bind]; try discriminate. destruct (t =? 4) eqn:E; cbn [negb]; [|discriminate].
      destruct (core e a) eqn:C; cbn [bind]; try discriminate. intros H. inversion H; subst. right. replace t with 4 by lia. split; [now apply parsePid_none|]. split; [reflexivity|congruence].
Qed.
Lemma load_unreadable e a : Unreadable e a -> load e a = Throw \/ (load e a = Ok None /\ openImg a = Throw).
Proof.
  unfold load. intros [(v & P & [K|A'])|(N & [T|[[T C]|(t & T & T4 & O)]])].
  - apply parsePid_iff in P. rewrite P, K. now left.
  - apply parsePid_iff in P. rewrite P, A'. destruct (killOk v); now left.
  - apply parsePid_none in N. rewrite N, T. now left.
  - apply parsePid_none in N. rewrite N, T. cbn [bind Z.eqb Pos.eqb negb]. rewrite C. now left.
  - apply parsePid_none in N. rewrite N, T. cbn [bind]. replace (t =? 4) with false by lia. right. split; [reflexivity|exact O].
Qed.
(** What one argument contributes, with the executable [e], as the [t]-th trace: its text, whether it was a process, whether it failed. *)
Inductive Contributes (o : mopts) (e : option img) (t : nat) (a : list Z) : list Z * bool * bool -> Prop :=
| CoImage i : Image a i -> Contributes o e t a ([], false, false)
| CoBad : Unreadable e a -> Contributes o e t a ([], false, true)
| CoOk p x : Process e a p -> oneRound native pyTrace o p t = (x, Ok tt) -> Contributes o e t a (x, true, false)
| CoFail p x : Process e a p -> oneRound native pyTrace o p t = (x, Throw) -> Contributes o e t a (x, true, true).
Definition out (c : list Z * bool * bool) : list Z := fst (fst c).
Definition wasProc (c : list Z * bool * bool) : bool := snd (fst c).
Definition failed (c : list Z * bool * bool) : bool := snd c.

Lemma image_unique a i j : Image a i -> Image a j -> i = j.
Proof. intros (_ & _ & E1) (_ & _ & E2). congruence. Qed.
Lemma last_push e0 a pre i e : Image a i -> LastImage e0 (a :: pre) e -> LastImage i pre e.
Proof.
  intros I L. destruct L as [N|p1 b p2 j E J N].
  - destruct (N a i (or_introl eq_refl) I).
  - destruct p1 as [|x p1]; cbn [app] in E; inversion E; subst.
    + rewrite (image_unique _ _ _ J I). apply LiNone. exact N.
    + now apply (LiSome _ _ _ _ p1 b p2).
Qed.
Lemma last_skip e0 a pre e : (forall i, ~ Image a i) -> LastImage e0 (a :: pre) e -> LastImage e0 pre e.
Proof.
  intros I L. destruct L as [N|p1 b p2 j E J N].
  - apply LiNone. intros b j Hb. apply N. now right.
  - destruct p1 as [|x p1]; cbn [app] in E; inversion E; subst; [destruct (I j J)|]. now apply (LiSome _ _ _ _ p1 b p2).
Qed.
Lemma process_not_image e a p i : Process e a p -> ~ Image a i.
Proof. intros [(v & P & _)|(_ & T & _)] (N & (t & T' & T4) & _); [destruct (N v P)|congruence]. Qed.
Lemma unreadable_not_image e a i : Unreadable e a -> ~ Image a i.
Proof. intros [(v & P & _)|(_ & [T|[[T _]|(t & T & T4 & O)]])] (N & (t' & T' & T4') & O'); [destruct (N v P)|congruence|congruence|congruence]. Qed.
End Loop.
(** Each argument is handled on its own: what is written is what the arguments contribute, one after another, each traced with the last image
    named before it (or the one of -e) as executable; those that fail are reported and the others
    are still traced; the exit status says whether one failed.
    Partial: not repeating, and not interrupted, see C126. *)
Theorem C125_arguments_partial : forall (img proc : Type) killOk attach fileType core openImg native pyTrace interrupted o (e0 : option img) args rs n t0,
  (0 < n)%nat -> (forall t, interrupted t = false) -> moRepeat o = false ->
  length rs = length args ->
  (forall k a c, nth_error args k = Some a -> nth_error rs k = Some c ->
     exists e, LastImage fileType openImg e0 (firstn k args) e /\ Contributes (proc := proc) killOk attach fileType core openImg native pyTrace o e (t0 + length (filter wasProc (firstn k rs))) a c) ->
  argLoop killOk attach fileType core openImg native pyTrace interrupted n o e0 t0 args =
    (List.concat (map out rs), map fst (filter (fun x => failed (snd x)) (combine args rs)), Ok tt).
Proof.
  intros img proc killOk attach fileType core openImg native pyTrace interrupted o e0 args rs n t0 Hn Hi Hr Hl H.
  revert rs e0 t0 Hl H. induction args as [|a args IH]; intros rs e0 t0 Hl H; destruct rs as [|c rs]; try discriminate Hl; [reflexivity|].
  destruct (H 0%nat a c eq_refl eq_refl) as (e & L & C). cbn [firstn] in L. cbn [firstn filter length] in C. rewrite Nat.add_0_r in C.
  assert (e = e0) as ->. { destruct L as [N|p1 b p2 j E J N]; [reflexivity|destruct p1; discriminate]. }
  clear L. cbn [argLoop map List.concat combine filter].
  assert (Hl' : length rs = length args) by (cbn in Hl; lia).
  assert (D : forall p x w, oneRound native pyTrace o p t0 = (x, w) -> w = Ok tt \/ w = Throw -> doStack native pyTrace interrupted n o p t0 = (S t0, (x, w))).
  { intros p x w R W. destruct n as [|m]; [lia|]. cbn [doStack]. rewrite Hi, R, Hr. destruct W as [->| ->]; reflexivity. }
  destruct C as [i I|U|p x P R|p x P R].
  - destruct (load_image killOk attach fileType core openImg e0 a i I) as [-> ->]. cbn [snd fst app failed out].
    rewrite (IH rs i t0 Hl'); [reflexivity|]. intros k b d Hk Hd. destruct (H (S k) b d Hk Hd) as (e & L & C). exists e. cbn [firstn filter wasProc fst snd] in L, C.
    split; [exact (last_push fileType openImg e0 a (firstn k args) i e I L)|exact C].
  - assert (G : match load killOk attach fileType core e0 a with
        | Ok None => match openImg a with Ok i => (i, t0, ([], Ok tt)) | Throw => (e0, t0, ([], Throw)) | UB => (e0, t0, ([], UB)) | OutOfFuel => (e0, t0, ([], OutOfFuel)) end
        | Ok (Some p) => let '(t', w) := doStack native pyTrace interrupted n o p t0 in (e0, t', w)
        | Throw => (e0, t0, ([], Throw)) | UB => (e0, t0, ([], UB)) | OutOfFuel => (e0, t0, ([], OutOfFuel)) end = (e0, t0, ([], Throw))).
    { destruct (load_unreadable killOk attach fileType core openImg e0 a U) as [->|[-> ->]]; reflexivity. }
    rewrite G. clear G.
    cbn [snd fst app failed out map]. rewrite (IH rs e0 t0 Hl'); [reflexivity|]. intros k b d Hk Hd. destruct (H (S k) b d Hk Hd) as (e & L & C). exists e. cbn [firstn filter wasProc fst snd] in L, C.
    split; [|exact C]. apply (last_skip fileType openImg e0 a); [|exact L]. intros i. now apply (unreadable_not_image killOk attach fileType core openImg e0).
  - rewrite (proj1 (load_process killOk attach fileType core openImg native pyTrace e0 a p) P). rewrite (D p x _ R (or_introl eq_refl)). cbn [snd fst failed out map].
    rewrite (IH rs e0 (S t0) Hl'); [reflexivity|]. intros k b d Hk Hd. destruct (H (S k) b d Hk Hd) as (e & L & C). exists e. cbn [firstn filter wasProc fst snd length] in L, C. rewrite Nat.add_succ_r in C.
    split; [|exact C]. apply (last_skip fileType openImg e0 a); [|exact L]. intros i. now apply (process_not_image killOk attach fileType core openImg e0 a p).
  - rewrite (proj1 (load_process killOk attach fileType core openImg native pyTrace e0 a p) P). rewrite (D p x _ R (or_intror eq_refl)). cbn [snd fst failed out map].
    rewrite (IH rs e0 (S t0) Hl'); [reflexivity|]. intros k b d Hk Hd. destruct (H (S k) b d Hk Hd) as (e & L & C). exists e. cbn [firstn filter wasProc fst snd length] in L, C. rewrite Nat.add_succ_r in C.
    split; [|exact C]. apply (last_skip fileType openImg e0 a); [|exact L]. intros i. now apply (process_not_image killOk attach fileType core openImg e0 a p).
Qed.
Print Assumptions C125_arguments_partial.
Theorem C125_exit_status : forall l, (exitStatus l = 0 <-> l = []) /\ (l <> [] -> exitStatus l = 70).
Proof. intros [|a l]; cbn; repeat split; congruence. Qed.
Print Assumptions C125_exit_status.
(** Arguments: an executable, a process, a core that is not there, a process that was not found in Python. *)
Definition C125_kill (v : Z) : bool := (v =? 7) || (v =? 8).
Definition C125_attach (e : option Z) (v : Z) : res (Z * option Z) := Ok (v, e).
Definition C125_type (a : list Z) : res Z := if beqs a (lit "x") then Ok 3 else Throw.
Definition C125_native (p : Z * option Z) (t : nat) : wr := emit (intText (fst p) ++ lit ":" ++ (match snd p with Some i => intText i | None => lit "-" end) ++ [10]).
Example C125_nonvacuous :
  argLoop C125_kill C125_attach C125_type (fun _ _ => Throw) (fun _ => Ok (Some 5)) C125_native (fun _ _ => ([], Ok false)) (fun _ => false) 1 (mkMO false false false) None 0
    [lit "7"; lit "x"; lit "core"; lit "8"; lit "9"] = (lit "7:-" ++ [10] ++ lit "8:5" ++ [10], [lit "core"; lit "9"], Ok tt) /\
  forall k a c, nth_error [lit "7"; lit "x"; lit "8"] k = Some a -> nth_error [(lit "7:-" ++ [10], true, false); ([], false, false); (lit "8:5" ++ [10], true, false)] k = Some c ->
     exists e, LastImage C125_type (fun _ => Ok (Some 5)) None (firstn k [lit "7"; lit "x"; lit "8"]) e /\
       Contributes C125_kill C125_attach C125_type (fun _ _ => Throw) (fun _ => Ok (Some 5)) C125_native (fun _ _ => ([], Ok false)) (mkMO false false false) e
         (0 + length (filter wasProc (firstn k [(lit "7:-" ++ [10], true, false); ([], false, false); (lit "8:5" ++ [10], true, false)]))) a c.
Proof.
  assert (X : forall i, i = Some 5 -> Image C125_type (fun _ => Ok (Some 5)) (lit "x") i).
  { intros i ->. split; [apply parsePid_none; reflexivity|]. split; [exists 3; split; [reflexivity|lia]|reflexivity]. }
  assert (P : forall s v, parsePid s = Some v -> forall i, ~ Image C125_type (fun _ => Ok (Some 5)) s i).
  { intros s v Hv i (N & _). apply (N v). now apply parsePid_iff. }
  split; [vm_compute; reflexivity|]. intros [|[|[|k]]] a c Ha Hc; cbn in Ha, Hc; inversion Ha; inversion Hc; subst; clear Ha Hc; [| | |destruct k; discriminate].
  - exists None. split; [apply LiNone; intros ? ? []|]. apply (CoOk _ _ _ _ _ _ _ _ _ _ _ (7, None)); [left; exists 7; split; [apply parsePid_iff; reflexivity|split; reflexivity]|reflexivity].
  - exists None. split; [|apply (CoImage _ _ _ _ _ _ _ _ _ _ _ (Some 5)); now apply X]. apply LiNone. intros ? i [<-|[]]. now apply (P _ 7).
  - exists (Some 5). split; [apply (LiSome _ _ _ _ [lit "7"] (lit "x") []); [reflexivity|now apply X|intros ? ? []]|].
    apply (CoOk _ _ _ _ _ _ _ _ _ _ _ (8, Some 5)); [left; exists 8; split; [apply parsePid_iff; reflexivity|split; reflexivity]|reflexivity].
Qed.

(** ** C126: repeating and interrupting *)
(** With a delay, a process is traced over and over until the program is interrupted; then what is written is
    the traces up to that moment. *)
Theorem C126_repeat : forall (proc : Type) (native : proc -> nat -> wr) pyTrace interrupted o p n t0 xs,
  moRepeat o = true -> (length xs < n)%nat ->
  (forall k, (k < length xs)%nat -> interrupted (t0 + k)%nat = false) -> interrupted (t0 + length xs)%nat = true ->
  (forall k x, nth_error xs k = Some x -> oneRound native pyTrace o p (t0 + k) = (x, Ok tt)) ->
  doStack native pyTrace interrupted n o p t0 = ((t0 + length xs)%nat, (List.concat xs, Ok tt)).
Proof.
  intros proc native pyTrace interrupted o p n t0 xs Hr. revert n t0. induction xs as [|x xs IH]; intros n t0 Hn Hi Hs Hx; (destruct n as [|n]; [cbn in Hn; lia|]); cbn [doStack].
  - rewrite Nat.add_0_r in Hs. rewrite Nat.add_0_r, Hs. reflexivity.
  - pose proof (Hi 0%nat ltac:(cbn; lia)) as Hi0. rewrite Nat.add_0_r in Hi0. rewrite Hi0.
    pose proof (Hx 0%nat x eq_refl) as Hx0. rewrite Nat.add_0_r in Hx0. rewrite Hx0, Hr.
    rewrite (IH n (S t0)); [cbn [length List.concat andThen emit]; rewrite Nat.add_succ_r; reflexivity| | | |].
    + cbn in Hn. lia.
    + intros k Hk. specialize (Hi (S k) ltac:(cbn; lia)). now rewrite Nat.add_succ_r in Hi.
    + cbn [length] in Hs. now rewrite Nat.add_succ_r in Hs.
    + intros k y Hy. specialize (Hx (S k) y Hy). now rewrite Nat.add_succ_r in Hx.
Qed.
Print Assumptions C126_repeat.
Example C126_nonvacuous :
  doStack C125_native (fun _ _ => ([], Ok false)) (fun t => (2 <=? t)%nat) 9 (mkMO false false true) (7, None) 0 = (2%nat, (lit "7:-" ++ [10] ++ lit "7:-" ++ [10], Ok tt)).
Proof. vm_compute. reflexivity. Qed.
(** Refuted: "the exit status is 0 only if every argument was traced".  After an interruption the remaining processes are loaded and silently skipped. *)
Theorem C126_interrupt_refuted : forall (img proc : Type) killOk attach fileType core openImg native pyTrace interrupted o (e : option img) n t0 args,
  (0 < n)%nat -> interrupted t0 = true -> (forall a, In a args -> exists p : proc, Process killOk attach fileType core e a p) ->
  argLoop killOk attach fileType core openImg native pyTrace interrupted n o e t0 args = ([], [], Ok tt).
Proof.
  intros img proc killOk attach fileType core openImg native pyTrace interrupted o e n t0 args Hn Hi H. induction args as [|a args IH]; [reflexivity|].
  cbn [argLoop]. destruct (H a (or_introl eq_refl)) as (p & P). rewrite (proj1 (load_process killOk attach fileType core openImg native pyTrace e a p) P).
  assert (D : doStack native pyTrace interrupted n o p t0 = (t0, emit [])) by (destruct n as [|m]; [lia|cbn [doStack]; now rewrite Hi]).
  rewrite D. cbn [emit]. rewrite IH; [reflexivity|]. intros b Hb. apply H. now right.
Qed.
Print Assumptions C126_interrupt_refuted.

(** ** C127: native and Python traces *)
(** Without -p and -A the native trace; with -p the Python trace, and an error if it is no Python process; with -A the Python trace if
    it is one, and then the native trace.
    Partial: with -A an error in the Python trace loses the native trace, see [C127_all_error_refuted]. *)
Theorem C127_choice_partial : forall (proc : Type) (native : proc -> nat -> wr) pyTrace p t (rep : bool),
  oneRound native pyTrace (mkMO false false rep) p t = native p t /\
  (forall x, pyTrace p t = (x, Ok true) -> forall al, oneRound native pyTrace (mkMO true al rep) p t = (x, Ok tt)) /\
  (forall x, pyTrace p t = (x, Ok false) -> forall al, oneRound native pyTrace (mkMO true al rep) p t = (x, Throw)) /\
  (forall x b, pyTrace p t = (x, Ok b) -> oneRound native pyTrace (mkMO false true rep) p t = (x ++ fst (native p t), snd (native p t))).
Proof.
  intros proc native pyTrace p t rep. unfold oneRound. cbn [moPython moAll orb negb andb].
  split; [unfold andThen, emit; cbn [app]; now destruct (native p t)|]. split; [|split].
  - intros x -> al. cbn [negb]. unfold andThen, emit. cbn [fst snd]. now rewrite app_nil_r.
  - intros x -> al. reflexivity.
  - intros x b ->. unfold andThen. reflexivity.
Qed.
Print Assumptions C127_choice_partial.
Theorem C127_all_error_refuted : forall (proc : Type) (native : proc -> nat -> wr) pyTrace p t (rep : bool) x, pyTrace p t = (x, Throw) ->
  oneRound native pyTrace (mkMO false true rep) p t = (x, Throw).
Proof. intros proc native pyTrace p t rep x H. unfold oneRound. cbn [moPython moAll orb]. now rewrite H. Qed.
Print Assumptions C127_all_error_refuted.
