(** Property C169: the alternate debug file (see properties.jsonl). *)
From Coq Require Import Ascii String.
From Verif Require Import Base Context ContextSpec Props_Context FrameText AltDwarf.
Open Scope Z_scope.

(** [d] is the directory of the file [p]: what is before the slashes before its last component; the root if there is nothing before them; nothing if there is no slash. *)
Definition directory (p d : path) : Prop :=
  (exists b k, ~ In 47 b /\ p = d ++ repeat 47 (S k) ++ b /\ d <> [] /\ last d 0 <> 47) \/
  (exists b k, ~ In 47 b /\ p = repeat 47 (S k) ++ b /\ d = [47]) \/
  (~ In 47 p /\ d = []).

Lemma repeat_snoc (k : nat) : repeat 47 k ++ [47] = 47 :: repeat 47 k.
Proof. induction k as [|k IH]; [reflexivity|]. cbn [repeat app]. now rewrite IH. Qed.
Lemma rev_repeat (k : nat) : List.rev (repeat 47 k) = repeat 47 k.
Proof. induction k as [|k IH]; [reflexivity|]. cbn [repeat List.rev]. rewrite IH. apply repeat_snoc. Qed.
Lemma drop_repeat k l : hd 0 l <> 47 -> dropSlashes (repeat 47 k ++ l) = l.
Proof.
  intros H. induction k as [|k IH]; cbn [repeat app dropSlashes]; [|exact IH]. destruct l as [|x l]; [reflexivity|]. cbn [hd] in H. unfold dropSlashes. destruct x as [|x|x]; try reflexivity. do 6 (destruct x as [x|x|]; try reflexivity). now elim H.
Qed.
Lemma hd_rev (l : list Z) : l <> [] -> hd 0 (List.rev l) = last l 0.
Proof. intros H. destruct (exists_last H) as (r & x & ->). rewrite rev_app_distr. cbn [List.rev app hd]. now rewrite last_last. Qed.
Lemma directory_parent p d : directory p d -> parentPath p = d.
Proof.
  unfold parentPath. intros [(b & k & Nb & -> & Nd & L)|[(b & k & Nb & -> & ->)|(N & ->)]].
  - replace (d ++ repeat 47 (S k) ++ b) with ((d ++ repeat 47 k) ++ 47 :: b).
    2:{ cbn [repeat]. rewrite <- repeat_snoc, <- !app_assoc. reflexivity. }
    rewrite dirPart_slash by exact Nb. rewrite <- app_assoc, repeat_snoc. change (47 :: repeat 47 k) with (repeat 47 (S k)).
    destruct (d ++ repeat 47 (S k)) eqn:E; [destruct d; [now elim Nd|discriminate]|]. rewrite <- E. rewrite rev_app_distr, rev_repeat.
    assert (HR : hd 0 (List.rev d) <> 47) by (rewrite hd_rev by exact Nd; exact L). rewrite drop_repeat by exact HR.
    destruct (List.rev d) eqn:ER; [|rewrite <- ER; apply rev_involutive]. apply (f_equal (@List.rev Z)) in ER. rewrite rev_involutive in ER. now elim Nd.
  - cbn [repeat]. replace ((47 :: repeat 47 k) ++ b) with (repeat 47 k ++ 47 :: b) by (rewrite <- repeat_snoc, <- app_assoc; reflexivity).
    rewrite dirPart_slash by exact Nb. rewrite repeat_snoc. change (47 :: repeat 47 k) with (repeat 47 (S k)). rewrite rev_repeat.
    assert (X : dropSlashes (repeat 47 (S k)) = []) by (rewrite <- (app_nil_r (repeat 47 (S k))); apply drop_repeat; cbn; lia). rewrite X. reflexivity.
  - now rewrite dirPart_none.
Qed.

(** The name: the one the link has if it is absolute; else it is meant to be in the directory of the file that has the link, which may itself be reached over symbolic links. *)
Theorem C169_name : forall rl e name,
  adLink e = Some name ->
  (absolute name -> forall fuel, altImageName fuel rl e = Ok name) /\
  (~ absolute name -> forall f q d p, adFile e = Some f -> chases rl f q -> rl q = LNotLink -> directory q d -> joined d name p ->
     exists n, forall fuel, (n <= fuel)%nat -> altImageName fuel rl e = Ok p).
Proof.
  intros rl e name E. split.
  - intros [r ->] fuel. unfold altImageName. rewrite E. reflexivity.
  - intros NA f q d p F CH LN D J. destruct (C87_links_partial rl f q CH) as (n & H). exists n. intros fuel Hf. destruct (H fuel f Hf) as [R _]. specialize (R LN).
    unfold altImageName. rewrite E, F, R. cbn [bind]. rewrite (directory_parent q d D), (joined_eq _ _ _ J). destruct name as [|x name]; [reflexivity|]. destruct x as [|x|x]; try reflexivity. do 6 (destruct x as [x|x|]; try reflexivity). elim NA. now exists name.
Qed.
Print Assumptions C169_name.
Example C169_name_case : (* /d/x -> ../e/y, the link "z/w" *)
  let rl := fun p => if pathEq p [47; 100; 47; 120] then LTarget [46; 46; 47; 101; 47; 121] else LNotLink in
  chases rl [47; 100; 47; 120] [47; 100; 47; 46; 46; 47; 101; 47; 121] /\ directory [47; 100; 47; 46; 46; 47; 101; 47; 121] [47; 100; 47; 46; 46; 47; 101] /\
  altImageName 5 rl (mkAlt (Some [122; 47; 119]) (Some [47; 100; 47; 120])) = Ok [47; 100; 47; 46; 46; 47; 101; 47; 122; 47; 119].
Proof.
  cbv zeta. split; [|split; [|vm_compute; reflexivity]].
  - eapply chLink with (t := [46; 46; 47; 101; 47; 121]); [reflexivity|split; [vm_compute; discriminate|cbn; lia]| |apply chEnd]. right. split; [discriminate|]. left. exists [47; 100], [120]. split; [reflexivity|]. split; [cbn; lia|reflexivity].
  - left. exists [121], 0%nat. split; [cbn; lia|]. split; [reflexivity|]. split; [discriminate|cbn; lia].
Qed.

(** Whatever else is asked of the context in between, and whether or not the file is found, all calls that return give the same information; if the first call returns all do, and
    what it gives is what the context has for the file of that name at that time. *)
Theorem C169_once : forall fuel w rl e ops c,
  (forall a b, In (Ok a) (altReplies fuel w rl e c None ops) -> In (Ok b) (altReplies fuel w rl e c None ops) -> a = b) /\
  (forall a r, altReplies fuel w rl e c None ops = Ok a :: r -> Forall (fun x => x = Ok a) r) /\
  (forall n, altImageName fuel rl e = Ok n -> ops = [AltAsk] -> altReplies fuel w rl e c None ops = [snd (findDwarfByName w n c)]).
Proof.
  assert (K : forall fuel w rl e a ops c, Forall (fun x => x = Ok a) (altReplies fuel w rl e c (Some a) ops)).
  { intros fuel w rl e a. induction ops as [|[|q] ops IH]; intros c; cbn [altReplies getAltDwarf]; [constructor|constructor; [reflexivity|apply IH]|apply IH]. }
  intros fuel w rl e ops c.
  assert (G : forall ops c, exists a, Forall (fun x => forall b, x = Ok b -> b = a) (altReplies fuel w rl e c None ops)).
  { clear ops c. induction ops as [|[|q] ops IH]; intros c; cbn [altReplies]; [exists None; constructor| |apply IH].
    unfold getAltDwarf. destruct (altImageName fuel rl e) as [n| | |].
    - destruct (findDwarfByName w n c) as [c1 [a| | |]].
      + exists a. constructor; [intros b X; congruence|]. specialize (K fuel w rl e a ops c1). revert K. apply Forall_impl. intros x -> b X. congruence.
      + destruct (IH c1) as [a F]. exists a. constructor; [discriminate|exact F].
      + destruct (IH c1) as [a F]. exists a. constructor; [discriminate|exact F].
      + destruct (IH c1) as [a F]. exists a. constructor; [discriminate|exact F].
    - destruct (IH c) as [a F]. exists a. constructor; [discriminate|exact F].
    - destruct (IH c) as [a F]. exists a. constructor; [discriminate|exact F].
    - destruct (IH c) as [a F]. exists a. constructor; [discriminate|exact F]. }
  split; [|split].
  - intros a b Ia Ib. destruct (G ops c) as [x F]. rewrite Forall_forall in F. rewrite (F _ Ia a eq_refl). symmetry. exact (F _ Ib b eq_refl).
  - revert c. induction ops as [|[|q] ops IH]; intros c a r E; cbn [altReplies] in E; [discriminate| |now apply (IH _ _ _ E)].
    unfold getAltDwarf in E. destruct (altImageName fuel rl e) as [n| | |]; try discriminate. destruct (findDwarfByName w n c) as [c1 [x| | |]]; try discriminate. injection E as <- <-. apply K.
  - intros n En ->. cbn [altReplies getAltDwarf]. rewrite En. destruct (findDwarfByName w n c) as [c1 [a| | |]]; reflexivity.
Qed.
Print Assumptions C169_once.
(** Strings and entries in the alternate file are those of its own sections. *)
Theorem C169_values : forall str strs a off s D (dies : Z -> Z -> res D),
  altString str strs (Ok (Some a)) off = match strs a with Some t => Ok (str t off) | None => Ok (txt "(alt string table unavailable)") end /\
  (strs a = Some s -> altString str strs (Ok (Some a)) off = Ok (str s off)) /\
  altString str strs (Ok None) off = Ok (txt "(alt string table unavailable)") /\
  altRef dies (Ok (Some a)) off = dies a off /\ altRef dies (Ok None) off = Throw.
Proof. intros. unfold altString, altRef. cbn [bind]. split; [destruct (strs a); reflexivity|]. split; [intros ->; reflexivity|]. split; [reflexivity|]. split; reflexivity. Qed.
Print Assumptions C169_values.
(** Refuted: an image that names no alternate file takes a file called "(null)" in its own directory for one. *)
Theorem C169_null_refuted : forall rl e f q d p, adLink e = None -> adFile e = Some f -> chases rl f q -> rl q = LNotLink -> directory q d -> joined d (txt "(null)") p ->
  exists n, forall fuel, (n <= fuel)%nat -> altImageName fuel rl e = Ok p.
Proof.
  intros rl e f q d p E F CH LN D J. destruct (C169_name rl (mkAlt (Some (txt "(null)")) (adFile e)) (txt "(null)") eq_refl) as [_ H].
  destruct (H ltac:(intros [r X]; discriminate X) f q d p F CH LN D J) as [n Hn]. exists n. intros fuel Hf. specialize (Hn fuel Hf). unfold altImageName in *. rewrite E. exact Hn.
Qed.
Print Assumptions C169_null_refuted.
