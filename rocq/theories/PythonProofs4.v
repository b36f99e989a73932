(** Python: file names, chains of frames, threads and interpreters, parentheses. *)
From Coq Require Import Ascii String.
From Verif Require Import Base ElfHash ElfHashProofs Cache CacheProofs CfiSpec CfiProofs Python PythonSpec PythonProofs PythonProofs2 PythonProofs3.

(** ** file names *)
Lemma rfindSlash_spec s : forall i, match rfindSlash s i with
  | Some j => exists d b, s = d ++ 47 :: b /\ ~ In 47 b /\ j = i + zlen d
  | None => ~ In 47 s end.
Proof.
  induction s as [|c s IH]; intros i; cbn [rfindSlash]; [intros []|]. specialize (IH (i + 1)). destruct (rfindSlash s (i + 1)) as [j|].
  - destruct IH as (d & b & -> & H & ->). exists (c :: d), b. rewrite zlen_cons. repeat split; auto. lia.
  - destruct (c =? 47) eqn:E; [exists [], s; change (zlen (@nil Z)) with 0; repeat split; [cbn; f_equal; lia|assumption|lia]|intros [X|X]; [lia|now apply IH]].
Qed.
Lemma startsWith_spec w : forall s, startsWith w s = true <-> exists r, s = w ++ r.
Proof.
  induction w as [|x w IH]; intros s; cbn [startsWith]; [split; [eexists; reflexivity|reflexivity]|]. destruct s as [|y s]; [split; [discriminate|intros (r & [=])]|].
  rewrite andb_true_iff, IH, Z.eqb_eq. split; [intros (-> & r & ->); now exists r|intros (r & [= -> ->]); eauto].
Qed.
Lemma findWord_spec w : forall s i, w <> [] -> match findWord w s i with
  | Some j => exists pre rest, s = pre ++ w ++ rest /\ j = i + zlen pre /\ forall pre' rest', s = pre' ++ w ++ rest' -> (length pre <= length pre')%nat
  | None => forall pre rest, s <> pre ++ w ++ rest end.
Proof.
  induction s as [|c s IH]; intros i Hw; cbn [findWord].
  - destruct w as [|x w]; [easy|]. cbn. intros [|? ?] ?; discriminate.
  - destruct (startsWith w (c :: s)) eqn:E.
    + apply startsWith_spec in E as (r & E). exists [], r. change (zlen (@nil Z)) with 0. repeat split; [exact E|lia|intros; cbn; lia].
    + assert (Hn : forall r, c :: s <> w ++ r). { intros r H. assert (X : startsWith w (c :: s) = true) by (apply startsWith_spec; eauto). congruence. }
      specialize (IH (i + 1) Hw). destruct (findWord w s (i + 1)) as [j|].
      * destruct IH as (pre & rest & -> & -> & Hm). exists (c :: pre), rest. rewrite zlen_cons. repeat split; [lia|]. intros [|x pre'] rest' H; [now apply Hn in H|]. injection H as _ H. apply Hm in H. cbn. lia.
      * intros [|x pre] rest H; [now apply Hn in H|]. injection H as _ H. now apply IH in H.
Qed.
Definition digitChar (c : Z) : bool := (48 <=? c) && (c <=? 57).
Lemma baseOf_fun s b b' : baseOf s b -> baseOf s b' -> b = b'.
Proof.
  intros (N & d & -> & Hd) (N' & d' & E & Hd'). revert d' E Hd'. assert (X : forall d d' b b' : list Z, ~ In 47 b -> ~ In 47 b' -> d ++ b = d' ++ b' -> (d = [] \/ exists x, d = x ++ [47]) -> (d' = [] \/ exists x, d' = x ++ [47]) -> b = b').
  { clear. intros d d' b b' N N' E Hd Hd'. assert (L : length d = length d').
    { destruct (Nat.lt_trichotomy (length d) (length d')) as [L|[L|L]]; [|exact L|]; exfalso.
      - destruct Hd' as [->|(x & ->)]; [cbn in L; lia|]. rewrite <- app_assoc in E. cbn [app] in E. rewrite app_length in L. cbn in L. 
        assert (Y : nth_error (d ++ b) (length x) = Some 47). { rewrite E, nth_error_app2, Nat.sub_diag by lia. reflexivity. } rewrite nth_error_app2 in Y by lia. apply nth_error_In in Y. now apply N.
      - destruct Hd as [->|(x & ->)]; [cbn in L; lia|]. rewrite <- app_assoc in E. cbn [app] in E. rewrite app_length in L. cbn in L. 
        assert (Y : nth_error (d' ++ b') (length x) = Some 47). { rewrite <- E, nth_error_app2, Nat.sub_diag by lia. reflexivity. } rewrite nth_error_app2 in Y by lia. apply nth_error_In in Y. now apply N'. }
    clear Hd Hd' N N'. revert d' L E. induction d as [|c d IH]; intros [|c' d'] L E; cbn in L; try lia; [exact E|]. injection E as _ E. apply (IH d'); [lia|exact E]. }
  intros d' E Hd'. exact (X d d' b b' N N' E Hd Hd').
Qed.
Lemma baseOf_ex s : exists b d, baseOf s b /\ s = d ++ b /\ match rfindSlash s 0 with Some i => zdrop i s = 47 :: b /\ zlen d = i + 1 | None => d = [] /\ b = s end.
Proof.
  pose proof (rfindSlash_spec s 0) as H. destruct (rfindSlash s 0) as [i|].
  - destruct H as (d & b & -> & Hb & Hi). exists b, (d ++ [47]). rewrite <- app_assoc. split; [|split; [reflexivity|]].
    + split; [exact Hb|]. exists (d ++ [47]). split; [now rewrite <- app_assoc|right; eauto].
    + rewrite zlen_app. change (zlen [47]) with 1. split; [|lia]. replace i with (zlen d) by lia. apply zdrop_app_zlen.
  - exists s, []. repeat split; auto. exists []. now split; [|left].
Qed.
Lemma version_result s b : baseOf s b -> versionFromFilename s =
  match findWord pythonWord b 0 with
  | None => Throw
  | Some i => match zdrop (i + 6) b with x :: _ :: y :: _ => if isDigit x && isDigit y then Ok (x - 48, y - 48) else Throw | _ => Throw end
  end.
Proof.
  intros Hb. destruct (baseOf_ex s) as (b' & d & Hb' & Es & Hi). assert (b' = b) as -> by (eapply baseOf_fun; eassumption). unfold versionFromFilename.
  assert (Shift : forall l i k, findWord pythonWord l (i + k) = match findWord pythonWord l i with Some j => Some (j + k) | None => None end).
  { clear. induction l as [|c l IH]; intros i k; cbn [findWord]; [destruct (startsWith _ _); reflexivity|]. destruct (startsWith _ _); [reflexivity|]. rewrite <- IH. f_equal. lia. }
  assert (Find : findWord pythonWord (zdrop (match rfindSlash s 0 with Some i => i | None => 0 end) s) (match rfindSlash s 0 with Some i => i | None => 0 end) = match findWord pythonWord b 0 with Some j => Some (zlen d + j) | None => None end).
  { destruct (rfindSlash s 0) as [i|].
    - destruct Hi as (-> & ->). cbn [findWord startsWith pythonWord]. replace (112 =? 47) with false by reflexivity. cbn [andb]. fold pythonWord. replace (i + 1) with (0 + (i + 1)) at 1 by lia. rewrite Shift. destruct (findWord _ _ _); [f_equal; lia|reflexivity].
    - destruct Hi as (-> & ->). rewrite zdrop_neg by lia. change (zlen (@nil Z)) with 0. destruct (findWord _ _ _); [f_equal; lia|reflexivity]. }
  rewrite Find. pose proof (findWord_spec pythonWord b 0 ltac:(discriminate)) as FS. destruct (findWord pythonWord b 0) as [j|]; [|reflexivity]. destruct FS as (pre & rest & Eb & Ej & _). pose proof (zlen_nonneg pre). pose proof (zlen_nonneg d).
  assert (Ed : zdrop (j + 6) b = rest). { subst j b. rewrite app_assoc. replace (0 + zlen pre + 6) with (zlen (pre ++ pythonWord)) by (rewrite zlen_app; change (zlen pythonWord) with 6; lia). apply zdrop_app_zlen. }
  assert (En : forall k, 0 <= k -> znth (zlen d + j + 6 + k) s = znth k rest). { intros k Hk. rewrite Es, znth_app_r by lia. rewrite <- Ed, znth_zdrop by lia. f_equal. lia. }
  assert (El : zlen s = zlen d + j + 6 + zlen rest). { rewrite Es, Eb, !zlen_app. change (zlen pythonWord) with 6. lia. }
  rewrite Ed. pose proof (zlen_nonneg rest). replace (zlen d + j + 6) with (zlen d + j + 6 + 0) by lia. replace (zlen d + j + 8) with (zlen d + j + 6 + 2) by lia. rewrite !En by lia. rewrite El.
  destruct rest as [|x [|c [|y r]]]; rewrite ?zlen_cons; change (zlen (@nil Z)) with 0; try (replace (_ <? _) with true by lia; reflexivity).
  pose proof (zlen_nonneg r). replace (_ <? _) with false by lia. reflexivity.
Qed.
Lemma firstPython_find b pre rest : firstPython b pre rest -> findWord pythonWord b 0 = Some (zlen pre) /\ zdrop (zlen pre + 6) b = rest.
Proof.
  intros (E & Hm). pose proof (findWord_spec pythonWord b 0 ltac:(discriminate)) as FS. assert (Ed : zdrop (zlen pre + 6) b = rest). { rewrite E, app_assoc. replace (zlen pre + 6) with (zlen (pre ++ word)) by (rewrite zlen_app; reflexivity). apply zdrop_app_zlen. }
  destruct (findWord pythonWord b 0) as [j|].
  - destruct FS as (pre' & rest' & E' & -> & Hm'). split; [|exact Ed]. specialize (Hm _ _ E'). specialize (Hm' _ _ E). unfold zlen. f_equal. lia.
  - now apply FS in E.
Qed.
Lemma find_firstPython b j : findWord pythonWord b 0 = Some j -> exists pre rest, firstPython b pre rest.
Proof. intros H. pose proof (findWord_spec pythonWord b 0 ltac:(discriminate)) as FS. rewrite H in FS. destruct FS as (pre & rest & E & _ & Hm). exists pre, rest. now split. Qed.
Lemma version_spec s maj mnr : versionFromFilename s = Ok (maj, mnr) <->
  exists b pre c rest, baseOf s b /\ firstPython b pre (48 + maj :: c :: 48 + mnr :: rest) /\ 0 <= maj <= 9 /\ 0 <= mnr <= 9.
Proof.
  split.
  - destruct (baseOf_ex s) as (b & d & Hb & _). rewrite (version_result s b Hb). destruct (findWord pythonWord b 0) as [j|] eqn:F; [|discriminate]. destruct (find_firstPython b j F) as (pre & rest & Hf). destruct (firstPython_find _ _ _ Hf) as (F' & Ed). rewrite F in F'. injection F' as ->. rewrite Ed.
    destruct rest as [|x [|c [|y r]]]; try discriminate. destruct (isDigit x && isDigit y) eqn:D; [|discriminate]. intros [= <- <-]. unfold isDigit in D. exists b, pre, c, r. replace (48 + (x - 48)) with x by lia. replace (48 + (y - 48)) with y by lia. repeat split; try apply Hb; try apply Hf; lia.
  - intros (b & pre & c & rest & Hb & Hf & H1 & H2). rewrite (version_result s b Hb). destruct (firstPython_find _ _ _ Hf) as (-> & ->). unfold isDigit. replace (_ && _) with true by (symmetry; lia). do 2 f_equal; lia.
Qed.
Lemma version_total s : versionFromFilename s = Throw \/ exists v, versionFromFilename s = Ok v.
Proof.
  destruct (baseOf_ex s) as (b & d & Hb & _). rewrite (version_result s b Hb). destruct (findWord pythonWord b 0); [|now left]. destruct (zdrop _ b) as [|x [|c [|y r]]]; auto. destruct (_ && _); eauto.
Qed.

(** ** chains that end in null have no repetitions *)
Lemma field_fun m a n v w : field m a n v -> field m a n w -> v = w.
Proof.
  intros (Rv & Hv) (Rw & Hw). assert (E : leBytes n v = leBytes n w).
  { apply ext_nth; [pose proof (leBytes_len n v); pose proof (leBytes_len n w); unfold zlen in *; lia|]. intros i x y Hx Hy. apply Hv in Hx. apply Hw in Hy. congruence. }
  rewrite <- (le_leBytes n v Rv), <- (le_leBytes n w Rw). now rewrite E.
Qed.
Section Chain.
Context (v3 : bool) (lay : layout) (m : memory) (str : Z -> res (list Z)) (t basic item : Z).
Notation stackAt := (stackAt v3 m lay str t basic item).
Lemma stack_nonzero f r a : stackAt (f :: r) a -> a <> 0.
Proof. intros (<- & back & (n & c & loc & (H & _) & _) & _). exact H. Qed.
Lemma stack_len l : forall k a, stackAt l a -> stackAt k a -> length l = length k.
Proof.
  induction l as [|f l IH]; intros [|g k] a Hl Hk; [reflexivity|apply stack_nonzero in Hk; now destruct Hk|apply stack_nonzero in Hl; now destruct Hl|].
  destruct Hl as (E1 & b1 & F1 & S1), Hk as (E2 & b2 & F2 & S2). cbn. f_equal. apply (IH k b1 S1).
  destruct F1 as (? & ? & ? & _ & _ & _ & _ & X & _), F2 as (? & ? & ? & _ & _ & _ & _ & Y & _). rewrite E1 in X. rewrite E2 in Y. now rewrite (field_fun _ _ _ _ _ X Y).
Qed.
Lemma stack_suffix l : forall a f, stackAt l a -> In f l -> exists k, stackAt k (fAddr f) /\ (length k <= length l)%nat.
Proof.
  induction l as [|g l IH]; intros a f Hs Hf; [destruct Hf|]. destruct Hf as [->|Hf]; [pose proof Hs as (E & _); exists (f :: l); rewrite E; split; [exact Hs|lia]|]. destruct Hs as (_ & b & _ & Hs). destruct (IH b f Hs Hf) as (k & H1 & H2). exists k. split; [exact H1|cbn; lia].
Qed.
Lemma stack_nodup l : forall a, stackAt l a -> NoDup (map fAddr l).
Proof.
  induction l as [|f l IH]; intros a Hs; [constructor|]. cbn [map]. constructor; [|destruct Hs as (_ & b & _ & Hs); exact (IH b Hs)].
  intros Hi. apply in_map_iff in Hi as (g & Eg & Hg). pose proof Hs as (E & b & _ & Hr). destruct (stack_suffix l b g Hr Hg) as (k & Hk & Lk). rewrite Eg, E in Hk. pose proof (stack_len _ _ _ Hs Hk). cbn in H. lia.
Qed.
End Chain.
Lemma threads_nodup m size no l : forall a, threadsAt m size no l a -> NoDup l /\ ~ In 0 l.
Proof.
  assert (Len : forall l k a, threadsAt m size no l a -> threadsAt m size no k a -> length l = length k).
  { induction l0 as [|x l0 IH]; intros [|y k] a H1 H2; [reflexivity|destruct H2 as (-> & X & _); now destruct X|destruct H1 as (-> & X & _); now destruct X|].
    destruct H1 as (-> & _ & _ & _ & _ & n1 & F1 & S1), H2 as (<- & _ & _ & _ & _ & n2 & F2 & S2). cbn. f_equal. apply (IH k n1 S1). now rewrite (field_fun _ _ _ _ _ F1 F2). }
  assert (Suf : forall l a t, threadsAt m size no l a -> In t l -> exists k, threadsAt m size no k t /\ (length k <= length l)%nat).
  { induction l0 as [|x l0 IH]; intros a t H Hi; [destruct Hi|]. destruct Hi as [->|Hi]; [pose proof H as (-> & _); exists (t :: l0); split; [exact H|lia]|]. destruct H as (_ & _ & _ & _ & _ & n & _ & H). destruct (IH n t H Hi) as (k & H1 & H2). exists k. split; [exact H1|cbn; lia]. }
  induction l as [|x l IH]; intros a H; [split; [constructor|intros []]|]. pose proof H as (-> & Hx & _ & _ & _ & n & _ & Hr). destruct (IH n Hr) as (N1 & N2). split.
  - constructor; [|exact N1]. intros Hi. destruct (Suf l n x Hr Hi) as (k & Hk & Lk). pose proof (Len _ _ _ H Hk) as L. cbn in L. lia.
  - intros [X|X]; [now apply Hx|now apply N2].
Qed.

(** ** threads *)
Lemma objs_app a b : objs (a ++ b) = objs a ++ objs b. Proof. apply flat_map_app. Qed.
Lemma objs_tok t x : objs (Tok t :: x) = objs x. Proof. reflexivity. Qed.
Section Threads.
Context (thread : Z -> M Z).
(** each thread at most once, at most 128, for every list *)
Lemma threads_once : forall n seen t s o s' r, In t seen -> NoDup seen -> (length seen <= 128)%nat -> threads n thread seen t s = (o, s', r) ->
  NoDup (objs o) /\ (forall x, In x (objs o) -> x = t \/ ~ In x seen) /\ (length (objs o) + length seen <= 129)%nat.
Proof.
  induction n as [|n IH]; intros seen t s o s' r Ht Nd L; cbn [threads]; [intros [= <- <- <-]; cbn; repeat split; [constructor|intros ? []|lia]|].
  destruct (t =? 0) eqn:E0; [intros [= <- <- <-]; cbn; repeat split; [constructor|intros ? []|lia]|]. unfold bindM at 1, group. destruct (thread t s) as ((o1 & s1) & [t'| | |]);
    try (intros [= <- <- <-]; cbn; repeat split; [constructor; [intros []|constructor]|intros x [<-|[]]; now left|lia]).
  destruct (existsb (Z.eqb t') seen) eqn:Es; [intros [= <- <- <-]; cbn; repeat split; [constructor; [intros []|constructor]|intros x [<-|[]]; now left|lia]|].
  destruct (_ >? 128) eqn:Eg; [intros [= <- <- <-]; cbn; repeat split; [constructor; [intros []|constructor]|intros x [<-|[]]; now left|lia]|].
  unfold bindM, lit, emit. destruct (threads n thread (t' :: seen) t' s1) as ((o2 & s2) & r2) eqn:E. intros [= <- <- <-].
  assert (Hn : ~ In t' seen) by (intros X; assert (existsb (Z.eqb t') seen = true) by (apply existsb_exists; exists t'; split; [exact X|apply Z.eqb_refl]); congruence).
  apply IH in E as (H1 & H2 & H3); [|now left|now constructor|cbn; lia]. match goal with |- context [objs ?e] => change (objs e) with (t :: objs o2) end. cbn [length] in *. repeat split; [|intros x [<-|X]|lia].
  - constructor; [|exact H1]. intros X. destruct (H2 t X) as [->|Y]; [contradiction|]. apply Y. now right.
  - now left.
  - destruct (H2 x X) as [->|Y]; [now right|]. right. intros Z0. apply Y. now right.
Qed.
Lemma threads_more n : forall seen t s, (Z.of_nat (length seen) + Z.of_nat n > 129) -> (1 <= n)%nat -> (forall x s', match thread x s' with (_, _, OutOfFuel) => False | _ => True end) ->
  match threads n thread seen t s with (_, _, OutOfFuel) => False | _ => True end.
Proof.
  induction n as [|n IH]; intros seen t s L Ln Ht; [lia|]. cbn [threads]. destruct (t =? 0); [exact I|]. unfold bindM at 1, group. specialize (Ht t s) as Hx. destruct (thread t s) as ((o1 & s1) & [t'| | |]); auto.
  destruct (existsb _ _); [exact I|]. destruct (_ >? 128) eqn:Eg; [exact I|]. unfold bindM, lit, emit. specialize (IH (t' :: seen) t' s1). destruct (threads n thread (t' :: seen) t' s1) as ((o2 & s2) & [[]| | |]); auto. apply IH; auto; cbn [length]; lia.
Qed.
(** a null-terminated list is printed in order, up to 128 threads *)
Lemma threads_list m size no (Hthread : forall t n s o s' x, readable m t size -> 0 <= no -> no + 8 <= size -> field m (t + no) 8 n -> thread t s = (o, s', Ok x) -> x = n) :
  forall n l seen t s o s', threadsAt m size no l t -> (forall x, In x (0 :: tl l) -> ~ In x seen) -> (1 <= length seen <= 128)%nat -> (l <> [] -> exists rest, seen = t :: rest) ->
  threads n thread seen t s = (o, s', Ok tt) -> objs o = firstn (129 - length seen) l.
Proof.
  induction n as [|n IH]; intros l seen t s o s' HT Hseen Ls Hs; cbn [threads]; [discriminate|]. destruct l as [|x l].
  - cbn in HT. subst t. cbn. intros [= <- <-]. now rewrite firstn_nil.
  - pose proof (threads_nodup _ _ _ _ _ HT) as (Nd & N0). destruct HT as (-> & Hx & R & N1 & N2 & nx & F & HT). replace (x =? 0) with false by lia. unfold bindM at 1, group.
    destruct (thread x s) as ((o1 & s1) & [t'| | |]) eqn:E; try discriminate. apply (Hthread x nx) in E; auto. subst t'.
    assert (Hn : ~ In nx seen). { destruct l as [|y l]; cbn in HT; [subst nx; apply Hseen; now left|]. destruct HT as (-> & _). apply Hseen. right. now left. }
    destruct (existsb (Z.eqb nx) seen) eqn:Ee; [apply existsb_exists in Ee as (z & Z1 & Z2); apply Z.eqb_eq in Z2; subst z; contradiction|].
    destruct (_ >? 128) eqn:Eg.
    + intros [= <- <-]. cbn [objs flat_map app]. replace (129 - length seen)%nat with 1%nat by lia. reflexivity.
    + unfold bindM, lit, emit. destruct (threads n thread (nx :: seen) nx s1) as ((o2 & s2) & [[]| | |]) eqn:E2; try discriminate. intros [= <- <-]. match goal with |- context [objs ?e] => change (objs e) with (x :: objs o2) end.
      destruct l as [|y l].
      * cbn in HT. subst nx. destruct n; [discriminate|]. cbn in E2. injection E2 as <- <-. replace (129 - length seen)%nat with (S (128 - length seen)) by lia. cbn [firstn]. now rewrite firstn_nil.
      * apply (IH (y :: l)) in E2; [|exact HT| | |eauto].
        -- replace (129 - length seen)%nat with (S (129 - length (nx :: seen))) by (cbn [length]; lia). cbn [firstn]. now rewrite E2.
        -- cbn in HT. destruct HT as (-> & Hy & _). cbn [tl] in *. intros z Hz [X|X]; [subst z; destruct Hz as [Hz|Hz]; [now apply Hy|inversion Nd as [|? ? _ M2]; subst; inversion M2; contradiction]|].
           apply (Hseen z); [|exact X]. destruct Hz as [Hz|Hz]; [now left|right; now right].
        -- cbn [length]. lia.
Qed.
End Threads.

(** ** interpreters *)
Section Interp.
Context (v3 : bool) (lay : layout) (m : memory) (str : Z -> res (list Z)) (kindOf : Z -> option kind) (maxdepth : Z) (doargs dolocals : bool).
Notation print' := (print v3 lay m str kindOf maxdepth doargs dolocals).
Notation printThread' := (printThread v3 lay m str kindOf maxdepth doargs dolocals).
Notation printInterp' := (printInterp v3 lay m str kindOf maxdepth doargs dolocals).
Lemma printThread_next fuel fo no size t n s o s' x : 0 <= fo -> fo + 8 <= size -> readable m t size -> 0 <= no -> no + 8 <= size -> field m (t + no) 8 n -> printThread' fuel fo no size t s = (o, s', Ok x) -> x = n.
Proof.
  intros Hf Hf2 R Hn Hn2 F. unfold printThread. destruct (rd_image m t size R ltac:(lia)) as (b & P & Im). rewrite (pure_bind _ _ _ _ P). unfold bindM at 1. destruct (fldM b fo 8 s) as ((o1 & s1) & [f| | |]); try discriminate.
  rewrite (pure_bind _ n _ _ (fldM_image m _ _ b no 8 n Im F ltac:(lia) ltac:(lia))). unfold bindM, lit, emit. destruct (print' fuel f s1) as ((o2 & s2) & [[]| | |]); try discriminate. unfold ret. now intros [= _ _ <-].
Qed.
Lemma printInterp_next fuel thread modules p next head mods s o s' x : interpAt m p next head mods -> printInterp' fuel thread modules p s = (o, s', Ok x) ->
  x = next /\ exists o1 s1 s2, threads fuel thread [head] head s1 = (o1, s2, Ok tt) /\ objs o = objs o1.
Proof.
  intros (Hp & R & F1 & F2 & F3). unfold printInterp. destruct (rd_image m p 24 R ltac:(lia)) as (b & P & Im). rewrite (pure_bind _ _ _ _ P). replace p with (p + 0) in F1 by lia.
  rewrite (pure_bind _ next _ _ (fldM_image m _ _ b 0 8 _ Im F1 ltac:(lia) ltac:(lia))). rewrite (pure_bind _ head _ _ (fldM_image m _ _ b 8 8 _ Im F2 ltac:(lia) ltac:(lia))). rewrite (pure_bind _ mods _ _ (fldM_image m _ _ b 16 8 _ Im F3 ltac:(lia) ltac:(lia))).
  unfold lit, emit, ret. unfold bindM. destruct (threads fuel thread [head] head s) as ((o1 & s1) & [[]| | |]) eqn:E; try discriminate. destruct modules.
  - destruct (print' fuel mods s1) as ((o2 & s2) & [[]| | |]) eqn:E2; try discriminate. intros [= <- <- <-]. split; [reflexivity|]. exists o1, s, s1. split; [exact E|]. cbn [app]. rewrite ?objs_tok, ?objs_app, ?objs_tok, ?objs_app.
    assert (X : objs o2 = []). { destruct fuel; [discriminate|]. cbn [print] in E2. unfold group in E2. destruct ((_ <- _ ; _) _) as ((? & ?) & ?) in E2. injection E2 as <- _ _. reflexivity. }
    rewrite X. cbn. now rewrite !app_nil_r.
  - intros [= <- <- <-]. split; [reflexivity|]. exists o1, s, s1. split; [exact E|]. cbn [app]. now rewrite ?objs_tok, ?app_nil_r.
Qed.
Lemma interpLoop_list fuel thread modules : forall n l p s o s', interpsAt m l p -> interpLoop n (printInterp' fuel thread modules) p s = (o, s', Ok tt) -> calls o = l.
Proof.
  induction n as [|n IH]; intros l p s o s' HI; cbn [interpLoop]; [discriminate|]. destruct l as [|x l]; cbn in HI; [subst p; cbn; now intros [= <- <-]|].
  destruct HI as (-> & next & head & mods & HA & HI). replace (x =? 0) with false by (destruct HA as (X & _); lia). unfold bindM at 1, group. destruct (printInterp' fuel thread modules x s) as ((o1 & s1) & [q| | |]) eqn:E; try discriminate.
  destruct (printInterp_next _ _ _ _ _ _ _ _ _ _ _ HA E) as (-> & _). destruct (interpLoop n _ next s1) as ((o2 & s2) & [[]| | |]) eqn:E2; try discriminate. intros [= <- <-]. cbn [app calls flat_map]. f_equal. exact (IH l next s1 o2 s2 HI E2).
Qed.
Lemma interp_cycle fuel thread p : interpAt m p p 0 0 -> (1 <= fuel)%nat -> forall n s, exists o s', interpLoop n (printInterp' fuel thread false) p s = (o, s', OutOfFuel).
Proof.
  intros (Hp & R & F1 & F2 & F3) Hf. assert (X : forall s, exists o, printInterp' fuel thread false p s = (o, s, Ok p)).
  { intros s. unfold printInterp. destruct (rd_image m p 24 R ltac:(lia)) as (b & P & Im). rewrite (pure_bind _ _ _ _ P). replace p with (p + 0) in F1 at 1 by lia.
    rewrite (pure_bind _ p _ _ (fldM_image m _ _ b 0 8 _ Im F1 ltac:(lia) ltac:(lia))). rewrite (pure_bind _ 0 _ _ (fldM_image m _ _ b 8 8 _ Im F2 ltac:(lia) ltac:(lia))). rewrite (pure_bind _ 0 _ _ (fldM_image m _ _ b 16 8 _ Im F3 ltac:(lia) ltac:(lia))).
    destruct fuel; [lia|]. eexists. reflexivity. }
  induction n as [|n IH]; intros s; cbn [interpLoop]; [do 2 eexists; reflexivity|]. replace (p =? 0) with false by lia. destruct (X s) as (o & E). unfold bindM, group. rewrite E. destruct (IH s) as (o2 & s2 & ->). do 2 eexists; reflexivity.
Qed.
(** the line of a frame under any options *)
Lemma frame_line fuel pr t name basic item flags dictoff f back s o s' x : okLayout lay -> frameAt v3 m lay str t basic item f back ->
  typeAt m lay t name basic item flags dictoff -> typeKnown s t name basic item flags dictoff -> kindOf t = Some KFrame -> ~ In (fAddr f) (pVisited s) ->
  one v3 lay m str kindOf maxdepth doargs dolocals fuel pr (fAddr f) s = (o, s', Ok x) ->
  x = back /\ exists mid post, o = map Tok [TPrefix (u64 (pDepth s * 4) mod 301); TStr (fFunc f)] ++ mid ++ map Tok [TLit " in "; TStr (fFile f); TLit ":"; TNum (lineOf (fFirst f) (fLasti f) (fTable f)); TLit nl] ++ post /\
    (if doargs then exists fb s1 s2, printArguments v3 lay m str pr fb (fAddr f) s1 = (mid, s2, Ok tt) else mid = []).
Proof.
  intros OL (n & c & loc & HO & Hi & Hnn & Hb & F24 & F32 & F56 & Hc & Fl & Hl & HC) HT K Hk Hv.
  destruct (one_at v3 lay m str kindOf maxdepth doargs dolocals fuel pr (fAddr f) t KFrame name basic item flags dictoff n s ltac:(unfold okLayout in OL; lia) ltac:(lia) (or_intror Hnn) HO HT K Hk (fun _ => Hv)) as (buf & Im & ->).
  destruct (addType_eq s t (mkPT name basic item flags (s64 dictoff))) as (Ed & Ev). set (s1 := marked KFrame (fAddr f) (addType s t (mkPT name basic item flags (s64 dictoff)))) in *.
  assert (D1 : pDepth s1 = pDepth s) by exact Ed. clearbody s1. cbn [runPrinter].
  unfold framePrinter. assert (Sz : 68 <= basic + item * Z.abs n) by (unfold okLayout in OL; nia). assert (Sz2 : lFrameLasti lay + 4 <= basic + item * Z.abs n) by (unfold okLayout in OL; nia).
  rewrite (pure_bind _ c _ _ (fldM_image m _ _ buf 32 8 c Im F32 ltac:(lia) ltac:(lia))). rewrite (pure_bind _ loc _ _ (fldM_image m _ _ buf 56 8 loc Im F56 ltac:(lia) ltac:(lia))). rewrite (pure_bind _ back _ _ (fldM_image m _ _ buf 24 8 back Im F24 ltac:(lia) ltac:(lia))).
  replace (c =? 0) with false by lia. cbn [negb]. unfold bindM at 1. pose proof HC as (Rc & (pn & Fn & Sn) & (pf & Ff & Sf) & _). pose proof OL as (O1 & O2 & O3). inversion O3 as [|? ? P1 O4]; subst. inversion O4 as [|? ? P2 O5]; subst.
  destruct (rd_image m c (lCodeSize lay) Rc ltac:(lia)) as (code & Pc & Ic). rewrite (pure_bind _ _ _ _ Pc).
  rewrite (pure_bind _ (fLasti f mod 2 ^ 32) _ _ (fldM_image m _ _ buf (lFrameLasti lay) 4 _ Im Fl ltac:(lia) ltac:(lia))). rewrite s32_mod by lia.
  rewrite (pure_bind _ _ _ _ (getLine_ok v3 lay m str kindOf maxdepth c code f (fLasti f) HC OL Ic)).
  rewrite (pure_bind _ pn _ _ (fldM_image m _ _ code (lName lay) 8 _ Ic Fn ltac:(lia) ltac:(lia))). rewrite (pure_bind _ _ _ _ (pyString_ok v3 m str kindOf pn _ Sn)).
  rewrite (pure_bind _ pf _ _ (fldM_image m _ _ code (lFilename lay) 8 _ Ic Ff ltac:(lia) ltac:(lia))). rewrite (pure_bind _ _ _ _ (pyString_ok v3 m str kindOf pf _ Sf)).
  set (args := if doargs then _ else _). set (locs := if dolocals then _ else _). set (loc2 := if dolocals && _ then _ else _).
  unfold prefix, lit, emit, getDepth. unfold bindM at 1 2 3. rewrite D1. destruct (args s1) as ((oa & sa) & [[]| | |]) eqn:Ea; unfold bindM at 1; rewrite Ea; try discriminate.
  unfold bindM at 1 2 3 4 5. destruct (locs sa) as ((ol & sl) & [[]| | |]) eqn:El; try discriminate. unfold bindM at 1. destruct (loc2 sl) as ((o2 & sl2) & [[]| | |]) eqn:El2; try discriminate. unfold ret. intros [= <- <- <-]. split; [reflexivity|].
  exists oa, (ol ++ o2). split; [cbn [map app]; rewrite !app_nil_r; rewrite <- !app_assoc; cbn [app]; reflexivity|]. unfold args in Ea. destruct doargs; [eauto|]. now injection Ea as <- _.
Qed.
(** a print that reports no failure ran its first object's printer to the end *)
Lemma print_first f a s o s' : a <> 0 -> pDepth s <= 10000 -> print' (S f) a s = (o, s', Ok tt) -> existsb fails o = false ->
  exists ob s1 b rest, one v3 lay m str kindOf maxdepth doargs dolocals f (print' f) a (deeper s 1) = (ob, s1, Ok b) /\ o = [Call a (Obj a ob :: rest)].
Proof.
  intros Ha Hd. cbn [print]. unfold group. rewrite getDepth_bind. replace (pDepth s >? 10000) with false by lia. rewrite depth_bind. unfold bindM at 1, caught.
  generalize f at 3 as n. intros n. destruct n as [|n]; [discriminate|]. cbn [loop]. replace (a =? 0) with false by lia. unfold bindM at 1, group at 1.
  destruct (one v3 lay m str kindOf maxdepth doargs dolocals f (print' f) a (deeper s 1)) as ((ob & s1) & [b| | |]) eqn:E; try discriminate.
  - destruct (loop _ _ _ _ _ _ _ _ _ _ n b s1) as ((ol & s2) & [[]| | |]); try discriminate; cbn; intros [= <- <-] _; repeat eexists.
  - cbn. intros [= <- <-]. cbn. rewrite !orb_true_r. discriminate.
Qed.
End Interp.

Lemma longPrinter_out buf st o s1 r : longPrinter buf st = (o, s1, r) -> (o = [] /\ forall b, r <> Ok b) \/ exists v, o = [Tok (TNum v)] /\ r = Ok 0.
Proof.
  unfold longPrinter. unfold bindM at 1, fldM, lift at 1. destruct (fld buf 16 8) as [n| | |]; try (intros [= <- _ <-]; left; now split). unfold bindM at 1, lift at 1. generalize (longLoop (S (Z.to_nat (Z.abs (s64 n)))) buf 0 (Z.abs (s64 n)) 0). intros [v| | |]; try (intros [= <- _ <-]; left; now split).
  unfold bindM at 1, lift at 1. generalize (chk64 (if s64 n <? 0 then - v else v)). intros [w| | |]; try (intros [= <- _ <-]; left; now split). cbn. intros [= <- _ <-]. right. now exists w.
Qed.

(** ** parentheses *)
Definition PC (no nc : nat) {A} (x : M A) : Prop := forall s o s' a, x s = (o, s', Ok a) -> ownCount "("%char o = no /\ ownCount ")"%char o = nc.
Lemma ownCount_app c a b : ownCount c (a ++ b) = (ownCount c a + ownCount c b)%nat.
Proof. unfold ownCount. now rewrite map_app, list_sum_app. Qed.
Lemma PC_bind n1 c1 n2 c2 {A B} (x : M A) (f : A -> M B) : PC n1 c1 x -> (forall a, PC n2 c2 (f a)) -> PC (n1 + n2) (c1 + c2) (bindM x f).
Proof.
  intros Hx Hf s o s' b. unfold bindM. destruct (x s) as ((o1 & s1) & [a| | |]) eqn:Ex; try discriminate. destruct (f a s1) as ((o2 & s2) & [b'| | |]) eqn:Ef; try discriminate. intros [= <- <- <-].
  apply Hx in Ex as (X1 & X2). apply Hf in Ef as (Y1 & Y2). rewrite !ownCount_app. lia.
Qed.
Lemma PC_lift {A} (r : res A) : PC 0 0 (lift r). Proof. intros s o s' a [= <- _ _]. now split. Qed.
Lemma PC_ret {A} (r : A) : PC 0 0 (ret r). Proof. intros s o s' a [= <- _ _]. now split. Qed.
Lemma PC_str t : PC 0 0 (emit (TStr t)). Proof. intros s o s' a [= <- _ _]. now split. Qed.
Lemma PC_lit t : PC (countC "("%char t) (countC ")"%char t) (lit t). Proof. intros s o s' a [= <- _ _]. unfold ownCount. cbn. lia. Qed.
Lemma PC_each l body : (forall a, PC 0 0 (body a)) -> PC 0 0 (each l body).
Proof. intros H. induction l as [|a l IH]; [apply PC_ret|]. now apply (PC_bind 0 0 0 0). Qed.
Lemma PC_pairs l body : (forall a b, PC 0 0 (body a b)) -> forall k, PC 0 0 (pairs l k body).
Proof. intros H. induction l as [|a l IH]; intros [|b k]; try apply PC_ret. apply (PC_bind 0 0 0 0); auto. Qed.
Lemma PC_eq no nc no' nc' {A} (x : M A) : PC no nc x -> no = no' -> nc = nc' -> PC no' nc' x. Proof. now intros H <- <-. Qed.
Section Par.
Context (v3 : bool) (lay : layout) (m : memory) (str : Z -> res (list Z)) (pr : Z -> M unit) (Hpr : forall a, PC 0 0 (pr a)).
Ltac pc := match goal with
  | |- PC _ _ (bindM _ _) => apply (PC_bind 0 0 0 0); [pc|intros; pc]
  | |- PC _ _ (pr _) => apply Hpr
  | |- PC _ _ (ret _) => apply PC_ret
  | |- PC _ _ (lift _) => apply PC_lift
  | |- PC _ _ (fldM _ _ _) => apply PC_lift
  | |- PC _ _ (rd _ _ _) => apply PC_lift
  | |- PC _ _ (strM _ _) => apply PC_lift
  | |- PC _ _ (vla _) => apply PC_lift
  | |- PC _ _ (emit (TStr _)) => apply PC_str
  | |- PC _ _ (lit _) => eapply PC_eq; [apply PC_lit|reflexivity|reflexivity]
  | |- PC _ _ (each _ _) => apply PC_each; intros; pc
  | |- PC _ _ (pairs _ _ _) => apply PC_pairs; intros; pc
  | |- PC _ _ (ptrs _ _ _) => unfold ptrs; pc
  | |- PC _ _ (pyString _ _ _ _) => unfold pyString; destruct v3; pc
  | |- PC _ _ (if ?b then _ else _) => destruct b; pc
  | |- PC _ _ (let _ := _ in _) => cbv zeta; pc
  | _ => idtac end.
Lemma PC_arguments fb a : PC 2 1 (printArguments v3 lay m str pr fb a).
Proof.
  unfold printArguments. do 5 (apply (PC_bind 0 0 2 1); [pc|intros]). cbv zeta. do 2 (apply (PC_bind 0 0 2 1); [pc|intros]). apply (PC_bind 1 0 1 1); [apply PC_lit|intros _]. do 3 (apply (PC_bind 0 0 1 1); [pc|intros]).
  apply (PC_bind 1 0 0 1); [apply PC_lit|intros _]. do 3 (apply (PC_bind 0 0 0 1); [pc|intros]). apply PC_lit.
Qed.
End Par.
Lemma PC_print v3 lay m str kindOf maxdepth doargs dolocals f a : PC 0 0 (print v3 lay m str kindOf maxdepth doargs dolocals f a).
Proof. destruct f as [|f]; [apply PC_lift|]. cbn [print]. unfold group. intros s o s' x. destruct ((_ <- _ ; _) s) as ((o1 & s1) & r). intros [= <- _ _]. now split. Qed.

(** ** checkers for concrete memories *)
Definition region (l : list (Z * list Z)) : memory := fun a => fold_right (fun r acc => if (fst r <=? a) && (a <? fst r + zlen (snd r)) then znth (a - fst r) (snd r) else acc) None l.
Definition fieldb (m : memory) (a : Z) (n : nat) (v : Z) : bool :=
  (0 <=? v) && (v <? 256 ^ Z.of_nat n) && match memread m a n with Some l => forallb (fun e => fst e =? snd e) (combine l (leBytes n v)) | None => false end.
Definition readableb (m : memory) (a n : Z) : bool := (0 <=? a) && (0 <=? n) && (a + n <=? W64) && match memread m a (Z.to_nat n) with Some _ => true | None => false end.
Lemma combine_eq (l k : list Z) : length l = length k -> forallb (fun e => fst e =? snd e) (combine l k) = true -> l = k.
Proof. revert k. induction l as [|a l IH]; intros [|b k] L H; try discriminate; [reflexivity|]. cbn in *. apply andb_true_iff in H as (H1 & H2). f_equal; [lia|]. apply IH; auto. Qed.
Lemma fieldb_ok m a n v : fieldb m a n v = true -> field m a n v.
Proof.
  unfold fieldb. intros H. apply andb_true_iff in H as (H1 & H2). split; [lia|]. destruct (memread m a n) as [l|] eqn:E; [|discriminate]. apply memread_nth in E as (L & E). apply combine_eq in H2; [|pose proof (leBytes_len n v); unfold zlen in *; lia]. subst l. exact E.
Qed.
Lemma readableb_ok m a n : readableb m a n = true -> readable m a n.
Proof.
  unfold readableb. intros H. apply andb_true_iff in H as (H1 & H2). repeat split; try lia. destruct (memread m a (Z.to_nat n)) as [l|] eqn:E; [|discriminate]. apply memread_nth in E as (L & E). intros k Hk.
  destruct (nth_error l (Z.to_nat (k - a))) as [b|] eqn:Eb; [|apply nth_error_None in Eb; lia]. apply E in Eb. replace (a + Z.of_nat (Z.to_nat (k - a))) with k in Eb by lia. congruence.
Qed.
Lemma bytesAtb_ok m a l : (0 <=? a) && (a + zlen l <=? W64) && match memread m a (length l) with Some k => forallb (fun e => fst e =? snd e) (combine k l) | None => false end = true -> bytesAt m a l.
Proof.
  intros H. apply andb_true_iff in H as (H1 & H2). repeat split; try lia. destruct (memread m a _) as [k|] eqn:E; [|discriminate]. apply memread_nth in E as (L & E). apply combine_eq in H2; [|lia]. subst k. exact E.
Qed.
Lemma region_byte l : Forall (fun r => Forall isByte (snd r)) l -> byteMem (region l).
Proof.
  intros H a b. induction l as [|r l IH]; cbn; [discriminate|]. inversion H as [|? ? H1 H2]; subst. destruct (_ && _); [|now apply IH]. intros E. pose proof (znth_some _ _ _ E). rewrite znth_nth_error in E by lia. apply nth_error_In in E. rewrite Forall_forall in H1. now apply H1.
Qed.
