(** Property C170: which Python interpreter is traced (see properties.jsonl). *)
From Coq Require Import Ascii String Sorted.
From Verif Require Import Base MapsSpec DwarfReaderProofs CfiSpec CfiProofs ElfHash Args ArgsSpec ArgsProofs Python PythonSpec PythonProofs PythonProofs3 PythonProofs4 FrameText FrameTextSpec Main MainSpec Props_Main2 PyFind.
Open Scope Z_scope.

(** Words in texts, and the last component of a path *)
Definition contains (w s : list Z) : Prop := exists a b, s = a ++ w ++ b.
Definition namedLike (w path : list Z) : Prop := exists b, baseNameIs path b /\ contains w b.
Lemma has_iff w s : w <> [] -> (has w s = true <-> contains w s).
Proof.
  intros Hw. unfold has. pose proof (findWord_spec w s 0 Hw) as F. destruct (findWord w s 0) as [j|].
  - destruct F as (pre & rest & E & _). split; [intros _; exists pre, rest; exact E|reflexivity].
  - split; [discriminate|]. intros (a & b & E). exfalso. exact (F a b E).
Qed.
Lemma baseName_ex s : exists b, baseNameIs s b.
Proof.
  induction s as [|c s (b & N & H)]; [exists []; split; [intros []|now left]|]. destruct H as [->|(d & ->)].
  - destruct (Z.eq_dec c 47) as [->|Hc]; [exists b; split; [exact N|right; now exists []]|]. exists (c :: b). split; [intros [X|X]; [lia|now apply N]|now left].
  - exists b. split; [exact N|right; now exists (c :: d)].
Qed.
Lemma like_iff w n : w <> [] -> (has w (fileName n) = true <-> namedLike w n).
Proof.
  intros Hw. split.
  - intros H. destruct (baseName_ex n) as (b & Hb). rewrite (fileName_is n b Hb) in H. exists b. split; [exact Hb|]. now apply has_iff.
  - intros (b & Hb & C). rewrite (fileName_is n b Hb). now apply has_iff.
Qed.
Definition inOrder (l : pobjs) : Prop := StronglySorted (fun a b => fst a < fst b) l.
Lemma view_order l : inOrder l -> byAddress (symView l).
Proof.
  induction 1 as [|e l St IH F]; [constructor|]. cbn [symView map]. constructor; [exact IH|]. rewrite Forall_forall in *. intros x Hx. unfold symView in Hx. apply in_map_iff in Hx as (e' & <- & He). exact (F _ He).
Qed.
Lemma view_in l base n o : In (base, (n, Some o)) l -> In (base, (n, Some (poSyms o))) (symView l).
Proof. intros H. unfold symView. apply in_map_iff. exists (base, (n, Some o)). now split. Qed.
Lemma view_inv l base n s : In (base, (n, Some s)) (symView l) -> exists o, s = poSyms o /\ In (base, (n, Some o)) l.
Proof. intros H. unfold symView in H. apply in_map_iff in H as ((b & n' & [o|]) & E & H); cbn in E; [|discriminate]. injection E as -> -> <-. now exists o. Qed.
Lemma find_base l base n o : inOrder l -> In (base, (n, Some o)) l -> find (fun e => fst e =? base) l = Some (base, (n, Some o)).
Proof.
  induction 1 as [|e l St IH F]; intros H; [destruct H|]. cbn [find]. destruct H as [->|H]; [cbn [fst]; now rewrite Z.eqb_refl|]. rewrite Forall_forall in F. pose proof (F _ H) as L. cbn [fst] in L. replace (fst e =? base) with false by lia. now apply IH.
Qed.
Lemma detail_none name debug accept l : (forall b n o, In (b, (n, Some o)) l -> accept n = true -> Lacks debug o name) -> resolveDetail name debug accept l = Throw.
Proof.
  intros H. induction l as [|[b [n x]] l IH]; [reflexivity|]. cbn [resolveDetail]. assert (R : resolveDetail name debug accept l = Throw) by (apply IH; intros b' n' o' I; apply (H b' n' o'); now right).
  destruct (accept n) eqn:A1; cbn [negb]; [|exact R]. destruct x as [o1|]; [|exact R]. destruct (H b n o1 (or_introl eq_refl) A1) as ((z & Z1 & Z2) & Zd). rewrite Z1. cbn [bind]. rewrite Z2. cbn [Z.eqb negb].
  destruct debug; [|exact R]. destruct (Zd eq_refl) as (z' & Z3 & Z4). rewrite Z3. cbn [bind]. rewrite Z4. exact R.
Qed.
Lemma detail_in name accept l base y : resolveDetail name false accept l = Ok (base, y) -> exists n o, In (base, (n, Some o)) l /\ accept n = true /\ Defines false o name y.
Proof.
  induction l as [|[b [n x]] l IH]; cbn [resolveDetail]; [discriminate|].
  assert (R : resolveDetail name false accept l = Ok (base, y) -> exists n0 o, In (base, (n0, Some o)) ((b, (n, x)) :: l) /\ accept n0 = true /\ Defines false o name y) by (intros R; destruct (IH R) as (n0 & o & I & K); exists n0, o; split; [now right|exact K]).
  destruct (accept n) eqn:A1; cbn [negb]; [|exact R]. destruct x as [o|]; [|exact R]. destruct (soDyn o name) as [z| | |] eqn:D; cbn [bind]; try discriminate.
  destruct (svShndx z =? 0) eqn:S0; cbn [negb]; [exact R|]. intros E. injection E as -> ->. exists n, o. split; [now left|]. split; [exact A1|]. apply DfDyn; [exact D|lia].
Qed.

(** No object defines Python's own pointer to its list (a local patch to Python 2). *)
Definition noPointer (l : pobjs) : Prop := forall b n o, In (b, (n, Some o)) l -> contains (lit "python") n -> Lacks false (poSyms o) (lit "Py_interp_headp").
Lemma pointer_none m l : noPointer l -> headByPointer m l = Throw.
Proof.
  intros H. unfold headByPointer. rewrite detail_none; [reflexivity|]. intros b n s Hin Ha. destruct (view_inv l b n s Hin) as (o & -> & Ho). apply (H b n o Ho). apply has_iff; [discriminate|exact Ha].
Qed.
(** The version a file is named after *)
Definition versionName (file : list Z) (maj mnr : Z) : Prop := exists b pre c rest, baseOf file b /\ firstPython b pre (48 + maj :: c :: 48 + mnr :: rest) /\ 0 <= maj <= 9 /\ 0 <= mnr <= 9.
Lemma hex_version maj mnr : 0 <= maj <= 9 -> 0 <= mnr <= 9 -> (v2hex (maj, mnr) <? v2hex (3, 0)) = (maj <? 3).
Proof.
  intros H1 H2. set (d := map Z.of_nat (seq 0 10)).
  assert (B : forallb (fun a => forallb (fun b => Bool.eqb (v2hex (a, b) <? v2hex (3, 0)) (a <? 3)) d) d = true) by (vm_compute; reflexivity).
  assert (I : forall z, 0 <= z <= 9 -> In z d) by (intros z Hz; unfold d; apply in_map_iff; exists (Z.to_nat z); split; [lia|]; apply in_seq; lia).
  rewrite forallb_forall in B. specialize (B maj (I maj H1)). rewrite forallb_forall in B. specialize (B mnr (I mnr H2)). now apply Bool.eqb_prop in B.
Qed.

(** In a process with no such pointer, the Python 3 interpreters that are traced are those of the list in the first object, in the order of addresses, that is called python3 and defines _PyRuntime:
    the list is where that symbol is, at the place the release keeps it. *)
Theorem C170_python3 : forall off m l base n o y maj mnr,
  inOrder l -> noPointer l ->
  In (base, (n, Some o)) l -> namedLike (lit "python3") n -> Defines false (poSyms o) (lit "_PyRuntime") y ->
  (forall b n' o', In (b, (n', Some o')) l -> b < base -> namedLike (lit "python3") n' -> Lacks false (poSyms o') (lit "_PyRuntime")) ->
  versionName (poFile o) maj mnr -> 3 <= maj ->
  0 <= base -> 0 <= svValue y -> 0 <= off -> 0 < base + svValue y + off < W64 ->
  pystack false true off m l = Ok (Trace true (base + svValue y + off)).
Proof.
  intros off m l base n o y maj mnr St NP Hin Hn D L V M H1 H2 H3 H4. unfold pystack, interpInfo, interpHead. rewrite (pointer_none m l NP). cbn [orElse].
  assert (R : head3 off l = Ok (base, base + svValue y + off)).
  { unfold head3. rewrite (resolve_at _ false _ (symView l) base n (poSyms o) y (view_order l St) (view_in l base n o Hin)); [cbn [bind]; rewrite u64_id by (unfold isU64; lia); reflexivity| |exact D|].
    - apply like_iff; [discriminate|exact Hn].
    - intros b n' s' I B A1. destruct (view_inv l b n' s' I) as (o' & -> & I'). apply (L b n' o' I' B). apply like_iff; [discriminate|exact A1]. }
  rewrite R. cbn [orElse bind]. rewrite (find_base l base n o St Hin). assert (E : versionFromFilename (poFile o) = Ok (maj, mnr)) by (apply version_spec; exact V). rewrite E. cbn [bind].
  destruct V as (_ & _ & _ & _ & _ & _ & V1 & V2). rewrite hex_version by assumption. replace (maj <? 3) with false by lia. cbn [negb]. replace (base + svValue y + off =? 0) with false by lia. reflexivity.
Qed.
Print Assumptions C170_python3.
Definition C170_obj (dyn : list (list Z * symv)) (file : list Z) : pobj := mkPO (C128_obj dyn []) file file (Ok []).
Definition C170_objs : pobjs :=
  [ (4096, (lit "/usr/bin/app", Some (C170_obj [] (lit "/usr/bin/app"))));
    (8192, (lit "/lib/libgone.so", None));
    (65536, (lit "/lib/libpython3.so", Some (C170_obj [] (lit "/lib/libpython3.so"))));
    (131072, (lit "/lib/libpython3.9.so.1.0", Some (C170_obj [(lit "_PyRuntime", mkSymv 20 4160)] (lit "/lib/libpython3.9.so.1.0")))) ].
Example C170_nonvacuous : inOrder C170_objs /\ noPointer C170_objs /\ namedLike (lit "python3") (lit "/lib/libpython3.9.so.1.0") /\ versionName (lit "/lib/libpython3.9.so.1.0") 3 9 /\
  Defines false (poSyms (C170_obj [(lit "_PyRuntime", mkSymv 20 4160)] (lit "/lib/libpython3.9.so.1.0"))) (lit "_PyRuntime") (mkSymv 20 4160) /\
  pystack false true 24 (fun _ => None) C170_objs = Ok (Trace true 135256).
Proof.
  split; [repeat constructor|]. split; [|split; [|split; [|split; [|vm_compute; reflexivity]]]].
  - intros b n o Hin _. split; [|discriminate]. destruct Hin as [E|[E|[E|[E|[]]]]]; try discriminate; injection E as _ _ <-; eexists; (split; [vm_compute; reflexivity|reflexivity]).
  - exists (lit "libpython3.9.so.1.0"). split; [split; [vm_compute; intuition discriminate|right; exists (lit "/lib"); reflexivity]|]. exists (lit "lib"), (lit ".9.so.1.0"). reflexivity.
  - apply version_spec. vm_compute. reflexivity.
  - apply DfDyn; [vm_compute; reflexivity|discriminate].
Qed.
(** With such a pointer, in the first object called python that has it, what it points to is the list. *)
Theorem C170_pointer : forall py2 py3 off m l base n o y maj mnr a,
  inOrder l -> In (base, (n, Some o)) l -> contains (lit "python") n -> Defines false (poSyms o) (lit "Py_interp_headp") y ->
  (forall b n' o', In (b, (n', Some o')) l -> b < base -> contains (lit "python") n' -> Lacks false (poSyms o') (lit "Py_interp_headp")) ->
  versionName (poFile o) maj mnr -> 0 <= base -> 0 <= svValue y -> base + svValue y < W64 ->
  memread m (base + svValue y) 8 = Some (leBytes 8 a) -> 0 < a < W64 ->
  pystack py2 py3 off m l = if (if 3 <=? maj then py3 else py2) then Ok (Trace (3 <=? maj) a) else Throw.
Proof.
  intros py2 py3 off m l base n o y maj mnr a St Hin Hn D L V H1 H2 H3 M Ha. unfold pystack, interpInfo, interpHead, headByPointer.
  rewrite (resolve_at _ false _ (symView l) base n (poSyms o) y (view_order l St) (view_in l base n o Hin)); [|apply has_iff; [discriminate|exact Hn]|exact D|].
  2:{ intros b n' s' I B A1. destruct (view_inv l b n' s' I) as (o' & -> & I'). apply (L b n' o' I' B). apply has_iff; [discriminate|exact A1]. }
  cbn [bind]. rewrite u64_id by (unfold isU64; lia). rewrite M. cbn [orElse bind]. rewrite (find_base l base n o St Hin).
  assert (E : versionFromFilename (poFile o) = Ok (maj, mnr)) by (apply version_spec; exact V). rewrite E. cbn [bind].
  destruct V as (_ & _ & _ & _ & _ & _ & V1 & V2). rewrite hex_version by assumption. replace (le (leBytes 8 a)) with a.
  2:{ symmetry. apply le_leBytes. unfold W64 in Ha. lia. }
  replace (a =? 0) with false by lia. replace (negb (maj <? 3)) with (3 <=? maj) by lia. reflexivity.
Qed.
Print Assumptions C170_pointer.
Example C170_pointer_case : (* a pointer at 4104, holding 8200, in a program called python2.7 *)
  let m := fun a => if (4104 <=? a) && (a <? 4112) then Some (nth (Z.to_nat (a - 4104)) (leBytes 8 8200) 0) else None in
  let l := [(4096, (lit "/usr/bin/python2.7", Some (C170_obj [(lit "Py_interp_headp", mkSymv 20 8)] (lit "/usr/bin/python2.7"))))] in
  memread m 4104 8 = Some (leBytes 8 8200) /\ pystack true true 24 m l = Ok (Trace false 8200) /\ pystack false true 24 m l = Throw.
Proof. vm_compute. auto. Qed.

(** A process in which no object called python3 defines _PyRuntime is no Python process: its native stack is shown. *)
Theorem C170_none : forall off m l, noPointer l ->
  (forall b n o, In (b, (n, Some o)) l -> namedLike (lit "python3") n -> Lacks false (poSyms o) (lit "_PyRuntime")) -> pystack false true off m l = Ok NotPython.
Proof.
  intros off m l NP L. unfold pystack, interpInfo, interpHead. rewrite (pointer_none m l NP). cbn [orElse].
  assert (R : head3 off l = Throw); [|rewrite R; reflexivity]. unfold head3. rewrite detail_none; [reflexivity|]. intros b n s I A1. destruct (view_inv l b n s I) as (o & -> & I'). apply (L b n o I'). apply like_iff; [discriminate|exact A1].
Qed.
Print Assumptions C170_none.
(** Nothing else is ever traced: the list is one of those two, of an object that is loaded, and the printer is that of the release the object's file is named after. *)
Theorem C170_sound : forall off m l v3 a, inOrder l -> pystack false true off m l = Ok (Trace v3 a) ->
  v3 = true /\ exists base n o y maj mnr, In (base, (n, Some o)) l /\ versionName (poFile o) maj mnr /\ 3 <= maj /\
   ((contains (lit "python") n /\ Defines false (poSyms o) (lit "Py_interp_headp") y /\ exists b, memread m ((base + svValue y) mod W64) 8 = Some b /\ a = le b) \/
    (namedLike (lit "python3") n /\ Defines false (poSyms o) (lit "_PyRuntime") y /\ a = (base + svValue y + off) mod W64)).
Proof.
  intros off m l v3 a St H. unfold pystack in H. destruct (interpInfo false true off m l) as [[[[base h] v]|]| | |] eqn:E; cbn [bind] in H; try discriminate.
  unfold interpInfo in E. destruct (interpHead false true off m l) as [[[base' h']|]| | |] eqn:I; cbn [bind] in E; try discriminate.
  destruct (find (fun e => fst e =? base') l) as [[b0 [n0 [o0|]]]|] eqn:F; try discriminate. destruct (versionFromFilename (poFile o0)) as [[maj mnr]| | |] eqn:V; cbn [bind] in E; try discriminate. injection E as -> -> <-.
  apply version_spec in V. assert (VV := V). destruct VV as (_ & _ & _ & _ & _ & _ & V1 & V2). rewrite hex_version in H by assumption.
  destruct (maj <? 3) eqn:M; cbn [negb] in H; [discriminate|]. destruct (h =? 0) eqn:Hz; [discriminate|]. injection H as <- <-. split; [reflexivity|].
  assert (K : forall n o, In (base, (n, Some o)) l -> o0 = o) by (intros n o Hin; rewrite (find_base l base n o St Hin) in F; injection F as _ _ ->; reflexivity).
  unfold interpHead in I. destruct (headByPointer m l) as [[b1 h1]| | |] eqn:P; cbn [orElse] in I; try discriminate.
  - injection I as -> ->. unfold headByPointer in P. destruct (resolveDetail _ _ _ _) as [[b2 y]| | |] eqn:R; cbn [bind] in P; try discriminate.
    destruct (memread m _ 8) as [bs|] eqn:Mm; [|discriminate]. injection P as -> <-. destruct (detail_in _ _ _ _ _ R) as (n & s & Hin & A1 & D). destruct (view_inv l base n s Hin) as (o & -> & Hin').
    exists base, n, o, y, maj, mnr. split; [exact Hin'|]. rewrite <- (K n o Hin') in *. split; [exact V|]. split; [lia|]. left. split; [apply has_iff; [discriminate|exact A1]|]. split; [exact D|]. exists bs. split; [exact Mm|reflexivity].
  - unfold head3 in I. destruct (resolveDetail _ _ _ _) as [[b2 y]| | |] eqn:R; cbn [bind orElse] in I; try discriminate. injection I as -> <-.
    destruct (detail_in _ _ _ _ _ R) as (n & s & Hin & A1 & D). destruct (view_inv l base n s Hin) as (o & -> & Hin').
    exists base, n, o, y, maj, mnr. split; [exact Hin'|]. rewrite <- (K n o Hin') in *. split; [exact V|]. split; [lia|]. right. split; [apply like_iff; [discriminate|exact A1]|]. split; [exact D|reflexivity].
Qed.
Print Assumptions C170_sound.
(** Refuted: an interpreter whose file is called just python3 is found, but is then an error, wherever the file is. *)
Theorem C170_unversioned_refuted : forall dir off m l base n o y,
  inOrder l -> noPointer l -> In (base, (n, Some o)) l -> namedLike (lit "python3") n -> Defines false (poSyms o) (lit "_PyRuntime") y ->
  (forall b n' o', In (b, (n', Some o')) l -> b < base -> namedLike (lit "python3") n' -> Lacks false (poSyms o') (lit "_PyRuntime")) ->
  poFile o = dir ++ 47 :: lit "python3" -> pystack false true off m l = Throw.
Proof.
  intros dir off m l base n o y St NP Hin Hn D L EF. unfold pystack, interpInfo, interpHead. rewrite (pointer_none m l NP). cbn [orElse].
  assert (R : head3 off l = Ok (base, u64 (base + svValue y + off))).
  { unfold head3. rewrite (resolve_at _ false _ (symView l) base n (poSyms o) y (view_order l St) (view_in l base n o Hin)); [reflexivity| |exact D|].
    - apply like_iff; [discriminate|exact Hn].
    - intros b n' s' I B A1. destruct (view_inv l b n' s' I) as (o' & -> & I'). apply (L b n' o' I' B). apply like_iff; [discriminate|exact A1]. }
  rewrite R. cbn [orElse bind]. rewrite (find_base l base n o St Hin).
  destruct (version_total (poFile o)) as [V|[[maj mnr] V]]; rewrite V; [reflexivity|]. exfalso. apply version_spec in V as (b & pre & c & rest & Hb & (Fp & _) & _).
  assert (B2 : baseOf (poFile o) (lit "python3")) by (rewrite EF; split; [vm_compute; intuition discriminate|]; exists (dir ++ [47]); split; [now rewrite <- app_assoc|right; now exists dir]).
  rewrite (baseOf_fun _ _ _ Hb B2) in Fp. apply (f_equal (@List.length Z)) in Fp. rewrite !app_length in Fp. cbn in Fp. lia.
Qed.
Print Assumptions C170_unversioned_refuted.
Example C170_unversioned_case : pystack false true 24 (fun _ => None) [(4096, (lit "/usr/bin/python3", Some (C170_obj [(lit "_PyRuntime", mkSymv 20 4160)] (lit "/usr/bin/python3"))))] = Throw.
Proof. vm_compute. reflexivity. Qed.
(** Refuted: a damaged object called python3, lower in memory, hides the interpreter: the process counts as no Python process. *)
Theorem C170_damaged_refuted : forall off m l b n o, noPointer ((b, (n, Some o)) :: l) -> namedLike (lit "python3") n -> soDyn (poSyms o) (lit "_PyRuntime") = Throw ->
  pystack false true off m ((b, (n, Some o)) :: l) = Ok NotPython.
Proof.
  intros off m l b n o NP Hn T. unfold pystack, interpInfo, interpHead. rewrite (pointer_none m _ NP). cbn [orElse].
  assert (R : head3 off ((b, (n, Some o)) :: l) = Throw); [|rewrite R; reflexivity]. unfold head3. cbn [symView map fst snd resolveDetail]. apply like_iff in Hn; [|discriminate]. change (FrameText.txt "python3") with (lit "python3"). rewrite Hn. cbn [negb].
  change (FrameText.txt "_PyRuntime") with (lit "_PyRuntime"). rewrite T. reflexivity.
Qed.
Print Assumptions C170_damaged_refuted.
(** Refuted, built for Python 2: an object whose image cannot be found, before the interpreter in memory, is a null pointer dereference, whatever Python the process runs. *)
Theorem C170_missing_image_refuted : forall py3 off m before b n after, noPointer (before ++ (b, (n, None)) :: after) ->
  (forall e, In e before -> exists b' n' o, e = (b', (n', Some o)) /\ ~ contains (lit "python") (poText o)) ->
  pystack true py3 off m (before ++ (b, (n, None)) :: after) = UB.
Proof.
  intros py3 off m before b n after NP HB. unfold pystack, interpInfo, interpHead. rewrite (pointer_none m _ NP). cbn [orElse].
  assert (R : head2 (before ++ (b, (n, None)) :: after) = UB); [|rewrite R; reflexivity]. clear NP. induction before as [|e before IH]; [reflexivity|].
  destruct (HB e (or_introl eq_refl)) as (b' & n' & o & -> & N). cbn [app head2]. destruct (has (FrameText.txt "python") (poText o)) eqn:A1; [exfalso; apply N; apply has_iff; [discriminate|exact A1]|]. cbn [negb]. apply IH. intros e He. apply HB. now right.
Qed.
Print Assumptions C170_missing_image_refuted.
Example C170_missing_image_case : pystack true true 24 (fun _ => None) C170_objs = UB.
Proof. vm_compute. reflexivity. Qed.
