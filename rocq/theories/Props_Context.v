(** Properties C54, C83-C87: image lookup in a Context. *)
From Verif Require Import Base Context ContextSpec ContextProofs.

Definition fileName (o : option obj) : option path := option_map oPath o.
Lemma asked_name d n h : nameAsked d n h -> exists q, In q h /\ asksName d n q.
Proof. intros [H|[-> H]]; [exists (QName d n); split; [exact H|now left]|exists (QDwarfName n); split; [exact H|right; auto]]. Qed.
Lemma hex_char d : 0 <= d < 16 -> hexChar d (hexDigit d).
Proof. intros H. unfold hexChar, hexDigit. destruct (d <? 10) eqn:E; [left|right]; lia. Qed.
Lemma hex_char_eq d c : hexChar d c -> hexDigit d = c.
Proof. unfold hexChar, hexDigit. intros [[? ->]|[? ->]]; destruct (d <? 10) eqn:E; lia. Qed.
Lemma hex_text l : Forall isByte l -> hexText l (flat_map hexByte l).
Proof.
  induction 1 as [|b l B _ IH]; [constructor|]. unfold isByte in B. cbn [flat_map]. unfold hexByte at 1. cbn [app].
  replace (b :: l) with ((16 * (b / 16) + b mod 16) :: l) by (f_equal; symmetry; apply Z.div_mod; lia).
  constructor; [apply hex_char|apply hex_char|exact IH]; [split; [apply Z.div_pos; lia|apply Z.div_lt_upper_bound; lia]|apply Z.mod_pos_bound; lia].
Qed.
Lemma hex_text_eq l t : hexText l t -> flat_map hexByte l = t.
Proof.
  induction 1 as [|hi lo c1 c2 l t H1 H2 _ IH]; [reflexivity|]. cbn [flat_map]. unfold hexByte at 1.
  assert (R : 0 <= lo < 16) by (unfold hexChar in H2; lia).
  replace ((16 * hi + lo) / 16) with hi by (rewrite Z.mul_comm, Z.div_add_l by lia; rewrite Z.div_small by lia; lia).
  replace ((16 * hi + lo) mod 16) with lo by (rewrite Z.mul_comm, Z.add_comm, Z_mod_plus_full; symmetry; apply Z.mod_small; lia).
  rewrite (hex_char_eq _ _ H1), (hex_char_eq _ _ H2), IH. reflexivity.
Qed.
Lemma abs_dec p : {absolute p} + {~ absolute p}.
Proof. destruct p as [|x p]; [right; intros [r E]; discriminate|]. destruct (Z.eq_dec x 47) as [->|N]; [left; now exists p|right; intros [r E]; congruence]. Qed.
Lemma join_rel d n : ~ absolute n -> join d n = match d with [] => n | _ => if last d 0 =? 47 then d ++ n else d ++ 47 :: n end.
Proof.
  intros N. unfold join. destruct n as [|x n]; [reflexivity|]. destruct (Z.eq_dec x 47) as [->|E]; [exfalso; apply N; now exists n|].
  destruct x as [|x|x]; try reflexivity. do 6 (destruct x as [x|x|]; try reflexivity). now elim E.
Qed.
Lemma joined_eq d n p : joined d n p -> join d n = p.
Proof.
  intros [d' n' [r ->]|n' N|d' n' N|d' x n' N X]; [reflexivity|now rewrite join_rel| |]; rewrite join_rel by exact N; rewrite last_last.
  - change (47 =? 47) with true. now destruct (d' ++ [47]) eqn:E; [destruct d'|].
  - replace (x =? 47) with false by lia. now destruct (d' ++ [x]) eqn:E; [destruct d'|].
Qed.
Lemma joined_join d n : joined d n (join d n).
Proof.
  destruct (abs_dec n) as [[r ->]|N]; [constructor; now exists r|]. rewrite join_rel by exact N. destruct d as [|x d]; [now constructor|].
  destruct (exists_last (l := x :: d) ltac:(discriminate)) as (d' & y & E). rewrite E. clear E. rewrite last_last.
  destruct (d' ++ [y]) eqn:E; [destruct d'; discriminate|]. rewrite <- E. destruct (y =? 47) eqn:Y; [replace y with 47 by lia; now constructor|].
  apply joinPlain; [exact N|lia].
Qed.
Lemma hex_not_abs d l t : hexText l t -> ~ absolute (t ++ (if d : bool then dotDebug else [])).
Proof.
  intros H [r E]. destruct H as [|hi lo c1 c2 l t H1 H2 H]; [destruct d; discriminate|]. cbn [app] in E. injection E as -> _. unfold hexChar in H1. lia.
Qed.
Lemma id_name d b n : b <> [] -> Forall isByte b -> n = bidPath d b <-> idName d b n.
Proof.
  intros NE B. destruct b as [|b0 b]; [now elim NE|]. inversion B as [|? ? B0 B1]; subst. unfold bidPath. cbn [firstn skipn].
  assert (J : forall h0 hr, hexText [b0] h0 -> hexText b hr -> join h0 (hr ++ (if d then dotDebug else [])) = h0 ++ [47] ++ hr ++ (if d then dotDebug else [])).
  { intros h0 hr X0 X1. inversion X0 as [|hi lo c1 c2 ? t H1 H2 Hn]; subst. inversion Hn; subst. apply joined_eq. change [c1; c2] with ([c1] ++ [c2]).
    apply joinPlain; [now apply hex_not_abs with b|]. unfold hexChar in H2. lia. }
  split.
  - intros ->. exists b0, b, (flat_map hexByte [b0]), (flat_map hexByte b). split; [reflexivity|]. split; [apply hex_text; now constructor|]. split; [now apply hex_text|].
    apply J; apply hex_text; [now constructor|assumption].
  - intros (b0' & r & h0 & hr & E & X0 & X1 & ->). inversion E; subst b0' r. rewrite <- (J h0 hr X0 X1). rewrite (hex_text_eq _ _ X0), (hex_text_eq _ _ X1). reflexivity.
Qed.
Lemma noClash_hyp h : noClash h -> forall d n b q q', In q h -> In q' h -> asksName d n q -> asksId d b q' -> n <> bidPath d b.
Proof.
  intros [NB N] d n b q q' Hq Hq' A B. assert (IB : idAsked d b h) by (destruct B as [->|[-> ->]]; [now left|right; auto]). destruct (NB d b IB) as [B1 B2].
  rewrite (id_name d b n B1 B2). apply N; [|exact IB]. destruct A as [->|[-> ->]]; [now left|right; auto].
Qed.
Lemma noFlush_Forall h : noFlush h -> Forall notFlush h.
Proof. intros N. apply Forall_forall. intros [| |o| | |] H; cbn; auto. exact (N o H). Qed.

(** ** C54 *)
(** A lookup by build ID that returned (an image or nothing) is answered by the same object ever
    after, whatever is asked in between, without looking at any file (the context does not change). *)
Theorem C54_id_same_object : forall w h d bid c r h',
  findById w d bid (history w h ctx0) = (c, Some r) -> noFlush h' ->
  findById w d bid (history w h' c) = (history w h' c, Some r).
Proof. intros w h d bid c r h' H N. eapply id_same; [now apply noFlush_Forall|exact H]. Qed.
Print Assumptions C54_id_same_object.
(** A lookup by name that found nothing is answered the same ever after without looking at any file. *)
Theorem C54_missing_name_not_repeated : forall w h d n c h',
  findByName w d n (history w h ctx0) = (c, None) -> noFlush h' ->
  findByName w d n (history w h' c) = (history w h' c, None).
Proof. intros w h d n c h' H N. eapply missing_cached; [now apply noFlush_Forall|exact H]. Qed.
Print Assumptions C54_missing_name_not_repeated.
(** Which file a lookup answers with does not depend on what was asked before: it is what a new
    context answers.
    Partial: no name asked for equals the relative name of a build ID asked for; see
    [C54_key_clash_refuted]. *)
Theorem C54_answer_independent_partial : forall w h d n b,
  (noClash (QName d n :: h) ->
   fileName (snd (findByName w d n (history w h ctx0))) = fileName (snd (findByName w d n ctx0))) /\
  (noClash (QId d b :: h) ->
   option_map fileName (snd (findById w d b (history w h ctx0))) = option_map fileName (snd (findById w d b ctx0))).
Proof.
  assert (X : forall o o', fileOf o = fileOf o' -> fileName o = fileName o').
  { intros [x|] [y|] H; cbn in *; try discriminate; [inversion H; congruence|reflexivity]. }
  intros w h d n b. split; intros N.
  - set (Q := fun q => In q (QName d n :: h)). pose proof (noClash_hyp _ N) as Hc.
    assert (I : Inv w Q (history w h ctx0)).
    { apply Inv_history; [exact Hc|apply Forall_forall; intros q H; now right|apply keys0|apply Inv0]. }
    apply X. eapply name_ans with (Q := Q) (q := QName d n); [exact I|now left|now left].
  - set (Q := fun q => In q (QId d b :: h)). pose proof (noClash_hyp _ N) as Hc.
    assert (I : Inv w Q (history w h ctx0)).
    { apply Inv_history; [exact Hc|apply Forall_forall; intros q H; now right|apply keys0|apply Inv0]. }
    pose proof (id_ans w Q (QId d b) d b _ I (or_introl eq_refl) (or_introl eq_refl)) as A. unfold ansId in A.
    destruct (snd (findById w d b (history w h ctx0))) as [o|], (snd (findById w d b ctx0)) as [o'|]; cbn [option_map] in *; try discriminate; [|reflexivity].
    f_equal. apply X. congruence.
Qed.
Print Assumptions C54_answer_independent_partial.

(** A world with an executable /bin/a (ELF contents start with 127), a script /bin/s for it, and the
    build ID ab cd in the first of two prefixes. *)
Definition C54_bin : path := [47; 98; 105; 110; 47; 97].
Definition C54_script : path := [47; 98; 105; 110; 47; 115].
Definition C54_idfile : path := [47; 105; 47; 97; 98; 47; 99; 100].
Definition C54_file (p : path) : option (list Z) :=
  if pathEq p C54_bin then Some [127; 69] else if pathEq p C54_script then Some ([35; 33; 32] ++ C54_bin ++ [10; 120])
  else if pathEq p C54_idfile then Some [127; 70] else None.
Definition C54_w : world := mkWorld C54_file (fun b => hd 0 b =? 127) (fun p => if pathEq p C54_idfile then RPath p else REnoent) (fun _ _ => None)
  false false false [[]] [[47; 100]] [[47; 105]] [[47; 105]].
Example C54_nonvacuous :
  (exists c x, findById C54_w false [171; 205] ctx0 = (c, Some (Some x)) /\ oPath x = C54_idfile) /\
  (exists c, findByName C54_w true [120] ctx0 = (c, None) /\ cProbes c = [[47; 100; 47; 120]]) /\
  fileName (snd (findByName C54_w false C54_script ctx0)) = Some C54_bin /\
  noClash [QId false [171; 205]; QName false C54_bin] /\ noFlush [QId false [171; 205]; QName false C54_bin].
Proof.
  split; [eexists _, _; split; vm_compute; reflexivity|]. split; [eexists; split; vm_compute; reflexivity|]. split; [vm_compute; reflexivity|]. split.
  - split.
    + intros d b [[H|[H|[]]]|[_ [H|[H|[]]]]]; try discriminate. inversion H; subst. split; [discriminate|]. repeat constructor; unfold isByte; lia.
    + intros d n b [[H|[H|[]]]|[_ [H|[H|[]]]]] [[G|[G|[]]]|[_ [G|[G|[]]]]]; try discriminate. inversion H; inversion G; subst. intros X. apply id_name in X; [vm_compute in X; discriminate|discriminate|].
      repeat constructor; unfold isByte; lia.
  - intros o [H|[H|[]]]; discriminate.
Qed.
(** Refuted: images found by name are not remembered: asking again reads the file again and gives
    another object. *)
Theorem C54_name_reload_refuted :
  let r1 := findByName C54_w false C54_bin ctx0 in let r2 := findByName C54_w false C54_bin (fst r1) in
  exists x y, snd r1 = Some x /\ snd r2 = Some y /\ oPath x = oPath y /\ oId x <> oId y /\ cProbes (fst r2) = [C54_bin; C54_bin].
Proof. cbv zeta. eexists _, _. do 2 (split; [vm_compute; reflexivity|]). split; [reflexivity|]. split; [vm_compute; discriminate|vm_compute; reflexivity]. Qed.
(** Refuted: names and the relative names of build IDs share a cache: after asking for the executable
    "ab/cd" (there is none), the image with build ID abcd is not found. *)
Theorem C54_key_clash_refuted :
  snd (findById C54_w false [171; 205] (history C54_w [QName false [97; 98; 47; 99; 100]] ctx0)) = Some None /\
  option_map fileName (snd (findById C54_w false [171; 205] ctx0)) = Some (Some C54_idfile).
Proof. split; vm_compute; reflexivity. Qed.

(** ** C83: prefixes *)
Lemma isspace_blank b : isspace b = true <-> blank b.
Proof. unfold isspace, blank. destruct (b =? 32) eqn:E1, (9 <=? b) eqn:E2, (b <=? 13) eqn:E3; cbn; split; intros; try discriminate; try reflexivity; lia. Qed.
Lemma isspace_not b : isspace b = false <-> ~ blank b.
Proof. rewrite <- isspace_blank. destruct (isspace b); split; congruence. Qed.
Lemma skip_spaces sp l : Forall (fun b => isspace b = true) sp -> (match l with [] => True | b :: _ => isspace b = false end) -> skipSpace (sp ++ l) = l.
Proof. induction 1 as [|b sp H F IH]; intros G; cbn [app skipSpace]; [destruct l as [|b l]; [reflexivity|cbn [skipSpace]; now rewrite G]|]. rewrite H. now apply IH. Qed.
Lemma take_word wd l : Forall (fun b => isspace b = false) wd -> (match l with [] => True | b :: _ => isspace b = true end) -> takeWord (wd ++ l) = wd.
Proof. induction 1 as [|b wd H F IH]; intros G; cbn [app takeWord]; [destruct l as [|b l]; [reflexivity|cbn [takeWord]; now rewrite G]|]. rewrite H. f_equal. now apply IH. Qed.
Lemma skip_split l : exists sp, l = sp ++ skipSpace l /\ Forall blank sp /\ (match skipSpace l with [] => True | b :: _ => isspace b = false end).
Proof.
  induction l as [|b l (sp & E & F & G)]; [exists []; repeat split; constructor|]. cbn [skipSpace]. destruct (isspace b) eqn:X; [|exists []; repeat split; [constructor|exact X]].
  exists (b :: sp). split; [now rewrite E at 1|]. split; [constructor; [now apply isspace_blank|exact F]|exact G].
Qed.
Lemma take_split l : exists rest, l = takeWord l ++ rest /\ Forall (fun b => ~ blank b) (takeWord l) /\ (rest = [] \/ exists e r, rest = e :: r /\ blank e).
Proof.
  induction l as [|b l (rest & E & F & G)]; [exists []; repeat split; [constructor|now left]|]. cbn [takeWord]. destruct (isspace b) eqn:X.
  - exists (b :: l). split; [reflexivity|]. split; [constructor|right]. exists b, l. split; [reflexivity|now apply isspace_blank].
  - exists rest. cbn [app]. split; [now rewrite E at 1|]. split; [constructor; [now apply isspace_not|exact F]|exact G].
Qed.
Lemma script_interpreter b i : script b i <-> interpreter b = Some i.
Proof.
  unfold interpreter. rewrite ztake_firstn by lia. change (Z.to_nat 64) with 64%nat. split.
  - intros (l & sp & rest & -> & L & E & S1 & S2 & R). cbv zeta. replace (zlen (firstn 64 b) >? 3) with true by lia. rewrite E. cbn [app nth]. change ((35 =? 35) && (33 =? 33)) with true. rewrite andb_true_r. cbn [andb].
    f_equal. change (zdrop 2 (35 :: 33 :: sp ++ i ++ rest)) with (zdrop (2 - 1 - 1) (sp ++ i ++ rest)). rewrite zdrop_neg by lia.
    rewrite skip_spaces; [rewrite take_word; [reflexivity| |]| |].
    + apply Forall_impl with (2 := S2). intros x. apply isspace_not.
    + destruct R as [->|(_ & e & r & -> & B)]; [exact I|now apply isspace_blank].
    + apply Forall_impl with (2 := S1). intros x. apply isspace_blank.
    + destruct i as [|x i]; [destruct R as [->|(N & _)]; [exact I|now elim N]|]. cbn [app]. inversion S2; subst. now apply isspace_not.
  - cbv zeta. destruct ((zlen (firstn 64 b) >? 3) && _ && _) eqn:C; [|discriminate]. intros E. apply andb_true_iff in C as [C C3]. apply andb_true_iff in C as [C1 C2].
    destruct (firstn 64 b) as [|x [|y l]] eqn:F; [discriminate|vm_compute in C1; discriminate|]. cbn [nth] in C2, C3. assert (x = 35) by lia. assert (y = 33) by lia. subst x y.
    change (zdrop 2 (35 :: 33 :: l)) with (zdrop (2 - 1 - 1) l) in E. rewrite zdrop_neg in E by lia. destruct (skip_split l) as (sp & E1 & F1 & G1). destruct (take_split (skipSpace l)) as (rest & E2 & F2 & G2).
    injection E as E. rewrite E in *. exists (35 :: 33 :: l), sp, rest. split; [now symmetry|]. split; [lia|]. split; [cbn [app]; do 2 f_equal; now rewrite E1 at 1; rewrite E2 at 1|]. split; [exact F1|]. split; [exact F2|].
    destruct G2 as [->|(e & r & -> & B)]; [now left|right]. split; [|now exists e, r]. intros ->. rewrite E2 in G1. cbn [app] in G1. apply isspace_not in G1. contradiction.
Qed.
Definition usable (w : world) (d : bool) (p : path) : option path :=
  match wFile w p with
  | None => None
  | Some b =>
      match (if d then None else interpreter b) with
      | Some i => match wFile w i with Some b' => if wElf w b' then Some i else None | None => None end
      | None => if wElf w b then Some p else None
      end
  end.
Fixpoint firstUsable (w : world) (d : bool) (ps : list path) : option path :=
  match ps with
  | [] => None
  | p :: r => match usable w d p with Some q => Some q | None => firstUsable w d r end
  end.
Lemma stands w d p q : standsFor w d p q <-> usable w d p = Some q.
Proof.
  unfold usable. split.
  - intros [p' b F E|p' b F N E|p' b i b' F X F' E]; rewrite F.
    + now rewrite E.
    + destruct (interpreter b) as [i|] eqn:I; [exfalso; apply (N i); now apply script_interpreter|now rewrite E].
    + apply script_interpreter in X. now rewrite X, F', E.
  - destruct (wFile w p) as [b|] eqn:F; [|discriminate]. destruct d.
    + destruct (wElf w b) eqn:E; [|discriminate]. intros [= <-]. now apply sfDebug with b.
    + destruct (interpreter b) as [i|] eqn:I.
      * destruct (wFile w i) as [b'|] eqn:F'; [|discriminate]. destruct (wElf w b') eqn:E; [|discriminate]. intros [= <-]. apply sfScript with b b'; try assumption. now apply script_interpreter.
      * destruct (wElf w b) eqn:E; [|discriminate]. intros [= <-]. apply sfExe with b; try assumption. intros i X. apply script_interpreter in X. congruence.
Qed.
Lemma first_found w d ps r : firstFound w d ps r <-> firstUsable w d ps = r.
Proof.
  revert r. induction ps as [|p ps IH]; intros r; cbn [firstUsable]; split.
  - inversion 1. reflexivity.
  - intros <-. constructor.
  - inversion 1 as [|? q ? X|? ? ? X Y]; subst; [apply stands in X; now rewrite X|]. destruct (usable w d p) as [q|] eqn:U; [exfalso; apply (X q); now apply stands|now apply IH].
  - destruct (usable w d p) as [q|] eqn:U; [intros <-; constructor; now apply stands|]. intros E. apply ffLater; [|now apply IH]. intros q X. apply stands in X. congruence.
Qed.
Lemma joined_map n dirs ps : Forall2 (fun dir p => joined dir n p) dirs ps -> map (fun dir => join dir n) dirs = ps.
Proof. induction 1 as [|dir p dirs ps J _ IH]; cbn [map]; [reflexivity|]. now rewrite (joined_eq _ _ _ J), IH. Qed.
Lemma tryDir_usable w d p c : option_map (fun s => fileName (resS s)) (snd (tryDir w d false p c)) = option_map Some (usable w d p).
Proof.
  unfold tryDir, usable, openImage, alloc. destruct (wFile w p) as [b|]; [|reflexivity]. destruct d.
  - destruct (wElf w b); reflexivity.
  - destruct (interpreter b) as [i|]; [|destruct (wElf w b); reflexivity]. cbv zeta. destruct (wFile w i) as [b'|]; [|reflexivity]. destruct (wElf w b'); reflexivity.
Qed.
Lemma search_usable w d dirs n : forall c, fileName (resS (snd (search w d false dirs n c))) = firstUsable w d (map (fun dir => join dir n) dirs).
Proof.
  induction dirs as [|dir dirs IH]; intros c; cbn [search map firstUsable]; [reflexivity|].
  pose proof (tryDir_usable w d (join dir n) c) as H. destruct (tryDir w d false (join dir n) c) as [c' [s|]]; cbn [snd option_map] in H; destruct (usable w d (join dir n)); try discriminate; [now inversion H|apply IH].
Qed.
Lemma inPath_resS w ps d n rs : fileName (snd (getImageInPath w ps d n rs ctx0)) = fileName (resS (snd (search w d rs (rev ps) n ctx0))).
Proof. unfold getImageInPath. replace (mfind (names d ctx0) n) with (@None (option obj)) by (now destruct d). now destruct (search w d rs (rev ps) n ctx0) as [c' [o|o]]. Qed.
(** A lookup by name answers with what stands for the first candidate, prefixes taken from the last
    (the user's) to the first (the defaults); nothing if local files are not to be used (executables). *)
Theorem C83_name_prefix_order_partial : forall w h d n ps r, noClash (QName d n :: h) ->
  Forall2 (fun dir p => joined dir n p) (rev (if d then wDebug w else wExe w)) ps -> firstFound w d ps r ->
  (d = true \/ oNoLocal w = false -> fileName (snd (findByName w d n (history w h ctx0))) = r) /\
  (d = false -> oNoLocal w = true -> snd (findByName w d n (history w h ctx0)) = None).
Proof.
  intros w h d n ps r N J F. apply joined_map in J. apply first_found in F. split.
  - intros L. rewrite (proj1 (C54_answer_independent_partial w h d n []) N). unfold findByName. destruct d.
    + rewrite inPath_resS, search_usable. congruence.
    + destruct L as [L|L]; [discriminate|]. rewrite L, inPath_resS, search_usable. congruence.
  - intros -> L. unfold findByName. now rewrite L.
Qed.
Print Assumptions C83_name_prefix_order_partial.
(** A lookup by build ID answers with what stands for the first resolved candidate.
    Partial: if no candidate is missing (see [C83_missing_prefix_refuted]) and debuginfod is not used. *)
Theorem C83_id_prefix_order_partial : forall w h d b (res : path -> path) n ps r, noClash (QId d b :: h) ->
  oNoIds w = false -> oNoLocal w = false -> oDebuginfod w = false -> idName d b n ->
  Forall2 (fun dir p => joined dir n p) (rev (if d then wDebugIds w else wExeIds w)) ps ->
  (forall p, In p ps -> wReal w p = RPath (res p) \/ (wReal w p = RError /\ res p = p)) ->
  firstFound w d (map res ps) r ->
  option_map fileName (snd (findById w d b (history w h ctx0))) = Some r.
Proof.
  intros w h d b rs n ps r N NI NL ND NM JS HR0 FF. destruct (proj1 N d b ltac:(left; now left)) as [Hb Bb]. apply (id_name d b n Hb Bb) in NM. subst n.
  set (dirs := rev (if d then wDebugIds w else wExeIds w)) in *. apply joined_map in JS. apply first_found in FF. subst r ps. rewrite map_map.
  assert (HR : forall dir, In dir dirs -> let p := join dir (bidPath d b) in wReal w p = RPath (rs p) \/ (wReal w p = RError /\ rs p = p)).
  { intros dir D. apply HR0. exact (in_map (fun dir => join dir (bidPath d b)) _ _ D). }
  clear HR0.
  rewrite (proj2 (C54_answer_independent_partial w h d [] b) N). rewrite byId_eq, NI.
  destruct b as [|b0 b]; [now elim Hb|]. cbn [orb]. replace (mfind (ids d ctx0) (b0 :: b)) with (@None (option obj)) by (now destruct d).
  unfold localPart. rewrite NL. pose proof (inPath_resS w (if d then wDebugIds w else wExeIds w) d (bidPath d (b0 :: b)) true) as E.
  destruct (getImageInPath w (if d then wDebugIds w else wExeIds w) d (bidPath d (b0 :: b)) true ctx0) as [c1 r1]. cbn [snd] in E.
  replace (remote w d (b0 :: b) c1 r1) with (c1, Some r1) by (unfold remote; rewrite ND; now destruct r1). cbn [snd option_map]. f_equal. rewrite E. fold dirs.
  clear E c1 r1 N. generalize ctx0. revert HR. induction dirs as [|dir ds IH]; intros HR c; cbn [search map firstUsable]; [reflexivity|].
  assert (T : option_map (fun s => fileName (resS s)) (snd (tryDir w d true (join dir (bidPath d (b0 :: b))) c)) = option_map Some (usable w d (rs (join dir (bidPath d (b0 :: b)))))).
  { rewrite <- (tryDir_usable w d _ c). destruct (HR dir (or_introl eq_refl)) as [R|[R R2]]; unfold tryDir; rewrite R; [reflexivity|now rewrite R2]. }
  destruct (tryDir w d true (join dir (bidPath d (b0 :: b))) c) as [c' [s|]]; cbn [snd option_map] in T; destruct (usable w d (rs (join dir (bidPath d (b0 :: b))))); try discriminate; [now inversion T|].
  apply IH. intros dir' H. apply HR. now right.
Qed.
Print Assumptions C83_id_prefix_order_partial.
Example C83_bid_path : idName true [0; 171; 15] [48; 48; 47; 97; 98; 48; 102; 46; 100; 101; 98; 117; 103].
Proof. apply id_name; [discriminate|repeat constructor; unfold isByte; lia|reflexivity]. Qed.
Example C83_nonvacuous :
  (Forall2 (fun dir p => joined dir C54_script p) (rev (wExe C54_w)) [C54_script] /\ firstFound C54_w false [C54_script] (Some C54_bin)) /\
  (idName false [171; 205] [97; 98; 47; 99; 100] /\ Forall2 (fun dir p => joined dir [97; 98; 47; 99; 100] p) (rev (wExeIds C54_w)) [C54_idfile] /\
   wReal C54_w C54_idfile = RPath C54_idfile /\ firstFound C54_w false [C54_idfile] (Some C54_idfile)).
Proof.
  split; split; [|apply first_found; vm_compute; reflexivity|apply id_name; [discriminate|repeat constructor; unfold isByte; lia|reflexivity]|].
  - constructor; [|constructor]. apply joinAbsolute. now exists [98; 105; 110; 47; 115].
  - split; [|split; [vm_compute; reflexivity|apply first_found; vm_compute; reflexivity]]. constructor; [|constructor].
    apply (joinPlain [47] 105 [97; 98; 47; 99; 100]); [intros [r E]; discriminate|lia].
Qed.
(** Refuted: with a further prefix (tried first) in which the image is missing, the search ends there
    and the image in the next prefix is not found. *)
Theorem C83_missing_prefix_refuted :
  let w := mkWorld C54_file (wElf C54_w) (wReal C54_w) (fun _ _ => None) false false false [[]] [] [[47; 105]; [47; 106]] [] in
  snd (findById w false [171; 205] ctx0) = Some None /\
  firstFound w false [[47; 106; 47; 97; 98; 47; 99; 100]; C54_idfile] (Some C54_idfile).
Proof. cbv zeta. split; [vm_compute; reflexivity|apply first_found; vm_compute; reflexivity]. Qed.

(** ** C84: flush *)
(** Once an object some lookup returned is flushed, no later lookup returns it. *)
Theorem C84_flushed_not_returned : forall w h o h' d n b,
  (exists d n c x, findByName w d n (history w h ctx0) = (c, Some x) /\ o = (c, oId x)) \/
  (exists d b c x, findById w d b (history w h ctx0) = (c, Some (Some x)) /\ o = (c, oId x)) ->
  let c := history w h' (flush (snd o) (fst o)) in
  (forall y, snd (findByName w d n c) = Some y -> oId y <> snd o) /\
  (forall y, snd (findById w d b c) = Some (Some y) -> oId y <> snd o).
Proof.
  intros w h [c0 i] h' d n b Ho. cbn [fst snd]. cbv zeta.
  assert (K0 : keysOk (history w h ctx0)) by (apply keys_history, keys0). assert (B0 : bounded (history w h ctx0)) by (apply bounded_history; [apply bounded0|apply keys0]).
  assert (P : 0 < i < cNext c0 /\ keysOk c0).
  { destruct Ho as [(d' & n' & c & x & E & O)|(d' & b' & c & x & E & O)]; inversion O; subst.
    - pose proof (keys_name w d' n' _ K0) as K. destruct (bounded_name w d' n' _ B0) as [_ B]. rewrite E in K, B. split; [now apply B|exact K].
    - pose proof (keys_id w d' b' _ K0) as K. destruct (bounded_id w d' b' _ B0) as [_ B]. rewrite E in K, B. split; [now apply B|exact K]. }
  destruct P as [P K]. assert (A : absent i (history w h' (flush i c0))) by (apply absent_history; [now apply flush_absent|now apply keys_flush]).
  split; intros y H.
  - destruct (absent_name w i d n _ A) as [_ X]. rewrite H in X. exact X.
  - destruct (absent_id w i d b _ A) as [_ X]. exact (X _ H).
Qed.
Print Assumptions C84_flushed_not_returned.
(** Flushing an object does not disturb what is known of others: what was found for a build ID, or that
    nothing was, and the names nothing was found for ([0] is the null pointer). *)
Theorem C84_flush_keeps_others : forall w h d c o,
  (forall bid r, findById w d bid (history w h ctx0) = (c, Some r) -> (forall x, r = Some x -> oId x <> o) -> (r = None -> o <> 0) ->
   findById w d bid (flush o c) = (flush o c, Some r)) /\
  (forall n, findByName w d n (history w h ctx0) = (c, None) -> o <> 0 -> findByName w d n (flush o c) = (flush o c, None)).
Proof.
  intros w h d c o.
  assert (F : forall (m : omap) k r, mfind m k = Some r -> isObj o r = false -> mfind (flushMap o m) k = Some r).
  { induction m as [|[k' v] m IH]; intros k r; cbn [mfind flushMap filter snd]; [discriminate|]. intros E Hx. destruct (pathEq k' k) eqn:P.
    - inversion E; subst. rewrite Hx. cbn [negb mfind]. now rewrite P.
    - destruct (isObj o v); cbn [negb mfind]; [|rewrite P]; now apply IH. }
  split.
  - intros bid r H Hx Hn. destruct (byId_eff w d bid (history w h ctx0)) as (_ & _ & _ & _ & _ & _ & _ & K). rewrite H in K. cbn [fst snd] in K.
    rewrite byId_eq in H. rewrite byId_eq. destruct (_ || oNoIds w); [now inversion H|]. specialize (K _ eq_refl eq_refl).
    assert (X : isObj o r = false) by (destruct r as [x|]; cbn [isObj]; [specialize (Hx x eq_refl)|specialize (Hn eq_refl)]; lia).
    destruct d; cbn [ids flush cDbgI cExeI] in *; now rewrite (F _ _ _ K X).
  - intros n H Ho. assert (X : isObj o None = false) by (cbn [isObj]; lia).
    assert (K : forall ps, getImageInPath w ps d n false (history w h ctx0) = (c, None) -> getImageInPath w ps d n false (flush o c) = (flush o c, None)).
    { intros ps Hp. assert (Y : mfind (names d c) n = Some None).
      { unfold getImageInPath in Hp. destruct (mfind (names d (history w h ctx0)) n) as [r|] eqn:E; [inversion Hp; subst; exact E|].
        pose proof (noEarlyNone w d (rev ps) n (history w h ctx0)) as NE. destruct (search w d false (rev ps) n (history w h ctx0)) as [c' [r|r]]; inversion Hp; subst; [now elim NE|].
        rewrite names_setNames, Bool.eqb_reflx, mfind_put, pathEq_refl. reflexivity. }
      unfold getImageInPath. destruct d; cbn [names flush cDbgN cExeN] in *; now rewrite (F _ _ _ Y X). }
    unfold findByName in *. destruct d; [now apply K|]. destruct (oNoLocal w); [reflexivity|now apply K].
Qed.
Example C84_nonvacuous : exists c x, findByName C54_w false C54_script (history C54_w [] ctx0) = (c, Some x) /\
  findByName C54_w false C54_script c = (c, Some x) /\
  (exists y, snd (findByName C54_w false C54_script (flush (oId x) c)) = Some y /\ oId y <> oId x).
Proof. eexists _, _. split; [vm_compute; reflexivity|]. split; [vm_compute; reflexivity|]. eexists. split; [vm_compute; reflexivity|vm_compute; discriminate]. Qed.

(** ** C85: the debug information of an object *)
(** An object's debug information is made once and is the same ever after, until it is flushed. *)
Theorem C85_dwarf_same : forall w h o c i h',
  findDwarf o (history w h ctx0) = (c, Ok i) -> noFlush h' -> findDwarf o (history w h' c) = (history w h' c, Ok i).
Proof.
  intros w h o c i h' H N. destruct (dwarf_eff o (history w h ctx0)) as (_ & _ & _ & _ & D). rewrite H in D. cbn [fst snd] in D. specialize (D i eq_refl).
  destruct (history_keeps w h' (noFlush_Forall _ N) c) as (_ & _ & K). unfold findDwarf. now rewrite (K _ _ D).
Qed.
Print Assumptions C85_dwarf_same.
Lemma dwarf_new w h : let c := history w h ctx0 in (forall k v, In (k, v) (cDwarf c) -> v < cNext c) /\ NoDup (map snd (cDwarf c)).
Proof.
  cbv zeta. assert (S0 : forall c, ((forall k v, In (k, v) (cDwarf c) -> v < cNext c) /\ NoDup (map snd (cDwarf c))) -> forall q, (forall k v, In (k, v) (cDwarf (serve w c q)) -> v < cNext (serve w c q)) /\ NoDup (map snd (cDwarf (serve w c q)))).
  { assert (D : forall o c, ((forall k v, In (k, v) (cDwarf c) -> v < cNext c) /\ NoDup (map snd (cDwarf c))) -> (forall k v, In (k, v) (cDwarf (fst (findDwarf o c))) -> v < cNext (fst (findDwarf o c))) /\ NoDup (map snd (cDwarf (fst (findDwarf o c))))).
    { intros o c [A B]. unfold findDwarf. destruct (dfind (cDwarf c) o); [auto|]. destruct (o =? 0); [auto|]. cbn [fst cDwarf cNext]. split.
      - intros k v [H|H]; [inversion H; lia|]. specialize (A k v H). lia.
      - cbn [map snd]. constructor; [|exact B]. intros X. apply in_map_iff in X as ([k v] & E & Y). cbn [snd] in E. specialize (A k v Y). lia. }
    assert (Nm : forall d n c, ((forall k v, In (k, v) (cDwarf c) -> v < cNext c) /\ NoDup (map snd (cDwarf c))) -> (forall k v, In (k, v) (cDwarf (fst (findByName w d n c))) -> v < cNext (fst (findByName w d n c))) /\ NoDup (map snd (cDwarf (fst (findByName w d n c))))).
    { intros d n c [A B]. destruct (byName_eff w d n c) as (_ & L2 & L3 & _). rewrite L2. split; [intros k v H; specialize (A k v H); lia|exact B]. }
    assert (Ni : forall d n c, ((forall k v, In (k, v) (cDwarf c) -> v < cNext c) /\ NoDup (map snd (cDwarf c))) -> (forall k v, In (k, v) (cDwarf (fst (findById w d n c))) -> v < cNext (fst (findById w d n c))) /\ NoDup (map snd (cDwarf (fst (findById w d n c))))).
    { intros d n c [A B]. destruct (byId_eff w d n c) as (L2 & L3 & _). rewrite L2. split; [intros k v H; specialize (A k v H); lia|exact B]. }
    intros c I [d n|d b|o|o|n|b]; [now apply Nm|now apply Ni| |now apply D| |].
    - cbn [serve flush cDwarf cNext]. destruct I as [A B]. split; [intros k v H; apply filter_In in H as [H _]; now apply A with k|].
      clear A. induction (cDwarf c) as [|[k v] l IH]; cbn [filter map fst snd] in *; [constructor|]. inversion B; subst. destruct (k =? o); cbn [negb map snd]; [now apply IH|].
      constructor; [|now apply IH]. intros X. apply H1. apply in_map_iff in X as (e & E & Y). apply filter_In in Y as [Y _]. rewrite <- E. now apply in_map.
    - rewrite serve_dwarfName. pose proof (Nm false n c I) as I'. destruct (findByName w false n c) as [c1 [x|]]; cbn [fst] in I'; [now apply D|exact I'].
    - rewrite serve_dwarfId. pose proof (Ni false b c I) as I'. destruct (findById w false b c) as [c1 [x|]]; cbn [fst] in I'; [now apply D|exact I']. }
  assert (G : forall h c, ((forall k v, In (k, v) (cDwarf c) -> v < cNext c) /\ NoDup (map snd (cDwarf c))) -> let c' := history w h c in (forall k v, In (k, v) (cDwarf c') -> v < cNext c') /\ NoDup (map snd (cDwarf c'))).
  { induction h0 as [|q h0 IH]; intros c I; cbn [history fold_left]; [exact I|]. apply IH. now apply S0. }
  apply G. cbn. split; [easy|constructor].
Qed.
(** Different objects never share debug information. *)
Theorem C85_dwarf_not_shared : forall w h o o' c c' i i',
  findDwarf o (history w h ctx0) = (c, Ok i) -> findDwarf o' c = (c', Ok i') -> o <> o' -> i <> i'.
Proof.
  intros w h o o' c c' i i' H H' N. replace c with (history w (h ++ [QDwarf o]) ctx0) in H' by (unfold history; rewrite fold_left_app; cbn [fold_left serve]; fold (history w h ctx0); now rewrite H).
  destruct (dwarf_new w (h ++ [QDwarf o] ++ [QDwarf o'])) as [_ ND].
  assert (Ec : history w (h ++ [QDwarf o] ++ [QDwarf o']) ctx0 = c').
  { rewrite app_assoc. unfold history at 1. rewrite fold_left_app. cbn [fold_left serve]. fold (history w (h ++ [QDwarf o]) ctx0). now rewrite H'. }
  rewrite Ec in ND. destruct (dwarf_eff o' (history w (h ++ [QDwarf o]) ctx0)) as (_ & _ & _ & K & D). rewrite H' in K, D. cbn [fst snd] in *.
  assert (F : dfind (cDwarf c') o = Some i).
  { apply K. unfold history. rewrite fold_left_app. cbn [fold_left serve]. fold (history w h ctx0). destruct (dwarf_eff o (history w h ctx0)) as (_ & _ & _ & _ & D0). rewrite H in *. now apply D0. }
  specialize (D _ eq_refl). intros <-. clear -F D ND N.
  assert (In1 : forall m k v, dfind m k = Some v -> In (k, v) m). { induction m as [|[k0 v0] m IH]; intros k v X; cbn [dfind] in X; [discriminate|]. destruct (k0 =? k) eqn:E; [left; inversion X; f_equal; lia|right; auto]. }
  apply In1 in F, D. induction (cDwarf c') as [|[k v] m IH]; [easy|]. cbn [map snd] in ND. inversion ND; subst.
  destruct F as [F|F], D as [D|D].
  - congruence.
  - inversion F; subst. apply H1. change i with (snd (o', i)). now apply in_map.
  - inversion D; subst. apply H1. change i with (snd (o, i)). now apply in_map.
  - now apply IH.
Qed.
Print Assumptions C85_dwarf_not_shared.
(** A missing executable has no debug information. *)
Theorem C85_missing_name : forall w n c c1, findByName w false n c = (c1, None) -> findDwarfByName w n c = (c1, Ok None).
Proof. intros w n c c1 H. unfold findDwarfByName. now rewrite H. Qed.
(** Refuted: asking for the debug information of a build ID nothing is known about is undefined
    behaviour (a null object is used). *)
Theorem C85_missing_id_refuted : exists w bid, bid <> [] /\ snd (findDwarfById w bid ctx0) = UB.
Proof. exists C54_w, [1; 2]. split; [discriminate|vm_compute; reflexivity]. Qed.
Example C85_nonvacuous : exists c i, findDwarf 1 (history C54_w [QName false C54_bin] ctx0) = (c, Ok i) /\ snd (findDwarf 2 (history C54_w [QDwarfName C54_script] c)) <> Ok i.
Proof. eexists _, _. split; [vm_compute; reflexivity|vm_compute; discriminate]. Qed.

(** ** C86: scripts *)
(** A file that starts with "#!", optional blanks and the name of an interpreter followed by a blank or
    a newline within its first 64 bytes is represented by the image of that interpreter.
    Partial: the 64 bytes; see [C86_long_interpreter_refuted]. *)
Theorem C86_script_partial : forall w h n sp interp e rest b,
  oNoLocal w = false -> noClash (QName false n :: h) -> wExe w = [[]] ->
  wFile w n = Some ([35; 33] ++ sp ++ interp ++ e :: rest) ->
  Forall blank sp -> Forall (fun b => ~ blank b) interp -> interp <> [] -> blank e ->
  zlen sp + zlen interp + 3 <= 64 -> wFile w interp = Some b -> wElf w b = true ->
  fileName (snd (findByName w false n (history w h ctx0))) = Some interp.
Proof.
  intros w h n sp interp e rest b NL NC Pf Hf Hs Hi Hne He Hl Hb Hel.
  apply (C83_name_prefix_order_partial w h false n [n] (Some interp)); [exact NC| | |now right].
  - rewrite Pf. cbn [rev app]. constructor; [|constructor]. destruct (abs_dec n); [now constructor|now constructor].
  - constructor. apply sfScript with ([35; 33] ++ sp ++ interp ++ e :: rest) b; try assumption.
    assert (Li : 0 < zlen interp) by (destruct interp; [easy|rewrite zlen_cons; pose proof (zlen_nonneg interp); lia]). pose proof (zlen_nonneg sp).
    exists (firstn 64 ([35; 33] ++ sp ++ interp ++ e :: rest)), sp, (e :: ztake (64 - 3 - zlen sp - zlen interp) rest). split; [reflexivity|].
    assert (T : firstn 64 ([35; 33] ++ sp ++ interp ++ e :: rest) = [35; 33] ++ sp ++ interp ++ e :: ztake (64 - 3 - zlen sp - zlen interp) rest).
    { rewrite !ztake_firstn by lia.
      replace ([35; 33] ++ sp ++ interp ++ e :: rest) with (([35; 33] ++ sp ++ interp ++ [e]) ++ rest) by (rewrite <- !app_assoc; reflexivity).
      rewrite firstn_app. rewrite firstn_all2 by (rewrite !app_length; cbn [length]; unfold zlen in *; lia).
      replace (Z.to_nat (64 - 3 - zlen sp - zlen interp)) with (64 - length ([35; 33]%Z ++ sp ++ interp ++ [e]))%nat by (rewrite !app_length; cbn [length]; unfold zlen in *; lia).
      rewrite <- !app_assoc. reflexivity. }
    rewrite T. split; [rewrite !zlen_app, !zlen_cons; change (zlen (@nil Z)) with 0; pose proof (zlen_nonneg (ztake (64 - 3 - zlen sp - zlen interp) rest)); lia|]. split; [reflexivity|].
    split; [exact Hs|]. split; [exact Hi|]. right. split; [exact Hne|]. eexists _, _. split; [reflexivity|exact He].
Qed.
Print Assumptions C86_script_partial.
Example C86_nonvacuous : wFile C54_w C54_script = Some ([35; 33] ++ [32] ++ C54_bin ++ 10 :: [120]) /\
  zlen [32] + zlen C54_bin + 3 <= 64 /\ (exists b, wFile C54_w C54_bin = Some b /\ wElf C54_w b = true) /\ wExe C54_w = [[]].
Proof. split; [reflexivity|]. split; [vm_compute; discriminate|]. split; [eexists; split; vm_compute; reflexivity|reflexivity]. Qed.
(** Refuted: an interpreter whose name goes beyond the 64th byte is cut there; here another file, with
    a name one byte shorter, is used in its place. *)
Theorem C86_long_interpreter_refuted :
  let i := repeat 97 62 in
  let w := mkWorld (fun p => if pathEq p [115] then Some ([35; 33] ++ (i ++ [98]) ++ [10]) else if pathEq p i then Some [127] else if pathEq p (i ++ [98]) then Some [127] else None)
             (fun b => hd 0 b =? 127) (fun p => RPath p) (fun _ _ => None) false false false [[]] [] [] [] in
  fileName (snd (findByName w false [115] ctx0)) = Some i.
Proof. vm_compute. reflexivity. Qed.

(** ** C87: symbolic links *)
Lemma untilNulP_id t : ~ In 0 t -> untilNulP t = t.
Proof. induction t as [|b t IH]; intros H; cbn [untilNulP]; [reflexivity|]. cbn [In] in H. replace (b =? 0) with false by lia. f_equal. apply IH. tauto. Qed.
Lemma dirPart_slash d b : ~ In 47 b -> dirPart (d ++ 47 :: b) = d ++ [47].
Proof.
  intros H. assert (B : dirPart b = []). { destruct b as [|x b]; [reflexivity|]. cbn [dirPart]. replace (_ || _) with false; [reflexivity|]. symmetry. apply orb_false_intro; [cbn [In] in H; lia|].
    destruct (existsb (fun x0 => x0 =? 47) b) eqn:E; [|reflexivity]. apply existsb_exists in E as (y & Y & Z0). exfalso. apply H. right. replace 47 with y by lia. exact Y. }
  induction d as [|x d IH]; cbn [app dirPart].
  - change (47 =? 47) with true. cbn [orb]. now rewrite B.
  - replace (existsb (fun x0 => x0 =? 47) (d ++ 47 :: b)) with true; [rewrite orb_true_r; now rewrite IH|]. symmetry. apply existsb_exists. exists 47. split; [apply in_or_app; right; now left|reflexivity].
Qed.
Lemma dirPart_none p : ~ In 47 p -> dirPart p = [].
Proof.
  intros H. destruct p as [|x p]; [reflexivity|]. cbn [dirPart]. replace (_ || _) with false; [reflexivity|]. symmetry. apply orb_false_intro; [cbn [In] in H; lia|].
  destruct (existsb (fun x0 => x0 =? 47) p) eqn:E; [|reflexivity]. apply existsb_exists in E as (y & Y & Z0). exfalso. apply H. right. replace 47 with y by lia. exact Y.
Qed.
Lemma link_step p t q : plainTarget t -> leads p t q ->
  (let t' := untilNulP (ztake 1023 t) in match t' with 47 :: _ => t' | _ => dirPart p ++ t' end) = q.
Proof.
  intros [L N] H. rewrite ztake_all by exact L. rewrite untilNulP_id by exact N. cbv zeta. destruct H as [(r & -> & ->)|(NA & H)]; [reflexivity|].
  assert (E : (match t with 47 :: _ => t | _ => dirPart p ++ t end) = dirPart p ++ t).
  { destruct t as [|[|x|x] t]; try reflexivity. do 6 (destruct x as [x|x|]; try reflexivity). exfalso. now apply (NA t). }
  rewrite E. destruct H as [(d & b & -> & Nb & ->)|(Np & ->)]; [rewrite dirPart_slash by exact Nb; now rewrite <- app_assoc|now rewrite dirPart_none].
Qed.
(** A name that leads over any number of links to something that is not a link resolves to that; one
    that leads to something that cannot be read is left as it was.
    Partial: link texts up to 1023 bytes. *)
Theorem C87_links_partial : forall rl p q, chases rl p q ->
  exists n, forall fuel orig, (n <= fuel)%nat ->
  (rl q = LNotLink -> linkResolve fuel rl orig p = Ok q) /\ (rl q = LError -> linkResolve fuel rl orig p = Ok orig).
Proof.
  intros rl p q H. induction H as [p|p t q r E PT L H IH].
  - exists 1%nat. intros fuel orig F. destruct fuel as [|f]; [lia|]. cbn [linkResolve]. split; intros ->; reflexivity.
  - destruct IH as [n IH]. exists (S n). intros fuel orig F. destruct fuel as [|f]; [lia|]. cbn [linkResolve]. rewrite E. cbv zeta. pose proof (link_step p t q PT L) as X. cbv zeta in X.
    match goal with |- context [linkResolve f rl orig ?e] => replace e with q by (symmetry; exact X) end. apply IH. lia.
Qed.
Print Assumptions C87_links_partial.
Example C87_nonvacuous : (* /a/b -> c, /a/c -> /x *)
  let rl := fun p => if pathEq p [47; 97; 47; 98] then LTarget [99] else if pathEq p [47; 97; 47; 99] then LTarget [47; 120] else if pathEq p [47; 120] then LNotLink else LError in
  chases rl [47; 97; 47; 98] [47; 120] /\ linkResolve 5 rl [47; 97; 47; 98] [47; 97; 47; 98] = Ok [47; 120].
Proof.
  cbv zeta. split; [|vm_compute; reflexivity].
  eapply chLink with (t := [99]) (q := [47; 97; 47; 99]); [reflexivity| | |].
  - split; [vm_compute; discriminate|cbn; lia].
  - right. split; [discriminate|]. left. exists [47; 97], [98]. split; [reflexivity|]. split; [cbn; lia|reflexivity].
  - eapply chLink with (t := [47; 120]) (q := [47; 120]); [reflexivity| | |constructor].
    + split; [vm_compute; discriminate|cbn; lia].
    + left. eauto.
Qed.
(** Refuted: two links that lead to each other are followed for ever. *)
Theorem C87_link_cycle_refuted : let rl := fun p => if pathEq p [97] then LTarget [98] else if pathEq p [98] then LTarget [97] else LError in
  forall fuel, linkResolve fuel rl [97] [97] = OutOfFuel.
Proof.
  cbv zeta. set (rl := fun p => _). assert (R : forall fuel o, linkResolve fuel rl o [97] = OutOfFuel /\ linkResolve fuel rl o [98] = OutOfFuel); [|intros; apply R].
  induction fuel as [|f IH]; intros o; [split; reflexivity|]. split; cbn [linkResolve].
  - change (rl [97]) with (LTarget [98]). cbv iota zeta. change (untilNulP (ztake 1023 [98])) with [98]. cbn [dirPart existsb Z.eqb Pos.eqb orb app]. apply IH.
  - change (rl [98]) with (LTarget [97]). cbv iota zeta. change (untilNulP (ztake 1023 [97])) with [97]. cbn [dirPart existsb Z.eqb Pos.eqb orb app]. apply IH.
Qed.
Print Assumptions C54_name_reload_refuted.
Print Assumptions C54_key_clash_refuted.
Print Assumptions C83_missing_prefix_refuted.
Print Assumptions C84_flush_keeps_others.
Print Assumptions C85_missing_name.
Print Assumptions C85_missing_id_refuted.
Print Assumptions C86_long_interpreter_refuted.
Print Assumptions C87_link_cycle_refuted.
