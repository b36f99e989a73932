From Verif Require Import Base Context.

Lemma pathEq_spec a : forall b, pathEq a b = true <-> a = b.
Proof.
  induction a as [|x a IH]; intros [|y b]; cbn [pathEq]; split; intros H; try discriminate; try reflexivity.
  - apply andb_prop in H as [H1 H2]. apply IH in H2. f_equal; [lia|exact H2].
  - inversion H; subst. rewrite Z.eqb_refl. cbn. now apply IH.
Qed.
Lemma pathEq_refl a : pathEq a a = true. Proof. now apply pathEq_spec. Qed.
Lemma mfind_put m k v k' : mfind (mput m k v) k' = if pathEq k k' then Some v else mfind m k'.
Proof.
  unfold mput. cbn [mfind]. destruct (pathEq k k') eqn:E; [reflexivity|]. induction m as [|[a b] m IH]; cbn [filter mfind fst]; [reflexivity|].
  destruct (pathEq a k) eqn:X; cbn [negb].
  - apply pathEq_spec in X. subst a. rewrite E. exact IH.
  - cbn [mfind]. destruct (pathEq a k'); [reflexivity|exact IH].
Qed.
Lemma mfind_in m k v : mfind m k = Some v -> In (k, v) m.
Proof. induction m as [|[a b] m IH]; cbn [mfind]; [discriminate|]. destruct (pathEq a k) eqn:E; intros H; [apply pathEq_spec in E; inversion H; subst; now left|right; auto]. Qed.
Lemma mfind_flush o m k v : mfind (flushMap o m) k = Some v -> exists v', mfind (flushMap o m) k = Some v' /\ isObj o v = false.
Proof. intros H. exists v. split; [exact H|]. apply mfind_in in H. unfold flushMap in H. apply filter_In in H as [_ H]. cbn [snd] in H. now destruct (isObj o v). Qed.

(** ** What a search finds does not depend on the context *)
Definition fileOf (o : option obj) : option (path * bool) := option_map (fun x => (oPath x, oDebug x)) o.
Definition fileR (s : searchR) : bool * option (path * bool) := match s with Early o => (false, fileOf o) | Leave o => (true, fileOf o) end.
Lemma tryDir_pure w d rs p c c' : option_map fileR (snd (tryDir w d rs p c)) = option_map fileR (snd (tryDir w d rs p c')).
Proof.
  unfold tryDir, openImage, alloc. destruct rs.
  - destruct (wReal w p); [|reflexivity|];
    (match goal with |- context [wFile w ?q] => destruct (wFile w q) as [b|]; [|reflexivity] end; destruct d; [destruct (wElf w b); reflexivity|];
     destruct (interpreter b) as [i|]; [|destruct (wElf w b); reflexivity]; destruct (wFile w i) as [b'|]; [|reflexivity]; destruct (wElf w b'); reflexivity).
  - destruct (wFile w p) as [b|]; [|reflexivity]. destruct d; [destruct (wElf w b); reflexivity|].
     destruct (interpreter b) as [i|]; [|destruct (wElf w b); reflexivity]; destruct (wFile w i) as [b'|]; [|reflexivity]; destruct (wElf w b'); reflexivity.
Qed.
Lemma search_pure w d rs dirs n : forall c c', fileR (snd (search w d rs dirs n c)) = fileR (snd (search w d rs dirs n c')).
Proof.
  induction dirs as [|dir dirs IH]; intros c c'; cbn [search]; [reflexivity|].
  pose proof (tryDir_pure w d rs (join dir n) c c') as H. destruct (tryDir w d rs (join dir n) c) as [c1 [s|]], (tryDir w d rs (join dir n) c') as [c2 [s'|]]; cbn [snd option_map] in H; try discriminate.
  - cbn [snd]. now inversion H.
  - apply IH.
Qed.
(** ** What operations leave alone *)
Definition sameMaps (c c' : ctx) : Prop := cExeN c' = cExeN c /\ cDbgN c' = cDbgN c /\ cExeI c' = cExeI c /\ cDbgI c' = cDbgI c /\ cDwarf c' = cDwarf c.
Lemma sameMaps_refl c : sameMaps c c. Proof. repeat split. Qed.
Lemma sameMaps_trans a b c : sameMaps a b -> sameMaps b c -> sameMaps a c.
Proof. unfold sameMaps. intros (?&?&?&?&?) (?&?&?&?&?). repeat split; congruence. Qed.
Definition fresh (c c' : ctx) (o : option obj) : Prop := cNext c <= cNext c' /\ forall x, o = Some x -> cNext c <= oId x < cNext c'.
Lemma openImage_eff w p d c : sameMaps c (fst (openImage w p d c)) /\ fresh c (fst (openImage w p d c)) (snd (openImage w p d c)).
Proof.
  unfold openImage, alloc, fresh. destruct (wFile w p) as [b|]; [destruct (wElf w b)|]; cbn; (split; [repeat split|split; [lia|]]); intros x H; inversion H; cbn; lia.
Qed.
Definition resR (s : option searchR) : option obj := match s with Some (Early o) | Some (Leave o) => o | None => None end.
Lemma tryDir_eff w d rs p c : sameMaps c (fst (tryDir w d rs p c)) /\ fresh c (fst (tryDir w d rs p c)) (resR (snd (tryDir w d rs p c))).
Proof.
  unfold tryDir.
  assert (K : forall q, let a := (let c := probe q c in
    match wFile w q with
    | None => (c, None)
    | Some b => match (if d then None else interpreter b) with
        | Some i => match openImage w i false c with (c', Some o) => (c', Some (Leave (Some o))) | (c', None) => (c', None) end
        | None => if wElf w b then let '(o, c') := alloc q d c in (c', Some (Early (Some o))) else (c, None) end
    end) in sameMaps c (fst a) /\ fresh c (fst a) (resR (snd a))).
  { intros q. cbv zeta. destruct (wFile w q) as [b|]; [|cbn; split; [repeat split|split; [cbn; lia|discriminate]]].
    destruct (if d then None else interpreter b) as [i|].
    - destruct (openImage_eff w i false (probe q c)) as [S F]. destruct (openImage w i false (probe q c)) as [c' [o|]]; cbn [fst snd resR] in *; (split; [exact S|exact F]).
    - destruct (wElf w b); cbn; (split; [repeat split|split; [cbn; lia|]]); intros x H; inversion H; cbn; lia. }
  destruct rs; [destruct (wReal w p)|]; try apply K. cbn. split; [apply sameMaps_refl|split; [lia|discriminate]].
Qed.
Definition resS (s : searchR) : option obj := match s with Early o | Leave o => o end.
Lemma search_eff w d rs dirs n : forall c, sameMaps c (fst (search w d rs dirs n c)) /\ fresh c (fst (search w d rs dirs n c)) (resS (snd (search w d rs dirs n c))).
Proof.
  induction dirs as [|dir dirs IH]; intros c; cbn [search]; [cbn; split; [apply sameMaps_refl|split; [lia|discriminate]]|].
  destruct (tryDir_eff w d rs (join dir n) c) as [S F]. destruct (tryDir w d rs (join dir n) c) as [c1 [s|]]; cbn [fst snd resR] in *.
  - split; [exact S|]. now destruct s.
  - destruct (IH c1) as [S2 F2]. destruct (search w d rs dirs n c1) as [c2 s]; cbn [fst snd] in *. split; [eapply sameMaps_trans; eassumption|].
    destruct F as [F _], F2 as [F2 F3]. split; [lia|]. intros x H. specialize (F3 x H). lia.
Qed.
Lemma sameMaps_names c c' : sameMaps c c' -> forall d, names d c' = names d c.
Proof. intros (H1&H2&H3&H4&H5) [|]; cbn; congruence. Qed.
Lemma sameMaps_ids c c' : sameMaps c c' -> forall d, ids d c' = ids d c.
Proof. intros (H1&H2&H3&H4&H5) [|]; cbn; congruence. Qed.
Lemma names_setNames d d' m c : names d (setNames d' m c) = if Bool.eqb d d' then m else names d c.
Proof. destruct d, d'; reflexivity. Qed.
Lemma ids_setNames d d' m c : ids d (setNames d' m c) = ids d c.
Proof. destruct d, d'; reflexivity. Qed.
Lemma names_setIds d d' m c : names d (setIds d' m c) = names d c.
Proof. destruct d, d'; reflexivity. Qed.
Lemma ids_setIds d d' m c : ids d (setIds d' m c) = if Bool.eqb d d' then m else ids d c.
Proof. destruct d, d'; reflexivity. Qed.
Lemma next_setNames d m c : cNext (setNames d m c) = cNext c. Proof. now destruct d. Qed.
Lemma next_setIds d m c : cNext (setIds d m c) = cNext c. Proof. now destruct d. Qed.
Lemma dwarf_setNames d m c : cDwarf (setNames d m c) = cDwarf c. Proof. now destruct d. Qed.
Lemma dwarf_setIds d m c : cDwarf (setIds d m c) = cDwarf c. Proof. now destruct d. Qed.

(** getImageInPath: effect. *)
Lemma inPath_eff w ps d n rs c : let r := getImageInPath w ps d n rs c in
  (forall d', ids d' (fst r) = ids d' c) /\ cDwarf (fst r) = cDwarf c /\ cNext c <= cNext (fst r) /\
  (forall d' k v, mfind (names d' c) k = Some v -> mfind (names d' (fst r)) k = Some v) /\
  (forall d' k v, mfind (names d' (fst r)) k = Some v -> mfind (names d' c) k = Some v \/ (d' = d /\ k = n /\ v = snd r /\ fileR (snd (search w d rs (rev ps) n c)) = (true, fileOf v))) /\
  (forall x, snd r = Some x -> (mfind (names d c) n = Some (Some x)) \/ cNext c <= oId x < cNext (fst r)).
Proof.
  cbv zeta. unfold getImageInPath. destruct (mfind (names d c) n) as [o|] eqn:E; cbn [fst snd].
  { split; [auto|]. split; [reflexivity|]. split; [lia|]. split; [auto|]. split; [auto|]. intros x ->. now left. }
  destruct (search_eff w d rs (rev ps) n c) as [S [F1 F2]]. destruct (search w d rs (rev ps) n c) as [c' [o|o]]; cbn [fst snd resS fileR] in *.
  - split; [intros d'; now apply sameMaps_ids|]. split; [apply S|]. split; [exact F1|]. rewrite ?(sameMaps_names c c' S).
    split; [intros d' k v H; now rewrite (sameMaps_names c c' S)|]. split; [intros d' k v H; left; now rewrite (sameMaps_names c c' S) in H|]. intros x H. right. now apply F2.
  - split; [intros d'; rewrite ids_setNames; now apply sameMaps_ids|]. split; [rewrite dwarf_setNames; apply S|]. rewrite next_setNames. split; [exact F1|].
    split; [|split].
    + intros d' k v H. rewrite names_setNames. destruct (Bool.eqb d' d) eqn:D.
      * apply Bool.eqb_prop in D. subst d'. rewrite mfind_put, (sameMaps_names c c' S). destruct (pathEq n k) eqn:P; [apply pathEq_spec in P; subst; congruence|exact H].
      * now rewrite (sameMaps_names c c' S).
    + intros d' k v H. rewrite names_setNames in H. destruct (Bool.eqb d' d) eqn:D.
      * apply Bool.eqb_prop in D. subst d'. rewrite mfind_put, (sameMaps_names c c' S) in H. destruct (pathEq n k) eqn:P; [apply pathEq_spec in P; subst; inversion H; subst; auto|now left].
      * left. now rewrite (sameMaps_names c c' S) in H.
    + intros x H. right. now apply F2.
Qed.
Lemma byName_eff w d n c : let r := findByName w d n c in
  (forall d', ids d' (fst r) = ids d' c) /\ cDwarf (fst r) = cDwarf c /\ cNext c <= cNext (fst r) /\
  (forall d' k v, mfind (names d' c) k = Some v -> mfind (names d' (fst r)) k = Some v) /\
  (forall d' k v, mfind (names d' (fst r)) k = Some v -> mfind (names d' c) k = Some v \/
      (d' = d /\ k = n /\ v = snd r /\ fileR (snd (search w d false (rev (if d then wDebug w else wExe w)) n c)) = (true, fileOf v))) /\
  (forall x, snd r = Some x -> (mfind (names d c) n = Some (Some x)) \/ cNext c <= oId x < cNext (fst r)).
Proof.
  unfold findByName. destruct d; [apply inPath_eff|]. destruct (oNoLocal w); [|apply inPath_eff]. cbv zeta. cbn [fst snd].
  split; [auto|]. split; [auto|]. split; [lia|]. split; [auto|]. split; [auto|]. discriminate.
Qed.
(** getImageImpl: effect. *)
Definition localPart (w : world) (d : bool) (bid : list Z) (c : ctx) : ctx * option obj :=
  if oNoLocal w then (c, None) else getImageInPath w (if d then wDebugIds w else wExeIds w) d (bidPath d bid) true c.
Lemma local_eff w d bid c : let r := localPart w d bid c in
  (forall d', ids d' (fst r) = ids d' c) /\ cDwarf (fst r) = cDwarf c /\ cNext c <= cNext (fst r) /\
  (forall d' k v, mfind (names d' c) k = Some v -> mfind (names d' (fst r)) k = Some v) /\
  (forall d' k v, mfind (names d' (fst r)) k = Some v -> mfind (names d' c) k = Some v \/
      (d' = d /\ k = bidPath d bid /\ v = snd r /\ fileR (snd (search w d true (rev (if d then wDebugIds w else wExeIds w)) (bidPath d bid) c)) = (true, fileOf v))) /\
  (forall x, snd r = Some x -> (mfind (names d c) (bidPath d bid) = Some (Some x)) \/ cNext c <= oId x < cNext (fst r)).
Proof.
  unfold localPart. destruct (oNoLocal w); [|apply inPath_eff]. cbv zeta. cbn [fst snd].
  split; [auto|]. split; [auto|]. split; [lia|]. split; [auto|]. split; [auto|]. discriminate.
Qed.
Definition remote (w : world) (d : bool) (bid : list Z) (c1 : ctx) (r : option obj) : ctx * option (option obj) :=
  match r with
  | Some o => (c1, Some (Some o))
  | None => if oDebuginfod w then
              match wFetch w d bid with
              | Some p => match openImage w p d c1 with
                          | (c', Some o) => (c', Some (Some o))
                          | (c', None) => (c', None)
                          end
              | None => (c1, Some None)
              end
            else (c1, Some None)
  end.
Lemma byId_eq w d bid c : findById w d bid c =
  if (match bid with [] => true | _ => false end) || oNoIds w then (c, Some None)
  else match mfind (ids d c) bid with
       | Some o => (c, Some o)
       | None => let '(c1, r) := localPart w d bid c in
                 let '(c2, r2) := remote w d bid c1 r in
                 match r2 with Some o => (setIds d (mput (ids d c2) bid o) c2, Some o) | None => (c2, None) end
       end.
Proof. reflexivity. Qed.
Lemma remote_eff w d bid c1 r : let a := remote w d bid c1 r in
  sameMaps c1 (fst a) /\ cNext c1 <= cNext (fst a) /\ (forall x, snd a = Some (Some x) -> r = Some x \/ cNext c1 <= oId x < cNext (fst a)).
Proof.
  cbv zeta. unfold remote. destruct r as [o|]; [cbn; split; [apply sameMaps_refl|split; [lia|]]; intros x H; inversion H; auto|].
  destruct (oDebuginfod w); [|cbn; split; [apply sameMaps_refl|split; [lia|discriminate]]].
  destruct (wFetch w d bid) as [p|]; [|cbn; split; [apply sameMaps_refl|split; [lia|discriminate]]].
  destruct (openImage_eff w p d c1) as [S [F1 F2]]. destruct (openImage w p d c1) as [c' [o|]]; cbn [fst snd] in *; (split; [exact S|split; [exact F1|]]); [|discriminate].
  intros x H. right. apply F2. now inversion H.
Qed.
Lemma byId_eff w d bid c : let r := findById w d bid c in
  cDwarf (fst r) = cDwarf c /\ cNext c <= cNext (fst r) /\
  (forall d' k v, mfind (ids d' c) k = Some v -> mfind (ids d' (fst r)) k = Some v) /\
  (forall d' k v, mfind (ids d' (fst r)) k = Some v -> mfind (ids d' c) k = Some v \/ (d' = d /\ k = bid /\ snd r = Some v)) /\
  (forall d' k v, mfind (names d' c) k = Some v -> mfind (names d' (fst r)) k = Some v) /\
  (forall d' k v, mfind (names d' (fst r)) k = Some v -> mfind (names d' c) k = Some v \/
      (d' = d /\ k = bidPath d bid /\ v = snd (localPart w d bid c) /\ fileR (snd (search w d true (rev (if d then wDebugIds w else wExeIds w)) (bidPath d bid) c)) = (true, fileOf v) /\ cNext (fst (localPart w d bid c)) <= cNext (fst r))) /\
  (forall x, snd r = Some (Some x) -> mfind (ids d c) bid = Some (Some x) \/ mfind (names d c) (bidPath d bid) = Some (Some x) \/ cNext c <= oId x < cNext (fst r)) /\
  (forall o, snd r = Some o -> ((match bid with [] => true | _ => false end) || oNoIds w) = false -> mfind (ids d (fst r)) bid = Some o).
Proof.
  cbv zeta. rewrite byId_eq. destruct (_ || oNoIds w) eqn:G; cbn [fst snd].
  { do 2 (split; [reflexivity || lia|]). do 4 (split; [auto|]). split; [discriminate|]. discriminate. }
  destruct (mfind (ids d c) bid) as [o|] eqn:E; cbn [fst snd].
  { do 2 (split; [reflexivity || lia|]). do 4 (split; [auto|]). split; [intros x H; inversion H; subst; auto|]. intros o' H _. inversion H; subst. exact E. }
  destruct (local_eff w d bid c) as (L1 & L2 & L3 & L4 & L5 & L6). destruct (localPart w d bid c) as [c1 r1]. cbn [fst snd] in *.
  destruct (remote_eff w d bid c1 r1) as (R1 & R2 & R3). destruct (remote w d bid c1 r1) as [c2 r2]. cbn [fst snd] in *.
  assert (D2 : cDwarf c2 = cDwarf c) by (rewrite <- L2; apply R1).
  assert (Rn : forall d', names d' c2 = names d' c1) by (now apply sameMaps_names).
  assert (Ri : forall d', ids d' c2 = ids d' c1) by (now apply sameMaps_ids).
  destruct r2 as [o|]; cbn [fst snd].
  - split; [now rewrite dwarf_setIds|]. rewrite next_setIds. split; [lia|]. split; [|split; [|split; [|split; [|split]]]].
    + intros d' k v H. rewrite ids_setIds. destruct (Bool.eqb d' d) eqn:D; [|rewrite Ri, L1; exact H]. apply Bool.eqb_prop in D. subst d'. rewrite mfind_put, Ri, L1.
      destruct (pathEq bid k) eqn:P; [apply pathEq_spec in P; subst; congruence|exact H].
    + intros d' k v H. rewrite ids_setIds in H. destruct (Bool.eqb d' d) eqn:D; [|rewrite Ri, L1 in H; now left]. apply Bool.eqb_prop in D. subst d'. rewrite mfind_put, Ri, L1 in H.
      destruct (pathEq bid k) eqn:P; [apply pathEq_spec in P; subst; inversion H; subst; auto|now left].
    + intros d' k v H. rewrite names_setIds, Rn. now apply L4.
    + intros d' k v H. rewrite names_setIds, Rn in H. destruct (L5 _ _ _ H) as [X|(X1 & X2 & X3 & X4)]; [now left|right; auto].
    + intros x H. inversion H; subst. destruct (R3 x eq_refl) as [->|X]; [|right; right; lia]. destruct (L6 x eq_refl) as [X|X]; [auto|right; right; lia].
    + intros o' H _. inversion H; subst. rewrite ids_setIds, Bool.eqb_reflx, mfind_put, pathEq_refl. reflexivity.
  - split; [exact D2|]. split; [lia|]. split; [|split; [|split; [|split; [|split]]]].
    + intros d' k v H. now rewrite Ri, L1.
    + intros d' k v H. rewrite Ri, L1 in H. now left.
    + intros d' k v H. rewrite Rn. now apply L4.
    + intros d' k v H. rewrite Rn in H. destruct (L5 _ _ _ H) as [X|(X1 & X2 & X3 & X4)]; [now left|right; auto].
    + discriminate.
    + discriminate.
Qed.
Lemma dwarf_eff o c : let r := findDwarf o c in
  (forall d, names d (fst r) = names d c) /\ (forall d, ids d (fst r) = ids d c) /\ cNext c <= cNext (fst r) /\
  (forall k v, dfind (cDwarf c) k = Some v -> dfind (cDwarf (fst r)) k = Some v) /\
  (forall i, snd r = Ok i -> dfind (cDwarf (fst r)) o = Some i).
Proof.
  cbv zeta. unfold findDwarf. destruct (dfind (cDwarf c) o) as [i|] eqn:E; cbn [fst snd].
  { do 2 (split; [auto|]). split; [lia|]. split; [auto|]. intros i0 H. inversion H; subst. exact E. }
  destruct (o =? 0); cbn [fst snd]. { do 2 (split; [auto|]). split; [lia|]. split; [auto|]. discriminate. }
  split; [intros [|]; reflexivity|]. split; [intros [|]; reflexivity|]. cbn [cNext cDwarf]. split; [lia|]. cbn [dfind]. split.
  - intros k v H. destruct (o =? k) eqn:X; [|exact H]. assert (o = k) by lia. subst. congruence.
  - intros i H. rewrite Z.eqb_refl. now inversion H.
Qed.
Lemma serve_dwarfName w n c : serve w c (QDwarfName n) = (let '(c1, o) := findByName w false n c in match o with None => c1 | Some x => fst (findDwarf (oId x) c1) end).
Proof. unfold serve, findDwarfByName. destruct (findByName w false n c) as [c1 [x|]]; [|reflexivity]. now destruct (findDwarf (oId x) c1). Qed.
Lemma serve_dwarfId w b c : serve w c (QDwarfId b) = (let '(c1, r) := findById w false b c in match r with None => c1 | Some o => fst (findDwarf (idOf o) c1) end).
Proof. unfold serve, findDwarfById. destruct (findById w false b c) as [c1 [x|]]; [|reflexivity]. now destruct (findDwarf (idOf x) c1). Qed.
Definition notFlush (q : request) : Prop := match q with QFlush _ => False | _ => True end.
Lemma serve_keeps w q c : notFlush q ->
  (forall d k v, mfind (ids d c) k = Some v -> mfind (ids d (serve w c q)) k = Some v) /\
  (forall d k v, mfind (names d c) k = Some v -> mfind (names d (serve w c q)) k = Some v) /\
  (forall k v, dfind (cDwarf c) k = Some v -> dfind (cDwarf (serve w c q)) k = Some v).
Proof.
  intros NF. destruct q as [d n|d b|o|o|n|b]; [| |easy| | |].
  - cbn [serve]. destruct (byName_eff w d n c) as (L1 & L2 & L3 & L4 & L5 & L6). split; [intros d' k v H; now rewrite L1|]. split; [exact L4|]. now rewrite L2.
  - cbn [serve]. destruct (byId_eff w d b c) as (L1 & L2 & L3 & L4 & L5 & _). split; [exact L3|]. split; [exact L5|]. now rewrite L1.
  - cbn [serve]. destruct (dwarf_eff o c) as (L1 & L2 & L3 & L4 & _). split; [intros; now rewrite L2|]. split; [intros; now rewrite L1|exact L4].
  - rewrite serve_dwarfName. destruct (byName_eff w false n c) as (L1 & L2 & L3 & L4 & L5 & L6). destruct (findByName w false n c) as [c1 [x|]]; cbn [fst snd] in *.
    + destruct (dwarf_eff (oId x) c1) as (M1 & M2 & M3 & M4 & _). split; [intros; now rewrite M2, L1|]. split; [intros; rewrite M1; now apply L4|]. intros k v H. apply M4. now rewrite L2.
    + split; [intros; now rewrite L1|]. split; [exact L4|]. now rewrite L2.
  - rewrite serve_dwarfId. destruct (byId_eff w false b c) as (L1 & L2 & L3 & L4 & L5 & _). destruct (findById w false b c) as [c1 [x|]]; cbn [fst snd] in *.
    + destruct (dwarf_eff (idOf x) c1) as (M1 & M2 & M3 & M4 & _). split; [intros; rewrite M2; now apply L3|]. split; [intros; rewrite M1; now apply L5|]. intros k v H. apply M4. now rewrite L1.
    + split; [exact L3|]. split; [exact L5|]. now rewrite L1.
Qed.
Lemma history_keeps w h : Forall notFlush h -> forall c,
  (forall d k v, mfind (ids d c) k = Some v -> mfind (ids d (history w h c)) k = Some v) /\
  (forall d k v, mfind (names d c) k = Some v -> mfind (names d (history w h c)) k = Some v) /\
  (forall k v, dfind (cDwarf c) k = Some v -> dfind (cDwarf (history w h c)) k = Some v).
Proof.
  induction 1 as [|q h Q H IH]; intros c; cbn [history fold_left]; [auto|]. destruct (serve_keeps w q c Q) as (A & B & C). destruct (IH (serve w c q)) as (A2 & B2 & C2).
  split; [|split]; intros; [apply A2|apply B2|apply C2]; auto.
Qed.
Lemma id_same w h' d bid c r c1 : Forall notFlush h' -> findById w d bid c = (c1, Some r) ->
  findById w d bid (history w h' c1) = (history w h' c1, Some r).
Proof.
  intros F H. destruct (byId_eff w d bid c) as (_ & _ & _ & _ & _ & _ & _ & K). rewrite H in K. cbn [fst snd] in K.
  destruct (history_keeps w h' F c1) as (A & _ & _). rewrite byId_eq. destruct (_ || oNoIds w) eqn:G.
  - rewrite byId_eq, G in H. now inversion H.
  - now rewrite (A _ _ _ (K r eq_refl eq_refl)).
Qed.
Lemma noEarlyNone w d dirs n : forall c, snd (search w d false dirs n c) <> Early None.
Proof.
  induction dirs as [|dir dirs IH]; intros c; cbn [search]; [discriminate|]. unfold tryDir. cbv zeta.
  destruct (wFile w (join dir n)) as [b|]; [|apply IH]. destruct (if d then None else interpreter b) as [i|].
  - destruct (openImage w i false _) as [c' [o|]]; [cbn; discriminate|apply IH].
  - destruct (wElf w b); [cbn; discriminate|apply IH].
Qed.
Lemma missing_cached w h' d n c c1 : Forall notFlush h' -> findByName w d n c = (c1, None) ->
  findByName w d n (history w h' c1) = (history w h' c1, None).
Proof.
  intros F H. destruct (history_keeps w h' F c1) as (_ & B & _).
  assert (K : forall ps, getImageInPath w ps d n false c = (c1, None) -> getImageInPath w ps d n false (history w h' c1) = (history w h' c1, None)).
  { intros ps Hp. assert (X : mfind (names d c1) n = Some None).
    { unfold getImageInPath in Hp. destruct (mfind (names d c) n) as [o|] eqn:E; [inversion Hp; subst; exact E|].
      pose proof (noEarlyNone w d (rev ps) n c) as NE. destruct (search w d false (rev ps) n c) as [c' [o|o]]; inversion Hp; subst; [now elim NE|].
      rewrite names_setNames, Bool.eqb_reflx, mfind_put, pathEq_refl. reflexivity. }
    unfold getImageInPath. now rewrite (B _ _ _ X). }
  unfold findByName in *. destruct d; [now apply K|]. destruct (oNoLocal w); [reflexivity|now apply K].
Qed.

(** ** Independence of the cache *)
Definition asksName (d : bool) (n : path) (q : request) : Prop := q = QName d n \/ (d = false /\ q = QDwarfName n).
Definition asksId (d : bool) (b : list Z) (q : request) : Prop := q = QId d b \/ (d = false /\ q = QDwarfId b).
Section Indep.
Context (w : world) (Q : request -> Prop).
Hypothesis Hclash : forall d n b q q', Q q -> Q q' -> asksName d n q -> asksId d b q' -> n <> bidPath d b.
Definition ansName (d : bool) (n : path) : option (path * bool) := fileOf (snd (findByName w d n ctx0)).
Definition ansId (d : bool) (b : list Z) : option (option (path * bool)) := option_map fileOf (snd (findById w d b ctx0)).
Definition ansLocal (d : bool) (b : list Z) : option (path * bool) := fileOf (snd (localPart w d b ctx0)).
Definition Inv (c : ctx) : Prop :=
  (forall d k v, mfind (names d c) k = Some v ->
     (forall q, Q q -> asksName d k q -> fileOf v = ansName d k) /\ (forall q b, Q q -> asksId d b q -> k = bidPath d b -> fileOf v = ansLocal d b)) /\
  (forall d b v, mfind (ids d c) b = Some v -> Some (fileOf v) = ansId d b).
Lemma Inv0 : Inv ctx0. Proof. split; intros [|] k v H; discriminate. Qed.
Lemma inPath_ans ps d n rs c : mfind (names d c) n = None -> fileOf (snd (getImageInPath w ps d n rs c)) = fileOf (snd (getImageInPath w ps d n rs ctx0)).
Proof.
  intros E. unfold getImageInPath. rewrite E. replace (mfind (names d ctx0) n) with (@None (option obj)) by (now destruct d).
  pose proof (search_pure w d rs (rev ps) n c ctx0) as P. destruct (search w d rs (rev ps) n c) as [c1 [o|o]], (search w d rs (rev ps) n ctx0) as [c2 [o'|o']]; cbn [snd fileR] in *; inversion P; reflexivity.
Qed.
Lemma inPath_search ps d n rs c v : fileR (snd (search w d rs (rev ps) n c)) = (true, fileOf v) -> fileOf v = fileOf (snd (getImageInPath w ps d n rs ctx0)).
Proof.
  intros H. unfold getImageInPath. replace (mfind (names d ctx0) n) with (@None (option obj)) by (now destruct d).
  pose proof (search_pure w d rs (rev ps) n c ctx0) as P. rewrite H in P. destruct (search w d rs (rev ps) n ctx0) as [c2 [o'|o']]; cbn [snd fileR] in *; inversion P; reflexivity.
Qed.
Lemma name_ans q d n c : Inv c -> Q q -> asksName d n q -> fileOf (snd (findByName w d n c)) = ansName d n.
Proof.
  intros [I1 I2] Hq Ha. destruct (mfind (names d c) n) as [v|] eqn:E.
  - destruct (I1 _ _ _ E) as [A _]. specialize (A q Hq Ha). unfold ansName in *. unfold findByName in *. destruct d; [unfold getImageInPath at 1; rewrite E; exact A|].
    destruct (oNoLocal w); [reflexivity|]. unfold getImageInPath at 1. rewrite E. exact A.
  - unfold ansName, findByName. destruct d; [now apply inPath_ans|]. destruct (oNoLocal w); [reflexivity|now apply inPath_ans].
Qed.
Lemma local_ans q d b c : Inv c -> Q q -> asksId d b q -> fileOf (snd (localPart w d b c)) = ansLocal d b.
Proof.
  intros [I1 I2] Hq Ha. unfold ansLocal, localPart. destruct (oNoLocal w) eqn:NL; [reflexivity|]. destruct (mfind (names d c) (bidPath d b)) as [v|] eqn:E.
  - destruct (I1 _ _ _ E) as [_ A]. specialize (A q b Hq Ha eq_refl). unfold ansLocal, localPart in A. rewrite NL in A. unfold getImageInPath at 1. rewrite E. exact A.
  - now apply inPath_ans.
Qed.
Lemma remote_ans d b c1 c1' r r' : fileOf r = fileOf r' -> option_map fileOf (snd (remote w d b c1 r)) = option_map fileOf (snd (remote w d b c1' r')).
Proof.
  intros H. unfold remote. destruct r as [o|], r' as [o'|]; try discriminate; [cbn [snd option_map]; congruence|].
  destruct (oDebuginfod w); [|reflexivity]. destruct (wFetch w d b) as [p|]; [|reflexivity]. unfold openImage, alloc. destruct (wFile w p) as [x|]; [|reflexivity]. destruct (wElf w x); reflexivity.
Qed.
Lemma id_ans q d b c : Inv c -> Q q -> asksId d b q -> option_map fileOf (snd (findById w d b c)) = ansId d b.
Proof.
  intros I Hq Ha. unfold ansId. rewrite !byId_eq. destruct (_ || oNoIds w) eqn:G; [reflexivity|]. replace (mfind (ids d ctx0) b) with (@None (option obj)) by (now destruct d).
  destruct (mfind (ids d c) b) as [v|] eqn:E.
  - destruct I as [_ I2]. specialize (I2 _ _ _ E). unfold ansId in I2. rewrite byId_eq, G in I2. replace (mfind (ids d ctx0) b) with (@None (option obj)) in I2 by (now destruct d). exact I2.
  - pose proof (local_ans q d b c I Hq Ha) as L. unfold ansLocal in L. destruct (localPart w d b c) as [c1 r1], (localPart w d b ctx0) as [c1' r1']. cbn [snd] in L.
    pose proof (remote_ans d b c1 c1' r1 r1' L) as R. destruct (remote w d b c1 r1) as [c2 r2], (remote w d b c1' r1') as [c2' r2']. cbn [snd] in R.
    destruct r2, r2'; cbn [option_map] in R; inversion R; cbn [snd option_map]; congruence.
Qed.
Lemma Inv_name q d n c : Inv c -> Q q -> asksName d n q -> Inv (fst (findByName w d n c)).
Proof.
  intros I Hq Ha. pose proof (name_ans q d n c I Hq Ha) as A. destruct I as [I1 I2]. destruct (byName_eff w d n c) as (L1 & L2 & L3 & L4 & L5 & L6). split.
  - intros d' k v H. apply L5 in H as [H|(-> & -> & -> & S)]; [now apply I1|]. split.
    + intros q' Hq' Ha'. exact A.
    + intros q' b Hq' Ha' E. exfalso. eapply Hclash; [exact Hq|exact Hq'|exact Ha|exact Ha'|exact E].
  - intros d' b v H. rewrite L1 in H. now apply I2.
Qed.
Lemma Inv_id q d b c : Inv c -> Q q -> asksId d b q -> Inv (fst (findById w d b c)).
Proof.
  intros I Hq Ha. pose proof (id_ans q d b c I Hq Ha) as A. pose proof (local_ans q d b c I Hq Ha) as B. destruct I as [I1 I2].
  destruct (byId_eff w d b c) as (L1 & L2 & L3 & L4 & L5 & L6 & L7 & L8). split.
  - intros d' k v H. apply L6 in H as [H|(-> & -> & -> & S & _)]; [now apply I1|]. split.
    + intros q' Hq' Ha'. exfalso. eapply Hclash; [exact Hq'|exact Hq|exact Ha'|exact Ha|reflexivity].
    + intros q' b' Hq' Ha' E. rewrite B. unfold ansLocal, localPart. now rewrite E.
  - intros d' k v H. apply L4 in H as [H|(-> & -> & S)]; [now apply I2|]. rewrite S in A. exact A.
Qed.
Lemma mfind_flush_sub o m k v : mfind (flushMap o m) k = Some v -> NoDup (map fst m) -> mfind m k = Some v.
Proof.
  intros H ND. apply mfind_in in H. unfold flushMap in H. apply filter_In in H as [H _]. revert H ND. clear. induction m as [|[a x] m IH]; intros H ND; [easy|]. cbn [mfind]. inversion ND; subst.
  destruct H as [H|H]; [inversion H; subst; now rewrite pathEq_refl|]. destruct (pathEq a k) eqn:E; [|now apply IH]. apply pathEq_spec in E. subst a. exfalso. apply H2. change k with (fst (k, v)). now apply in_map.
Qed.
End Indep.
Definition keysOk (c : ctx) : Prop := forall d, NoDup (map fst (names d c)) /\ NoDup (map fst (ids d c)).
Lemma mput_nodup m k v : NoDup (map fst m) -> NoDup (map fst (mput m k v)).
Proof.
  intros H. unfold mput. cbn [map fst]. constructor.
  - intros X. apply in_map_iff in X as ([a x] & E & Y). apply filter_In in Y as [_ Y]. cbn [fst] in *. subst. now rewrite pathEq_refl in Y.
  - induction m as [|[a x] m IH]; cbn [filter map fst]; [constructor|]. inversion H; subst. destruct (pathEq a k); cbn [negb map fst]; [auto|]. constructor; [|auto].
    intros X. apply H2. apply in_map_iff in X as (e & E & Y). apply filter_In in Y as [Y _]. rewrite <- E. now apply in_map.
Qed.
Lemma inPath_maps w ps d n rs c : let r := fst (getImageInPath w ps d n rs c) in (forall d', names d' r = names d' c) \/ exists o, forall d', names d' r = if Bool.eqb d' d then mput (names d c) n o else names d' c.
Proof.
  cbv zeta. unfold getImageInPath. destruct (mfind (names d c) n); [now left|]. destruct (search_eff w d rs (rev ps) n c) as [S _].
  destruct (search w d rs (rev ps) n c) as [c' [o|o]]; cbn [fst] in *; [left; now apply sameMaps_names|]. right. exists o. intros d'. rewrite names_setNames, !(sameMaps_names c c' S). reflexivity.
Qed.
Lemma keys_inPath w ps d n rs c : keysOk c -> keysOk (fst (getImageInPath w ps d n rs c)).
Proof.
  intros K d'. destruct (inPath_eff w ps d n rs c) as (L1 & _). rewrite L1. split; [|apply K]. destruct (inPath_maps w ps d n rs c) as [H|[o H]]; rewrite H; [apply K|].
  destruct (Bool.eqb d' d); [apply mput_nodup|]; apply K.
Qed.
Lemma keys_name w d n c : keysOk c -> keysOk (fst (findByName w d n c)).
Proof. intros K. unfold findByName. destruct d; [now apply keys_inPath|]. destruct (oNoLocal w); [exact K|now apply keys_inPath]. Qed.
Lemma keys_id w d b c : keysOk c -> keysOk (fst (findById w d b c)).
Proof.
  intros K. rewrite byId_eq. destruct (_ || oNoIds w); [exact K|]. destruct (mfind (ids d c) b); [exact K|].
  assert (K1 : keysOk (fst (localPart w d b c))) by (unfold localPart; destruct (oNoLocal w); [exact K|now apply keys_inPath]). destruct (localPart w d b c) as [c1 r1]. cbn [fst] in K1.
  destruct (remote_eff w d b c1 r1) as (S & _). destruct (remote w d b c1 r1) as [c2 r2]. cbn [fst] in S.
  assert (K2 : keysOk c2) by (intros d'; rewrite (sameMaps_names _ _ S), (sameMaps_ids _ _ S); apply K1).
  destruct r2 as [o|]; [|exact K2]. cbn [fst]. intros d'. rewrite names_setIds, ids_setIds. split; [apply K2|]. destruct (Bool.eqb d' d); [apply mput_nodup|]; apply K2.
Qed.
Lemma keys_flush o c : keysOk c -> keysOk (flush o c).
Proof.
  intros K d. assert (N : forall m : omap, NoDup (map fst m) -> NoDup (map fst (flushMap o m))).
  { induction m as [|e m IH]; intros H; cbn [flushMap filter map]; [constructor|]. inversion H; subst. destruct (isObj o (snd e)); cbn [negb map]; [now apply IH|]. constructor; [|now apply IH].
    intros X. apply H2. apply in_map_iff in X as (e' & E & Y). unfold flushMap in Y. apply filter_In in Y as [Y _]. rewrite <- E. now apply in_map. }
  destruct d; (split; apply N; apply (K true) || apply (K false)).
Qed.
Lemma keys_dwarf o c : keysOk c -> keysOk (fst (findDwarf o c)).
Proof. intros K d. destruct (dwarf_eff o c) as (L1 & L2 & _). rewrite L1, L2. apply K. Qed.
Lemma keys_serve w q c : keysOk c -> keysOk (serve w c q).
Proof.
  intros K. destruct q as [d n|d b|o|o|n|b]; [now apply keys_name|now apply keys_id|now apply keys_flush|now apply keys_dwarf| |].
  - rewrite serve_dwarfName. pose proof (keys_name w false n c K) as K1. destruct (findByName w false n c) as [c1 [x|]]; cbn [fst] in K1; [now apply keys_dwarf|exact K1].
  - rewrite serve_dwarfId. pose proof (keys_id w false b c K) as K1. destruct (findById w false b c) as [c1 [x|]]; cbn [fst] in K1; [now apply keys_dwarf|exact K1].
Qed.
Lemma keys0 : keysOk ctx0. Proof. intros [|]; split; constructor. Qed.
Section Indep2.
Context (w : world) (Q : request -> Prop).
Hypothesis Hclash : forall d n b q q', Q q -> Q q' -> asksName d n q -> asksId d b q' -> n <> bidPath d b.
Lemma Inv_dwarf o c : Inv w Q c -> Inv w Q (fst (findDwarf o c)).
Proof. intros [I1 I2]. destruct (dwarf_eff o c) as (L1 & L2 & _). split; intros d k v H; [rewrite L1 in H; now apply I1|rewrite L2 in H; now apply I2]. Qed.
Lemma Inv_serve q c : Q q -> keysOk c -> Inv w Q c -> Inv w Q (serve w c q).
Proof.
  intros Hq K I. destruct q as [d n|d b|o|o|n|b].
  - cbn [serve]. apply Inv_name with (q := QName d n); auto. now left.
  - cbn [serve]. apply Inv_id with (q := QId d b); auto. now left.
  - cbn [serve]. destruct I as [I1 I2]. split.
    + intros d k v H. apply I1. destruct d; cbn [flush names cDbgN cExeN] in *; (eapply mfind_flush_sub; [exact H|]); [apply (K true)|apply (K false)].
    + intros d k v H. apply I2. destruct d; cbn [flush ids cDbgI cExeI] in *; (eapply mfind_flush_sub; [exact H|]); [apply (K true)|apply (K false)].
  - cbn [serve]. now apply Inv_dwarf.
  - rewrite serve_dwarfName. assert (A : asksName false n (QDwarfName n)) by (right; auto). pose proof (Inv_name w Q Hclash _ _ _ _ I Hq A) as I'.
    destruct (findByName w false n c) as [c1 [x|]]; cbn [fst] in I'; [now apply Inv_dwarf|exact I'].
  - rewrite serve_dwarfId. assert (A : asksId false b (QDwarfId b)) by (right; auto). pose proof (Inv_id w Q Hclash _ _ _ _ I Hq A) as I'.
    destruct (findById w false b c) as [c1 [x|]]; cbn [fst] in I'; [now apply Inv_dwarf|exact I'].
Qed.
Lemma Inv_history h : Forall Q h -> forall c, keysOk c -> Inv w Q c -> Inv w Q (history w h c).
Proof. induction 1 as [|q h Hq H IH]; intros c K I; cbn [history fold_left]; [exact I|]. apply IH; [now apply keys_serve|now apply Inv_serve]. Qed.
End Indep2.

(** ** Flushed objects are gone *)
Definition absent (o : Z) (c : ctx) : Prop :=
  0 < o < cNext c /\ (forall d k x, mfind (names d c) k = Some (Some x) -> oId x <> o) /\ (forall d k x, mfind (ids d c) k = Some (Some x) -> oId x <> o).
Lemma flush_absent o c : 0 < o < cNext c -> absent o (flush o c).
Proof.
  intros H. split; [exact H|]. split; intros d k x E.
  - destruct d; cbn [flush names cDbgN cExeN] in E; apply mfind_flush in E as (v & _ & E); cbn [isObj] in E; lia.
  - destruct d; cbn [flush ids cDbgI cExeI] in E; apply mfind_flush in E as (v & _ & E); cbn [isObj] in E; lia.
Qed.
Lemma absent_name w o d n c : absent o c -> absent o (fst (findByName w d n c)) /\ idOf (snd (findByName w d n c)) <> o.
Proof.
  intros (A1 & A2 & A3). destruct (byName_eff w d n c) as (L1 & L2 & L3 & L4 & L5 & L6).
  assert (R : forall x, snd (findByName w d n c) = Some x -> oId x <> o) by (intros x H; destruct (L6 x H) as [X|X]; [eapply A2; exact X|lia]).
  split.
  - split; [lia|]. split; intros d' k x E.
    + apply L5 in E as [E|(_ & _ & E & _)]; [eapply A2; exact E|]. now apply R.
    + rewrite L1 in E. eapply A3; exact E.
  - destruct (snd (findByName w d n c)) as [x|]; cbn [idOf]; [now apply R|lia].
Qed.
Lemma absent_id w o d b c : absent o c -> absent o (fst (findById w d b c)) /\ (forall r, snd (findById w d b c) = Some r -> idOf r <> o).
Proof.
  intros (A1 & A2 & A3). destruct (byId_eff w d b c) as (L1 & L2 & L3 & L4 & L5 & L6 & L7 & L8). destruct (local_eff w d b c) as (_ & _ & M3 & _ & _ & M6).
  assert (R : forall x, snd (findById w d b c) = Some (Some x) -> oId x <> o) by (intros x H; destruct (L7 x H) as [X|[X|X]]; [eapply A3; exact X|eapply A2; exact X|lia]).
  split.
  - split; [lia|]. split; intros d' k x E.
    + apply L6 in E as [E|(_ & _ & E & _ & _)]; [eapply A2; exact E|]. symmetry in E. destruct (M6 x E) as [X|X]; [eapply A2; exact X|lia].
    + apply L4 in E as [E|(_ & _ & E)]; [eapply A3; exact E|now apply R].
  - intros [x|] H; cbn [idOf]; [now apply R|lia].
Qed.
Lemma absent_dwarf o i c : absent o c -> absent o (fst (findDwarf i c)).
Proof. intros (A1 & A2 & A3). destruct (dwarf_eff i c) as (L1 & L2 & L3 & _). split; [lia|]. split; intros d k x E; [rewrite L1 in E; eapply A2; exact E|rewrite L2 in E; eapply A3; exact E]. Qed.
Lemma absent_flush o p c : absent o c -> keysOk c -> absent o (flush p c).
Proof.
  intros (A1 & A2 & A3) K. split; [exact A1|]. split; intros d k x E.
  - eapply A2 with (d := d) (k := k). destruct d; cbn [flush names cDbgN cExeN] in *; (eapply mfind_flush_sub; [exact E|]); [apply (K true)|apply (K false)].
  - eapply A3 with (d := d) (k := k). destruct d; cbn [flush ids cDbgI cExeI] in *; (eapply mfind_flush_sub; [exact E|]); [apply (K true)|apply (K false)].
Qed.
Lemma absent_serve w o q c : absent o c -> keysOk c -> absent o (serve w c q).
Proof.
  intros A K. destruct q as [d n|d b|p|p|n|b]; [now apply absent_name|now apply absent_id|now apply absent_flush|now apply absent_dwarf| |].
  - rewrite serve_dwarfName. destruct (absent_name w o false n c A) as [A' _]. destruct (findByName w false n c) as [c1 [x|]]; cbn [fst] in A'; [now apply absent_dwarf|exact A'].
  - rewrite serve_dwarfId. destruct (absent_id w o false b c A) as [A' _]. destruct (findById w false b c) as [c1 [x|]]; cbn [fst] in A'; [now apply absent_dwarf|exact A'].
Qed.
Lemma absent_history w o h : forall c, absent o c -> keysOk c -> absent o (history w h c).
Proof. induction h as [|q h IH]; intros c A K; cbn [history fold_left]; [exact A|]. apply IH; [now apply absent_serve|now apply keys_serve]. Qed.
Lemma keys_history w h : forall c, keysOk c -> keysOk (history w h c).
Proof. induction h as [|q h IH]; intros c K; cbn [history fold_left]; [exact K|]. apply IH. now apply keys_serve. Qed.
(** Identities are below the next one. *)
Definition bounded (c : ctx) : Prop := 0 < cNext c /\ (forall d k x, mfind (names d c) k = Some (Some x) -> 0 < oId x < cNext c) /\ (forall d k x, mfind (ids d c) k = Some (Some x) -> 0 < oId x < cNext c).
Lemma bounded_name w d n c : bounded c -> bounded (fst (findByName w d n c)) /\ (forall x, snd (findByName w d n c) = Some x -> 0 < oId x < cNext (fst (findByName w d n c))).
Proof.
  intros (A0 & A2 & A3). destruct (byName_eff w d n c) as (L1 & L2 & L3 & L4 & L5 & L6).
  assert (R : forall x, snd (findByName w d n c) = Some x -> 0 < oId x < cNext (fst (findByName w d n c))) by (intros x H; destruct (L6 x H) as [X|X]; [specialize (A2 _ _ _ X)|]; lia).
  split; [|exact R]. split; [lia|]. split; intros d' k x E.
  - apply L5 in E as [E|(_ & _ & E & _)]; [specialize (A2 _ _ _ E); lia|]. now apply R.
  - rewrite L1 in E. specialize (A3 _ _ _ E). lia.
Qed.
Lemma bounded_id w d b c : bounded c -> bounded (fst (findById w d b c)) /\ (forall x, snd (findById w d b c) = Some (Some x) -> 0 < oId x < cNext (fst (findById w d b c))).
Proof.
  intros (A0 & A2 & A3). destruct (byId_eff w d b c) as (L1 & L2 & L3 & L4 & L5 & L6 & L7 & L8).
  assert (R : forall x, snd (findById w d b c) = Some (Some x) -> 0 < oId x < cNext (fst (findById w d b c)))
    by (intros x H; destruct (L7 x H) as [X|[X|X]]; [specialize (A3 _ _ _ X)|specialize (A2 _ _ _ X)|]; lia).
  split; [|exact R]. split; [lia|]. split; intros d' k x E.
  - apply L6 in E as [E|(_ & _ & E & S & Y)]; [specialize (A2 _ _ _ E); lia|]. symmetry in E.
    destruct (local_eff w d b c) as (_ & _ & M3 & _ & _ & M6). destruct (M6 x E) as [X|X]; [specialize (A2 _ _ _ X); lia|].
    lia.
  - apply L4 in E as [E|(_ & _ & E)]; [specialize (A3 _ _ _ E); lia|now apply R].
Qed.
Lemma bounded_dwarf o c : bounded c -> bounded (fst (findDwarf o c)).
Proof. intros (A0 & A2 & A3). destruct (dwarf_eff o c) as (L1 & L2 & L3 & _). split; [lia|]. split; intros d k x E; [rewrite L1 in E; specialize (A2 _ _ _ E)|rewrite L2 in E; specialize (A3 _ _ _ E)]; lia. Qed.
Lemma bounded_flush p c : bounded c -> keysOk c -> bounded (flush p c).
Proof.
  intros (A0 & A2 & A3) K. split; [exact A0|]. split; intros d k x E.
  - eapply A2 with (d := d) (k := k). destruct d; cbn [flush names cDbgN cExeN] in *; (eapply mfind_flush_sub; [exact E|]); [apply (K true)|apply (K false)].
  - eapply A3 with (d := d) (k := k). destruct d; cbn [flush ids cDbgI cExeI] in *; (eapply mfind_flush_sub; [exact E|]); [apply (K true)|apply (K false)].
Qed.
Lemma bounded_serve w q c : bounded c -> keysOk c -> bounded (serve w c q).
Proof.
  intros A K. destruct q as [d n|d b|p|p|n|b]; [now apply bounded_name|now apply bounded_id|now apply bounded_flush|now apply bounded_dwarf| |].
  - rewrite serve_dwarfName. destruct (bounded_name w false n c A) as [A' _]. destruct (findByName w false n c) as [c1 [x|]]; cbn [fst] in A'; [now apply bounded_dwarf|exact A'].
  - rewrite serve_dwarfId. destruct (bounded_id w false b c A) as [A' _]. destruct (findById w false b c) as [c1 [x|]]; cbn [fst] in A'; [now apply bounded_dwarf|exact A'].
Qed.
Lemma bounded_history w h : forall c, bounded c -> keysOk c -> bounded (history w h c).
Proof. induction h as [|q h IH]; intros c A K; cbn [history fold_left]; [exact A|]. apply IH; [now apply bounded_serve|now apply keys_serve]. Qed.
Lemma bounded0 : bounded ctx0. Proof. split; [reflexivity|]. split; intros [|] k x H; discriminate. Qed.
