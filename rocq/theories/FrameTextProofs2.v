(** Proofs: inlined calls, the offset in the function, the text of frames. *)
From Coq Require Import Ascii String.
From Verif Require Import Base DwarfReader MapsSpec Json Lines Die DieAttr DieAttrSpec DieAttrProofs Args ArgsSpec ArgsProofs FrameText FrameTextSpec FrameTextProofs.

Lemma fop_inv {X} (R : X -> X -> Prop) x l : ForallOrdPairs R (x :: l) -> Forall (R x) l /\ ForallOrdPairs R l.
Proof. intros H. inversion H; auto. Qed.

Section Hits.
Context (cov : Z -> contains) (tag : Z -> Z) (want : Z).
Fixpoint hitsT (t : ftree) : list Z :=
  match t with
  | FT o ks => match cov o with
               | NO => []
               | YES => (if tag o =? want then [o] else []) ++ flat_map hitsT ks
               | UNKNOWN => flat_map hitsT ks
               end
  end.
Let alive (anc : list Z) : bool := forallb (fun a => negb (isNO (cov a))) anc.
Lemma filter_flat {X Y} (g : Y -> bool) (f : X -> list Y) (l : list X) : filter g (flat_map f l) = flat_map (fun x => filter g (f x)) l.
Proof. induction l as [|x l IH]; [reflexivity|]. cbn [flat_map]. rewrite filter_app. now rewrite IH. Qed.
Lemma map_flat {X Y Z'} (g : Y -> Z') (f : X -> list Y) (l : list X) : map g (flat_map f l) = flat_map (fun x => map g (f x)) l.
Proof. induction l as [|x l IH]; [reflexivity|]. cbn [flat_map]. rewrite map_app. now rewrite IH. Qed.
Lemma hits_anc t : forall anc, map snd (filter (hit cov tag want) (preorder anc t)) = if alive anc then hitsT t else [].
Proof.
  induction t as [o ks IH] using ftree_ind'. intros anc. cbn [preorder filter hitsT]. unfold hit at 1. cbn [fst snd]. fold (alive anc).
  assert (K : map snd (filter (hit cov tag want) (flat_map (preorder (anc ++ [o])) ks)) = if alive (anc ++ [o]) then flat_map hitsT ks else []).
  { rewrite filter_flat, map_flat. induction IH as [|k ks Hk _ IHks]; [now destruct (alive (anc ++ [o]))|]. cbn [flat_map]. rewrite Hk, IHks.
    destruct (alive (anc ++ [o])); reflexivity. }
  unfold alive in K at 1. rewrite forallb_app in K. fold (alive anc) in K. cbn [forallb] in K. rewrite andb_true_r in K.
  destruct (alive anc); cbn [andb] in *; [|exact K]. destruct (cov o); cbn [isNO isYES negb andb] in *.
  - exact K.
  - destruct (tag o =? want); cbn [map snd app]; [now rewrite K|exact K].
  - exact K.
Qed.
Lemma hitsIn_T t : hitsIn cov tag want t = hitsT t.
Proof. unfold hitsIn. now rewrite hits_anc. Qed.
Lemma hitsBelow_T o ks : hitsBelow cov tag want (FT o ks) = if isNO (cov o) then [] else flat_map hitsT ks.
Proof.
  unfold hitsBelow. cbn [preorder tl app]. rewrite filter_flat, map_flat. transitivity (flat_map (fun k => if isNO (cov o) then [] else hitsT k) ks).
  - apply flat_map_ext. intros k. rewrite hits_anc. unfold alive. cbn [forallb]. now destruct (cov o).
  - destruct (isNO (cov o)); [|reflexivity]. induction ks; [reflexivity|exact IHks].
Qed.
Lemma one_kid o ks k : oneBranch cov tag want (FT o ks) -> In k ks -> oneBranch cov tag want k.
Proof. intros H I x l S. apply (H x l). now apply stKid with k. Qed.
Lemma flat_nil {X} (f : X -> list Z) l : (forall x, In x l -> f x = []) -> flat_map f l = [].
Proof. induction l as [|x l IH]; intros H; [reflexivity|]. cbn [flat_map]. rewrite (H x) by now left. apply IH. intros y Hy. apply H. now right. Qed.
Definition found (r : option Z) (roots : list ftree) (hs : list Z) : Prop :=
  match r with
  | None => hs = []
  | Some i => exists ksi k, In k roots /\ subTree (FT i ksi) k /\ cov i = YES /\ hs = i :: flat_map hitsT ksi
  end.
Lemma search_hits t : oneBranch cov tag want t -> found (search cov tag want t false) [t] (hitsT t).
Proof.
  induction t as [o ks IH] using ftree_ind'. intros Hb. cbn [search hitsT].
  assert (K : found ((fix go l := match l with [] => None | k :: r => match search cov tag want k false with Some x => Some x | None => go r end end) ks) ks (flat_map hitsT ks)).
  { pose proof (Hb o ks (stRefl _)) as Hp. assert (Hk : forall k, In k ks -> oneBranch cov tag want k) by (intros k; apply (one_kid o ks k Hb)).
    clear Hb. induction IH as [|k ks Hs _ IHks]; [reflexivity|]. cbn [flat_map]. specialize (Hs (Hk k (or_introl eq_refl))).
    apply fop_inv in Hp as [H1 H2]. destruct (search cov tag want k false) as [i|].
    - destruct Hs as (ksi & k' & [<-|[]] & S & C & E). exists ksi, k. split; [now left|]. split; [exact S|]. split; [exact C|].
      assert (Z0 : flat_map hitsT ks = []).
      { apply flat_nil. intros x Hx. rewrite Forall_forall in H1. destruct (H1 x Hx) as [X|X]; rewrite hitsIn_T in X; [rewrite X in E; discriminate|exact X]. }
      rewrite Z0, app_nil_r. exact E.
    - cbn [found] in Hs. rewrite Hs. cbn [app]. specialize (IHks H2 (fun x Hx => Hk x (or_intror Hx))).
      destruct ((fix go l := match l with [] => None | k :: r => match search cov tag want k false with Some x => Some x | None => go r end end) ks) as [i|].
      + destruct IHks as (ksi & k' & I & S & C & E). exists ksi, k'. split; [now right|]. auto.
      + exact IHks. }
  destruct (cov o) eqn:C.
  - reflexivity.
  - cbn [negb andb]. destruct (tag o =? want).
    + exists ks, (FT o ks). split; [now left|]. split; [constructor|]. split; [exact C|reflexivity].
    + cbn [app]. destruct ((fix go l := match l with [] => None | k :: r => match search cov tag want k false with Some x => Some x | None => go r end end) ks) as [i|]; [|exact K].
      destruct K as (ksi & k' & I & S & C' & E). exists ksi, (FT o ks). split; [now left|]. split; [now apply stKid with k'|]. auto.
  - destruct ((fix go l := match l with [] => None | k :: r => match search cov tag want k false with Some x => Some x | None => go r end end) ks) as [i|]; [|exact K].
    destruct K as (ksi & k' & I & S & C' & E). exists ksi, (FT o ks). split; [now left|]. split; [now apply stKid with k'|]. auto.
Qed.
Lemma search_below o ks : oneBranch cov tag want (FT o ks) -> isNO (cov o) = false -> found (search cov tag want (FT o ks) true) ks (flat_map hitsT ks).
Proof.
  intros Hb Hn. cbn [search negb andb].
  assert (K : found ((fix go l := match l with [] => None | k :: r => match search cov tag want k false with Some x => Some x | None => go r end end) ks) ks (flat_map hitsT ks)).
  { pose proof (Hb o ks (stRefl _)) as Hp. assert (Hk : forall k, In k ks -> oneBranch cov tag want k) by (intros k; apply (one_kid o ks k Hb)).
    clear Hb. induction ks as [|k ks IHks]; [reflexivity|]. cbn [flat_map]. pose proof (search_hits k (Hk k (or_introl eq_refl))) as Hs.
    apply fop_inv in Hp as [H1 H2]. destruct (search cov tag want k false) as [i|].
    - destruct Hs as (ksi & k' & [<-|[]] & S & C & E). exists ksi, k. split; [now left|]. split; [exact S|]. split; [exact C|].
      assert (Z0 : flat_map hitsT ks = []).
      { apply flat_nil. intros x Hx. rewrite Forall_forall in H1. destruct (H1 x Hx) as [X|X]; rewrite hitsIn_T in X; [rewrite X in E; discriminate|exact X]. }
      rewrite Z0, app_nil_r. exact E.
    - cbn [found] in Hs. rewrite Hs. cbn [app]. specialize (IHks H2 (fun x Hx => Hk x (or_intror Hx))).
      destruct ((fix go l := match l with [] => None | k :: r => match search cov tag want k false with Some x => Some x | None => go r end end) ks) as [i|].
      + destruct IHks as (ksi & k' & I & S & C & E). exists ksi, k'. split; [now right|]. auto.
      + exact IHks. }
  destruct (cov o); [discriminate|exact K|exact K].
Qed.
End Hits.

Fixpoint tsize (t : ftree) : nat := match t with FT _ ks => S (fold_right (fun k n => (tsize k + n)%nat) 0%nat ks) end.
Lemma kid_size o ks k : In k ks -> (tsize k < tsize (FT o ks))%nat.
Proof.
  intros I. cbn [tsize]. apply Nat.lt_succ_r. induction ks as [|x ks IH]; [destruct I|]. cbn [fold_right].
  destruct I as [->|I]; [lia|]. specialize (IH I). lia.
Qed.
Lemma sub_size t t' : subTree t t' -> (tsize t <= tsize t')%nat.
Proof. induction 1 as [t|o ks k t I S IH]; [lia|]. pose proof (kid_size o ks k I). lia. Qed.
Lemma sub_trans a b c : subTree a b -> subTree b c -> subTree a c.
Proof. intros H1 H2. induction H2 as [t|o ks k t I S IH]; [exact H1|]. apply stKid with k; auto. Qed.
Lemma sub_in o ks t : subTree (FT o ks) t -> inF o t.
Proof. intros H. remember (FT o ks) as x. induction H as [t|o' ks' k t I S IH]; [subst; constructor|]. apply InFK with k; auto. Qed.
Lemma inF_trans o t t' : inF o t -> subTree t t' -> inF o t'.
Proof. intros H S. induction S as [t|o' ks' k t I S IH]; [exact H|]. apply InFK with k; auto. Qed.

Section Chain.
Context (ents : Z -> option entry) (units : Z -> uenv) (s : secs) (treeAt : Z -> option ftree) (fuel : nat) (a : Z) (cov : Z -> contains).
Lemma inlined_ok n : forall t c, (tsize t <= n)%nat -> cacheOk ents units s fuel c ->
  (forall o ks, subTree (FT o ks) t -> treeAt o = Some (FT o ks)) ->
  (forall o, inF o t -> snd (containsAddress ents units s fuel (fun _ => None) o a) = Ok (cov o)) ->
  oneBranch cov (tagOf ents) 0x1d t -> cov (offOf t) <> NO ->
  snd (inlinedAt ents units s treeAt n fuel c (offOf t) a) = Ok (hitsBelow cov (tagOf ents) 0x1d t).
Proof.
  induction n as [|n IH]; intros [o ks] c Hs C HT HC Hb HN; [cbn in Hs; lia|]. cbn [offOf] in *. cbn [inlinedAt]. rewrite (HT o ks (stRefl _)).
  destruct (findEntry_search ents units s fuel a 0x1d cov (FT o ks) HC c true C) as [F1 F2].
  assert (HN' : isNO (cov o) = false) by (now destruct (cov o)).
  pose proof (search_below cov (tagOf ents) 0x1d o ks Hb HN') as Fd. rewrite hitsBelow_T, HN'.
  destruct (findEntry ents units s fuel a 29 c (FT o ks) true) as [c' r]. cbn [fst snd] in *. subst r.
  destruct (search cov (tagOf ents) 29 (FT o ks) true) as [i|]; [|cbn [found] in Fd; now rewrite Fd].
  destruct Fd as (ksi & k & I & S & Ci & E). rewrite E.
  assert (S' : subTree (FT i ksi) (FT o ks)) by (now apply stKid with k).
  assert (X : snd (inlinedAt ents units s treeAt n fuel c' i a) = Ok (hitsBelow cov (tagOf ents) 29 (FT i ksi))).
  { apply (IH (FT i ksi) c'); try assumption.
    - pose proof (sub_size _ _ S). pose proof (kid_size o ks k I). lia.
    - intros o' ks' S1. apply HT. now apply sub_trans with (FT i ksi).
    - intros o' I'. apply HC. now apply inF_trans with (FT i ksi).
    - intros o' ks' S1. apply (Hb o' ks'). now apply sub_trans with (FT i ksi).
    - cbn [offOf]. congruence. }
  rewrite hitsBelow_T, Ci in X. cbn [isNO] in X. destruct (inlinedAt ents units s treeAt n fuel c' i a) as [c2 r2]. cbn [snd] in *. subst r2. reflexivity.
Qed.
End Chain.

(** ** Text *)
Lemma num_canon base s v : 2 <= base -> numeral base s v -> exists k c, s = repeat 48 k ++ c /\ canonical base c v.
Proof.
  intros Hb N. induction N as [c d D|s v c d N IH D].
  - exists 0%nat, [c]. split; [reflexivity|]. split; [now constructor|]. cbn. intros ->. reflexivity.
  - destruct IH as (k & c0 & -> & C0 & C1). destruct (Z.eq_dec (hd 0 c0) 48) as [E|E].
    + rewrite (C1 E) in *. exists (S k), [c]. split; [replace (S k) with (k + 1)%nat by lia; rewrite repeat_app, <- !app_assoc; reflexivity|].
      assert (v = 0). { inversion C0 as [c' d' D'|s0 v0 c' d' N' D' E1 E2]; subst; [destruct D' as [_ [[? ?]|[? ?]]]; lia|]. exfalso. apply (num_ne _ _ _ N'). destruct s0; [reflexivity|]. destruct s0; discriminate. }
      subst v. split; [replace (0 * base + d) with d by lia; now constructor|]. cbn. intros ->. reflexivity.
    + exists k, (c0 ++ [c]). split; [now rewrite app_assoc|]. split; [now constructor|]. intros X. exfalso. apply E. pose proof (num_ne _ _ _ C0). destruct c0; [easy|exact X].
Qed.
Lemma hex16_ok s v : numeral 16 s v -> length s = 16%nat -> 0 <= v < W64 -> hex16 v = s.
Proof.
  intros N L R. destruct (num_canon 16 s v ltac:(lia) N) as (k & c & -> & C). unfold hex16. rewrite hexText_num.
  rewrite (numText_canon 16 ltac:(lia) 16 c v ltac:(lia) C) by (unfold W64 in R; change (16 ^ Z.of_nat 16) with 18446744073709551616; lia).
  rewrite app_length, repeat_length in L. f_equal. f_equal. lia.
Qed.
Lemma hexText_ok s v : canonical 16 s v -> 0 <= v < W64 -> hexText 16 v = s.
Proof. intros C R. rewrite hexText_num. apply (numText_canon 16); [lia|lia|exact C|]. unfold W64 in R. change (16 ^ Z.of_nat 16) with 18446744073709551616. lia. Qed.
Lemma decText_ok s v : canonical 10 s v -> 0 <= v < W64 -> decText 20 v = s.
Proof. intros C R. rewrite decText_num by lia. apply (numText_canon 10); [lia|lia|exact C|]. unfold W64 in R. change (10 ^ Z.of_nat 20) with 100000000000000000000. lia. Qed.

Section Text.
Context (o : fopts) (no : Z) (not : list Z) (Hno : decimal not no) (Rno : 0 <= no < 2 ^ 31).
(** What is written for a place. *)
Definition written (p : list Z * Z) (q : place) : Prop := fst q = fst p /\ decimal (snd q) (snd p) /\ - 2 ^ 31 <= snd p < 2 ^ 31.
(** An inlined call of which everything is known, its name and the place of the call. *)
Inductive siteOk : inl -> list Z -> place -> Prop :=
| SiteOk i n b li file q : inName i = (n, Ok b) -> inLines i = Some li -> fileIs (foVerbose o) li (inFile i) file ->
    written (file, inLine i) q -> siteOk i n q.
Lemma inlined_lines l : forall src q ns sites, foNosrc o = false -> written src q ->
  Forall2 (fun i x => siteOk i (fst x) (snd x)) l (combine ns sites) -> length ns = length sites ->
  exists src', inlinedLines o no l src = (emit (inlineTexts not ns q sites), src') /\ written src' (last sites q).
Proof using Hno Rno.
  induction l as [|i l IH]; intros src q ns sites Hn W F L.
  - inversion F as [E|]. destruct ns as [|n ns], sites as [|c sites]; try discriminate. exists src. split; [reflexivity|exact W].
  - destruct ns as [|n ns], sites as [|c sites]; try discriminate; inversion F as [|? ? ? ? H F']; subst. cbn [fst snd] in H.
    inversion H as [? ? b li file ? E1 E2 (fl & d & Z1 & Z2 & Ef) Wc]; subst. cbn [inlinedLines]. unfold inlinedLine. rewrite E1, Hn, E2, Z1, Z2. unfold emit at 1.
    cbv beta iota. change lit with txt in Wc. set (file' := if foVerbose o then d ++ txt "/" ++ fName fl else fName fl) in *.
    assert (Es : s32 (inLine i) = inLine i).
    { destruct Wc as (_ & _ & R). cbn [snd] in R. unfold s32, sgn, W32. destruct (Z_lt_dec (inLine i) 0).
      - rewrite <- (Z.mod_add _ 1) by lia. rewrite Z.mod_small by lia. replace (inLine i + 1 * 4294967296 <? 4294967296 / 2) with false by lia. lia.
      - rewrite Z.mod_small by lia. now replace (inLine i <? 4294967296 / 2) with true by lia. }
    rewrite Es. destruct (IH (file', inLine i) c ns sites Hn Wc F' ltac:(cbn in L; lia)) as (src' & I1 & I2).
    rewrite I1. exists src'. split.
    + unfold andThen, emit. cbn [fst snd inlineTexts]. refine (f_equal (fun t => (t, Ok tt, _)) _). destruct W as (W1 & W2 & W3).
      unfold inlineText, atText. rewrite W1. change lit with txt. rewrite <- !app_assoc. rewrite (intText_dec not no) by (assumption || lia).
      rewrite (intText_dec (snd q) (snd src)) by (assumption || lia). reflexivity.
    + assert (La : last (c :: sites) q = last sites c).
      { clear. destruct sites as [|x r]; [reflexivity|]. revert x. induction r as [|y r IH]; intros x; [reflexivity|]. exact (IH y). }
      rewrite La. exact I2.
Qed.
End Text.
