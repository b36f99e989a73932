(** C147-C149 and more of C66, C67: canal as a whole. *)
From Coq Require Import Ascii String Permutation Sorted.
From Verif Require Import Base Reader ReaderArray ReaderSpec ReaderArrayProofs DwarfReaderProofs Json Args ArgsSpec ArgsProofs FrameText FrameTextSpec FrameTextProofs2 JsonDocProofs Canal CanalSpec CanalProofs Props_Canal CanalMain CanalMainSpec CanalMainProofs.
Open Scope Z_scope.

Lemma canal_run rd mem wordsize ws off ranges show pats objs segs :
  serves rd mem -> (wordsize = 32 /\ ws = 4 \/ wordsize = 64 /\ ws = 8) -> Forall (segOk ws) segs -> cleanNames (patternsOf pats) objs ->
  exists ys, (forall y, In y ys <-> searched (patternsOf pats) objs y) /\
  exists N, forall fuel, (N <= fuel)%nat -> canal fuel rd wordsize off ranges show false pats objs segs =
    (let (s, out) := fold_left (scanSeg show off ranges ws rd) segs (build ys, []) in Ok (out, Some s)).
Proof.
  intros Hs Hw Hg Hc. destruct matches_dec as (b & Hb). exists (flat_map (pickObj b (patternsOf pats)) objs). split; [intros y; now apply pick_searched|].
  destruct (collect_ok b Hb (patternsOf pats) objs Hc) as (N & E). exists N. intros fuel L. unfold canal. rewrite E by lia. cbn [bind].
  replace (existsb (fun g => negb (sgIo g)) segs && negb (wordsize =? 32) && negb (wordsize =? 64)) with false by (destruct Hw as [[-> _]|[-> _]]; cbn; rewrite ?andb_false_r; reflexivity).
  replace (wordsize / 8) with ws by (destruct Hw as [[-> ->]|[-> ->]]; reflexivity). reflexivity.
Qed.
Lemma words_all rd mem ws segs : serves rd mem -> 0 < ws -> Forall (segOk ws) segs ->
  flat_map (segWords rd ws) (filter (fun g => negb (sgIo g)) segs) = allWords mem ws segs.
Proof.
  intros Hs Hw. unfold allWords. induction segs as [|g segs IH]; intros F; [reflexivity|]. inversion F as [|? ? F1 F2]; subst. cbn [filter]. destruct (sgIo g); cbn [negb flat_map]; [auto|]. rewrite (IH F2). f_equal. now apply segWords_ok.
Qed.

Lemma filter_len (f : Z -> bool) l : zlen (filter f l) <= zlen l.
Proof. induction l as [|x l IH]; cbn [filter]; [lia|]. destruct (f x); rewrite ?zlen_cons; lia. Qed.

(** For every process, word size and set of patterns: the report has one line for each symbol searched for that has references, with the
    number of words of all mappings that point into it and the name of its object, larger numbers first, whatever order std::sort
    chooses among equal numbers.  Missing for the full property: mappings with unreadable parts and sizes that are not whole words (below);
    overlapping symbols; words that are both in a symbol and the end of another (C43). *)
Theorem C147_histogram_partial : forall rd mem wordsize ws show pats objs segs nameOf,
  serves rd mem -> (wordsize = 32 /\ ws = 4 \/ wordsize = 64 /\ ws = 8) -> Forall (segOk ws) segs ->
  (forall o, In o objs -> nameOf (coBase o) = coName o) ->
  let pats' := match pats with [] => [lit "_ZTV*"] | _ => pats end in
  let ys := searched pats' objs in let ws' := allWords mem ws segs in
  cleanNames pats' objs -> inSpace ys -> apart ys -> noEnds ys ws' -> zlen ws' < W64 ->
  exists N, forall fuel, (N <= fuel)%nat -> exists out s, canal fuel rd wordsize (-1) [] show false pats objs segs = Ok (out, Some s) /\
    forall text, reports objs s text -> exists L lines,
      Forall2 (ReportLine nameOf) L lines /\ text = concat lines /\ StronglySorted (fun l r => snd r <= snd l) L /\ NoDup (map fst L) /\
      forall y n, In (y, n) L <-> ys y /\ n = zlen (filter (pointsInto y) ws') /\ 0 < n.
Proof.
  intros rd mem wordsize ws show pats objs segs nameOf Hs Hw Hg Hn pats' ys0 ws' Hc Hsp Hap Hne Hlen. change (let pats' := match pats with [] => [lit "_ZTV*"] | _ => pats end in pats') with (patternsOf pats) in *.
  assert (Wp : 0 < ws) by lia. destruct (canal_run rd mem wordsize ws (-1) [] show pats objs segs Hs Hw Hg Hc) as (ys & Hys & N & E). exists N. intros fuel L.
  specialize (E fuel L). pose proof (scan_store show (-1) ws rd segs (build ys, []) 0) as St. cbn [fst Z.gtb Z.compare] in St. rewrite (words_all rd mem ws segs Hs Wp Hg) in St. fold ws' in St.
  destruct (fold_left (scanSeg show (-1) [] ws rd) segs (build ys, [])) as [s out]. cbn [fst] in St. exists out, s. split; [exact E|]. intros text (h & Pm & Sd & ->).
  assert (Oy : Forall symOk ys). { rewrite Forall_forall. intros y Hy. apply Hys in Hy. exact (Hsp y Hy). }
  assert (Ay : apart (fun y => In y ys)). { intros y z Hy Hz. apply Hap; now apply Hys. }
  assert (Ny : noEnds (fun y => In y ys) ws'). { intros w y z Iw Hy Hz. apply Hne; [exact Iw|now apply Hys|now apply Hys]. }
  destruct (build_spec ys Oy) as (Sb & Bb & _).
  assert (Ent : forall k y n, In (k, (y, n)) s <-> In y ys /\ k = ends y /\ n = zlen (filter (pointsInto y) ws')).
  { intros k y n. rewrite St. rewrite (search_entries matchFree ws ws' (build ys) 0 k y n Sb). split.
    - intros (n0 & I & ->). destruct (Bb _ I) as (z & Hz & Ez). injection Ez as -> -> ->. split; [exact Hz|]. split; [reflexivity|]. rewrite (apart_filter ys Oy Ay ws' z Ny Hz). lia.
    - intros (Hy & -> & ->). exists 0. split; [now apply apart_entry|]. rewrite (apart_filter ys Oy Ay ws' y Ny Hy). lia. }
  assert (Es : forall y n, In (y, n) h <-> In y ys /\ n = zlen (filter (pointsInto y) ws')).
  { intros y n. transitivity (In (y, n) (map snd s)). { split; apply Permutation_in; [exact Pm|now apply Permutation_sym]. } rewrite in_map_iff. split.
    - intros ((k & v) & Ev & I). cbn [snd] in Ev. subst v. apply Ent in I. tauto.
    - intros (A & C). exists (ends y, (y, n)). split; [reflexivity|]. apply Ent. tauto. }
  assert (Bd : forall y n, In (y, n) h -> 0 <= n < W64). { intros y n I. apply Es in I. destruct I as (_ & ->). pose proof (filter_len (pointsInto y) ws'). unfold zlen in *. lia. }
  destruct (report_lines objs nameOf h Hn) as (lines & F & El).
  { intros y n I. split; [now apply (Bd y)|]. intros _. apply Es in I. destruct I as (I & _). apply Hys in I. destruct I as (o & _ & _ & _ & Io & _ & _ & Eb & _). exists o. split; [exact Io|congruence]. }
  exists (filter (fun e => negb (snd e =? 0)) h), lines. split; [exact F|]. split; [exact El|]. split; [now apply filter_sorted|]. split.
  - assert (ND : NoDup (map fst h)).
    { apply (Permutation_NoDup (l := map fst (map snd s))). { apply Permutation_map. now apply Permutation_sym. } rewrite map_map.
      assert (Ss : sorted s) by (rewrite St; now apply search_sorted).
      assert (Kk : forall e, In e s -> fst e = ends (fst (snd e))). { intros (k & y & n) I. apply Ent in I. cbn [fst snd]. tauto. }
      clear -Ss Kk. induction s as [|e r IH]; cbn [map]; [constructor|]. destruct e as (k & y & n). cbn [sorted] in Ss. destruct Ss as (A & B). constructor; [|apply IH; [exact B|intros; apply Kk; now right]].
      rewrite in_map_iff. intros (e' & Ee & Ie). specialize (A e' Ie). rewrite (Kk e' (or_intror Ie)) in A. pose proof (Kk _ (or_introl eq_refl)) as K1. cbn [fst snd] in *. rewrite Ee in A. lia. }
    clear -ND. induction h as [|[y n] h IH]; cbn [filter map snd fst] in *; [constructor|]. inversion ND as [|? ? X Y]; subst. destruct (n =? 0); cbn [negb map]; [auto|]. cbn [fst]. constructor; [|auto].
    intros I. apply X. apply in_map_iff in I. destruct I as (e & Ee & Ie). apply filter_In in Ie. apply in_map_iff. exists e. tauto.
  - intros y n. rewrite filter_In. cbn [snd]. rewrite Es. rewrite Hys. split.
    + intros ((A & C) & D). split; [exact A|]. split; [exact C|]. assert (0 <= n) by (rewrite C; unfold zlen; lia). lia.
    + intros (A & C & D). split; [tauto|]. lia.
Qed.
Print Assumptions C147_histogram_partial.

(** With -s, before the report: for each mapping, in order, a line for each word that points into a symbol searched for. *)
Theorem C147_references_partial : forall rd mem wordsize ws pats objs segs,
  serves rd mem -> (wordsize = 32 /\ ws = 4 \/ wordsize = 64 /\ ws = 8) -> Forall (segOk ws) segs ->
  let pats' := match pats with [] => [lit "_ZTV*"] | _ => pats end in
  let ys := searched pats' objs in
  cleanNames pats' objs -> inSpace ys -> apart ys -> noEnds ys (allWords mem ws segs) ->
  exists N, forall fuel, (N <= fuel)%nat -> exists out s texts, canal fuel rd wordsize (-1) [] true false pats objs segs = Ok (out, Some s) /\
    out = concat texts /\ Forall2 (fun g t => Refs ys ws (sgStart g) (wordsIn mem ws g) t) (filter (fun g => negb (sgIo g)) segs) texts.
Proof.
  intros rd mem wordsize ws pats objs segs Hs Hw Hg pats' ys0 Hc Hsp Hap Hne. change pats' with (patternsOf pats) in *.
  assert (Wp : 0 < ws) by lia. destruct (canal_run rd mem wordsize ws (-1) [] true pats objs segs Hs Hw Hg Hc) as (ys & Hys & N & E). exists N. intros fuel L. specialize (E fuel L).
  assert (Oy : Forall symOk ys). { rewrite Forall_forall. intros y Hy. apply Hys in Hy. exact (Hsp y Hy). }
  assert (Ay : apart (fun y => In y ys)). { intros y z Hy Hz. apply Hap; now apply Hys. }
  assert (W : forall words s loc, (forall w, storeFind matchFree s w = storeFind matchFree (build ys) w) -> (forall w, In w words -> In w (allWords mem ws segs)) -> 0 <= loc -> loc + ws * zlen words < W64 ->
    Refs ys0 ws loc words (snd (scanSyms true matchFree ws s loc words)) /\ (forall w, storeFind matchFree (fst (scanSyms true matchFree ws s loc words)) w = storeFind matchFree (build ys) w)).
  { induction words as [|w r IH]; intros s loc Hf Hi L0 L1; cbn [scanSyms]; [split; [constructor|exact Hf]|]. rewrite zlen_cons in L1. assert (0 <= zlen r) by (unfold zlen; lia). rewrite Hf. destruct (storeFind matchFree (build ys) w) as [[k y]|] eqn:Ew.
    - destruct (IH (bump k s) (loc + ws)) as (I1 & I2); [intros x; rewrite bump_find; apply Hf|intros x Hx; apply Hi; now right|lia|lia|]. destruct (scanSyms true matchFree ws (bump k s) (loc + ws) r) as [s' o]. cbn [fst snd] in *. split; [|exact I2].
      destruct (find_sound ys w k y Oy Ew) as (Hy & R). rewrite <- !app_assoc. rewrite Forall_forall in Oy. pose proof (Oy y Hy) as O1. unfold symOk, starts, ends in *. assert (Pw : pointsInto y w = true) by (unfold pointsInto; lia).
      rewrite memaddr_ok by exact (Oy y Hy). unfold starts. rewrite (u64_id loc) by (unfold isU64; nia). rewrite (u64_id (w - _)) by (unfold isU64; lia).
      change txt with lit. apply RfYes; [now apply Hys|exact Pw| | | |exact I1].
      + apply hexText_canonical. nia.
      + pose proof (intText_decimal64 (lsSize y) ltac:(unfold W64 in *; lia)) as D. unfold intText in D. replace (lsSize y <? 0) with false in D by lia. exact D.
      + pose proof (intText_decimal64 (w - (lsValue y + lsBase y)) ltac:(unfold W64 in *; lia)) as D. unfold intText in D. replace (w - (lsValue y + lsBase y) <? 0) with false in D by lia. exact D.
    - destruct (IH s (loc + ws)) as (I1 & I2); [exact Hf|intros x Hx; apply Hi; now right|lia|lia|]. split; [|exact I2]. constructor; [|exact I1]. intros y Hy. destruct (pointsInto y w) eqn:Pw; [|reflexivity]. exfalso.
      rewrite (apart_find ys Oy Ay w y) in Ew; [discriminate|now apply Hys|exact Pw|]. intros z Hz. unfold ends. apply (Hne w y z); [apply Hi; now left|exact Hy|now apply Hys|exact Pw]. }
  assert (LW : forall mem' ws' n a, (length (wordsAt mem' ws' a n) <= n)%nat). { intros mem' ws'. induction n as [|n IH]; intros a; cbn [wordsAt length]; [lia|]. destruct (memread mem' a (Z.to_nat ws')); cbn [length]; [specialize (IH (a + ws'))|]; lia. }
  assert (F : forall segs' s out, Forall (segOk ws) segs' -> (forall w, storeFind matchFree s w = storeFind matchFree (build ys) w) -> (forall w, In w (allWords mem ws segs') -> In w (allWords mem ws segs)) ->
    exists texts, snd (fold_left (scanSeg true (-1) [] ws rd) segs' (s, out)) = out ++ concat texts /\ Forall2 (fun g t => Refs ys0 ws (sgStart g) (wordsIn mem ws g) t) (filter (fun g => negb (sgIo g)) segs') texts).
  { induction segs' as [|g r IH]; intros s out Fg Hf Hi; cbn [fold_left filter]; [exists []; split; [cbn; now rewrite app_nil_r|constructor]|]. inversion Fg as [|? ? F1 F2]; subst. unfold allWords in Hi. cbn [filter] in Hi. cbn [scanSeg]. destruct (sgIo g) eqn:Eg; cbn [negb flat_map] in *.
    - apply IH; [exact F2|exact Hf|exact Hi].
    - cbn [Z.gtb Z.compare]. rewrite (segWords_ok rd mem ws g Hs Wp F1). destruct (W (wordsIn mem ws g) s (sgStart g) Hf) as (I1 & I2).
      { intros w Iw. apply Hi. apply in_app_iff. now left. } { destruct F1. lia. }
      { destruct F1 as (G1 & G2 & G3). unfold wordsIn, zlen. pose proof (LW mem ws (Z.to_nat ((sgFileEnd g - sgStart g) / ws)) (sgStart g)). assert (0 <= (sgFileEnd g - sgStart g) / ws) by (apply Z.div_pos; lia). pose proof (Z.mul_div_le (sgFileEnd g - sgStart g) ws Wp). nia. }
      destruct (scanSyms true matchFree ws s (sgStart g) (wordsIn mem ws g)) as [s' o]. cbn [fst snd] in *. destruct (IH s' (out ++ o) F2 I2) as (texts & T1 & T2). { intros w Iw. apply Hi. apply in_app_iff. now right. }
      exists (o :: texts). split; [rewrite T1; cbn [concat]; now rewrite app_assoc|]. constructor; assumption. }
  destruct (F segs (build ys) [] Hg) as (texts & T1 & T2); [reflexivity|auto|]. destruct (fold_left (scanSeg true (-1) [] ws rd) segs (build ys, [])) as [s out]. cbn [snd app] in T1. exists out, s, texts. split; [exact E|]. split; assumption.
Qed.
Print Assumptions C147_references_partial.

(** Not so: what comes after an unreadable word of a mapping is not searched; if the first cannot be read, the report is empty whatever
    the rest of the mapping holds. *)
Lemma report_zero objs s text : (forall e, In e s -> snd (snd e) = 0) -> reports objs s text -> text = [].
Proof.
  intros Z (h & P & _ & ->). assert (Zh : forall e, In e h -> snd e = 0). { intros e Ie. apply (Permutation_in _ P) in Ie. apply in_map_iff in Ie. destruct Ie as (x & <- & Ix). now apply Z. }
  clear P. induction h as [|e h IH]; [reflexivity|]. cbn [flat_map]. unfold reportLine. rewrite (Zh e (or_introl eq_refl)). cbn [Z.eqb app]. apply IH. intros; apply Zh; now right.
Qed.
Lemma build_zero ys : forall s, (forall e, In e s -> snd (snd e) = 0) -> forall e, In e (fold_left storeAdd ys s) -> snd (snd e) = 0.
Proof.
  induction ys as [|y r IH]; intros s H e I; cbn [fold_left] in I; [now apply H|]. refine (IH _ _ e I). intros e' I'. unfold storeAdd in I'. apply emplace_in in I'. destruct I' as [->|I']; [reflexivity|now apply H].
Qed.
Theorem C147_hole_refuted : forall rd mem wordsize ws show pats objs g fuel out s text,
  serves rd mem -> (wordsize = 32 /\ ws = 4 \/ wordsize = 64 /\ ws = 8) -> segOk ws g ->
  memread mem (sgStart g) (Z.to_nat ws) = None ->
  canal fuel rd wordsize (-1) [] show false pats objs [g] = Ok (out, Some s) -> reports objs s text -> text = [].
Proof.
  intros rd mem wordsize ws show pats objs g fuel out s text Hs Hw Hg Hm E R. apply (report_zero objs s text); [|exact R]. unfold canal in E. destruct (collect fuel (patternsOf pats) objs) as [ys| | |]; cbn [bind] in E; try discriminate.
  destruct (_ && _ && _) in E; [discriminate|]. replace (wordsize / 8) with ws in E by (destruct Hw as [[-> ->]|[-> ->]]; reflexivity). cbn [fold_left scanSeg] in E.
  assert (Wn : segWords rd ws g = []). { rewrite (segWords_ok rd mem ws g Hs ltac:(lia) Hg). unfold wordsIn. destruct (Z.to_nat ((sgFileEnd g - sgStart g) / ws)); [reflexivity|]. cbn [wordsAt]. now rewrite Hm. }
  rewrite Wn in E. cbn [scanSyms] in E. destruct (sgIo g); injection E as _ <-; intros e; apply build_zero; intros ? [].
Qed.
Print Assumptions C147_hole_refuted.
(** Nor is any word of a mapping whose size is not a whole number of words (16 bytes of it, say, if it has 17). *)
Theorem C147_odd_size_refuted : forall rd wordsize ws show pats objs g fuel out s text,
  (wordsize = 32 /\ ws = 4 \/ wordsize = 64 /\ ws = 8) -> 0 <= sgStart g <= sgFileEnd g -> sgFileEnd g < W64 - 1 -> (sgFileEnd g - sgStart g) mod ws <> 0 ->
  canal fuel rd wordsize (-1) [] show false pats objs [g] = Ok (out, Some s) -> reports objs s text -> text = [].
Proof.
  intros rd wordsize ws show pats objs g fuel out s text Hw H0 H1 Ho E R. apply (report_zero objs s text); [|exact R]. unfold canal in E. destruct (collect fuel (patternsOf pats) objs) as [ys| | |]; cbn [bind] in E; try discriminate.
  destruct (_ && _ && _) in E; [discriminate|]. replace (wordsize / 8) with ws in E by (destruct Hw as [[-> ->]|[-> ->]]; reflexivity). cbn [fold_left scanSeg] in E.
  assert (Wn : segWords rd ws g = []). { unfold segWords, arrayEof. rewrite (u64_id (sgFileEnd g - sgStart g)) by (unfold isU64; lia). unfold offMax. replace (sgFileEnd g - sgStart g =? W64 - 1) with false by lia. replace ((sgFileEnd g - sgStart g) mod ws =? 0) with false by lia. reflexivity. }
  rewrite Wn in E. cbn [scanSyms] in E. destruct (sgIo g); injection E as _ <-; intros e; apply build_zero; intros ? [].
Qed.
Print Assumptions C147_odd_size_refuted.

(** A process with two vtables: "_ZTV1A" (at 4096 + 16, 16 bytes), "_ZTV1B" (at 4096 + 64), and another symbol; imported "_ZTVX" of size 0; two mappings and one of
    device memory. *)
Definition mapped (l : list (Z * list Z)) : memory := fun a => fold_right (fun e r => if (fst e <=? a) && (a <? fst e + zlen (snd e)) then znth (a - fst e) (snd e) else r) None l.
Definition rdOf (m : memory) : Z -> Z -> res (list Z) := fun a n => Ok (prefix m a (Z.to_nat n)).
Lemma rdOf_serves m : serves (rdOf m) m. Proof. intros a n _ _ _. now left. Qed.
Definition exObjs : list cobj := [mkCo 4096 (lit "/bin/x") (Some ([(16, 16, lit "_ZTV1A"); (64, 16, lit "_ZTV1B"); (0, 0, lit "_ZTVX")], [(16, 16, lit "_ZTV1A"); (100, 8, lit "main")])); mkCo 8192 (lit "gone") None].
Definition wd (n : Z) : list Z := [n mod 256; n / 256; 0; 0; 0; 0; 0; 0].
Definition exMem : memory := mapped [(65536, wd 4112 ++ wd 4160 ++ wd 4096 ++ wd 4127); (131072, wd 4168); (196608, wd 4112)].
Definition exSegs : list cseg := [mkSeg 65536 65568 false; mkSeg 131072 131080 false; mkSeg 196608 196616 true].
Lemma ex_searched y : searched [lit "_ZTV*"] exObjs y <-> In y [mkLs 16 16 4096 (lit "_ZTV1A"); mkLs 64 16 4096 (lit "_ZTV1B"); mkLs 0 0 4096 (lit "_ZTVX")].
Proof.
  assert (M : forall n, matches (lit "_ZTV*") (lit "_ZTV" ++ n)). { intros n. cbv. repeat (apply MChar; [lia|]). rewrite <- (app_nil_r n). apply MStar. constructor. }
  split.
  - intros (o & dyn & dbg & p & [<-|[<-|[]]] & E & Hs & Eb & [<-|[]] & Hm); cbn [coTables exObjs] in E; [|discriminate]. injection E as <- <-. cbn [coBase] in Eb. destruct y as [v z b n]; cbn [lsValue lsSize lsBase lsName] in *. subst b.
    cbn [app In] in Hs. destruct Hs as [H|[H|[H|[H|[H|[]]]]]]; injection H as <- <- <-; cbn [In]; auto. exfalso. cbv in Hm. inversion Hm; subst; lia.
  - intros [<-|[<-|[<-|[]]]]; eexists _, _, _, (lit "_ZTV*"); (split; [left; reflexivity|]); (split; [reflexivity|]); cbn [app In lsValue lsSize lsName lsBase coBase]; (split; [tauto|]); (split; [reflexivity|]); (split; [tauto|]); [exact (M (lit "1A"))|exact (M (lit "1B"))|exact (M (lit "X"))].
Qed.
Example C147_nonvacuous :
  let ys := searched [lit "_ZTV*"] exObjs in
  serves (rdOf exMem) exMem /\ Forall (segOk 8) exSegs /\ cleanNames [lit "_ZTV*"] exObjs /\ inSpace ys /\ apart ys /\ noEnds ys (allWords exMem 8 exSegs) /\
  allWords exMem 8 exSegs = [4112; 4160; 4096; 4127; 4168] /\
  exists out s, canal 100 (rdOf exMem) 64 (-1) [] true false [] exObjs exSegs = Ok (out, Some s) /\
    out = lit "_ZTV1A 0x10000 ... size=16, diff=0" ++ [10] ++ lit "_ZTV1B 0x10008 ... size=16, diff=0" ++ [10] ++ lit "_ZTV1A 0x10018 ... size=16, diff=15" ++ [10] ++ lit "_ZTV1B 0x20000 ... size=16, diff=8" ++ [10] /\
    reports exObjs s (lit "2 _ZTV1B ( from /bin/x)" ++ [10] ++ lit "2 _ZTV1A ( from /bin/x)" ++ [10]).
Proof.
  cbv zeta. split; [apply rdOf_serves|]. split; [repeat constructor; cbn; try lia; vm_compute; congruence|].
  split. { split; [repeat constructor; vm_compute; congruence|]. intros o dyn dbg v z n [<-|[<-|[]]] E Hs; cbn [coTables exObjs] in E; [|discriminate]. injection E as <- <-. cbn [app In] in Hs.
    destruct Hs as [H|[H|[H|[H|[H|[]]]]]]; injection H as <- <- <-; repeat constructor; vm_compute; congruence. }
  split. { intros y H. apply ex_searched in H. destruct H as [<-|[<-|[<-|[]]]]; vm_compute; repeat split; congruence. }
  split. { intros y z Hy Hz. apply ex_searched in Hy, Hz. destruct Hy as [<-|[<-|[<-|[]]]], Hz as [<-|[<-|[<-|[]]]]; cbn [lsValue lsSize lsBase]; (now left) || (right; split; [lia|lia]). }
  assert (Ew : allWords exMem 8 exSegs = [4112; 4160; 4096; 4127; 4168]) by (vm_compute; reflexivity).
  split. { rewrite Ew. intros w y z Hw Hy Hz P. apply ex_searched in Hy, Hz. cbn [In] in Hw. unfold pointsInto in P. destruct Hy as [<-|[<-|[<-|[]]]], Hz as [<-|[<-|[<-|[]]]]; cbn [lsValue lsSize lsBase] in *; lia. }
  split; [exact Ew|]. eexists _, _. split; [vm_compute; reflexivity|]. split; [vm_compute; reflexivity|].
  exists [(mkLs 64 16 4096 (lit "_ZTV1B"), 2); (mkLs 16 16 4096 (lit "_ZTV1A"), 2); (mkLs 0 0 4096 (lit "_ZTVX"), 0)]. split; [|split].
  - apply (Permutation_rev [(mkLs 0 0 4096 (lit "_ZTVX"), 0); (mkLs 16 16 4096 (lit "_ZTV1A"), 2); (mkLs 64 16 4096 (lit "_ZTV1B"), 2)]) || idtac. apply Permutation_sym. apply (Permutation_rev [(mkLs 0 0 4096 (lit "_ZTVX"), 0); (mkLs 16 16 4096 (lit "_ZTV1A"), 2); (mkLs 64 16 4096 (lit "_ZTV1B"), 2)]).
  - repeat constructor; cbn; lia.
  - vm_compute. reflexivity.
Qed.

(** C148: -V lists the name of a symbol once for each table it is in and each pattern it matches, in the order of the objects and tables;
    so exactly the symbols searched for are listed ... *)
Theorem C148_listing : forall rd wordsize off ranges show pats objs segs b, (forall p n, b p n = true <-> matches p n) ->
  let pats' := match pats with [] => [lit "_ZTV*"] | _ => pats end in cleanNames pats' objs ->
  exists N, forall fuel, (N <= fuel)%nat -> canal fuel rd wordsize off ranges show true pats objs segs =
    Ok (flat_map (fun o => match coTables o with None => [] | Some (dyn, dbg) => flat_map (fun y => concat (repeat (snd y ++ [10]) (length (filter (fun p => b p (snd y)) pats')))) (dyn ++ dbg) end) objs, None).
Proof.
  intros rd wordsize off ranges show pats objs segs b Hb pats' Hc. destruct (collect_ok b Hb pats' objs Hc) as (N & E). exists N. intros fuel L. unfold canal. change (patternsOf pats) with pats'. rewrite E by lia. cbn [bind]. do 2 f_equal. clear.
  induction objs as [|o r IH]; [reflexivity|]. cbn [flat_map]. rewrite flat_map_app, IH. f_equal. unfold pickObj. destruct (coTables o) as [[dyn dbg]|]; [|reflexivity].
  induction (dyn ++ dbg) as [|y l IHl]; [reflexivity|]. cbn [flat_map]. rewrite flat_map_app, IHl. f_equal. unfold pick. clear. induction pats' as [|p q IHq]; [reflexivity|]. cbn [flat_map filter]. rewrite flat_map_app, IHq. destruct (b p (snd y)); [|reflexivity]. cbn [flat_map lsName length repeat concat]. now rewrite app_nil_r.
Qed.
Print Assumptions C148_listing.
Theorem C148_listed_iff_searched : forall pats objs y b, (forall p n, b p n = true <-> matches p n) ->
  (searched pats objs y <-> exists o dyn dbg, In o objs /\ coTables o = Some (dyn, dbg) /\ coBase o = lsBase y /\ In (lsValue y, lsSize y, lsName y) (dyn ++ dbg) /\ filter (fun p => b p (lsName y)) pats <> []).
Proof.
  intros pats objs y b Hb. split.
  - intros (o & dyn & dbg & p & A1 & A2 & A3 & A4 & A5 & A6). exists o, dyn, dbg. repeat split; auto. intros E. assert (X : In p (filter (fun p0 => b p0 (lsName y)) pats)) by (apply filter_In; split; [exact A5|now apply Hb]). rewrite E in X. destruct X.
  - intros (o & dyn & dbg & A1 & A2 & A3 & A4 & A5). destruct (filter (fun p => b p (lsName y)) pats) as [|p r] eqn:E; [congruence|]. assert (X : In p (filter (fun p0 => b p0 (lsName y)) pats)) by (rewrite E; now left). apply filter_In in X. destruct X as (X1 & X2). exists o, dyn, dbg, p. repeat split; auto. now apply Hb.
Qed.
Print Assumptions C148_listed_iff_searched.
(** ... but not each once: a symbol that is in both symbol tables, as the exported ones of an unstripped object are, is listed twice. *)
Theorem C148_listed_twice_refuted : forall rd wordsize off ranges show segs base obj v z n, Forall (fun c => c <> 0) n -> Forall (fun c => c <> 42) n ->
  exists N, forall fuel, (N <= fuel)%nat -> canal fuel rd wordsize off ranges show true [n] [mkCo base obj (Some ([(v, z, n)], [(v, z, n)]))] segs = Ok ((n ++ [10]) ++ (n ++ [10]), None).
Proof.
  intros rd wordsize off ranges show segs base obj v z n Hn Hq. destruct matches_dec as (b & Hb).
  destruct (C148_listing rd wordsize off ranges show [n] [mkCo base obj (Some ([(v, z, n)], [(v, z, n)]))] segs b Hb) as (N & E).
  { split; [repeat constructor; exact Hn|]. intros o dyn dbg v' z' n' [<-|[]] Eo Hs. cbn [coTables] in Eo. injection Eo as <- <-. cbn in Hs. destruct Hs as [H|[H|[]]]; injection H as <- <- <-; exact Hn. }
  exists N. intros fuel L. rewrite (E fuel L). cbn [flat_map app coTables fst snd].
  assert (M : matches n n). { clear -Hq. induction n as [|c n IH]; [constructor|]. inversion Hq; subst. apply MChar; auto. }
  apply Hb in M. cbn [filter]. rewrite M. cbn [length repeat concat]. now rewrite !app_nil_r.
Qed.
Print Assumptions C148_listed_twice_refuted.
Example C148_nonvacuous : cleanNames [lit "main"; lit "_ZTV1*"] exObjs /\
  canal 100 (rdOf exMem) 64 (-1) [] false true [lit "main"; lit "_ZTV1*"] exObjs exSegs = Ok (lit "_ZTV1A" ++ [10] ++ lit "_ZTV1B" ++ [10] ++ lit "_ZTV1A" ++ [10] ++ lit "main" ++ [10], None).
Proof.
  split; [|vm_compute; reflexivity]. split; [repeat constructor; vm_compute; congruence|]. intros o dyn dbg v z n [<-|[<-|[]]] E Hs; cbn [coTables exObjs] in E; [|discriminate]. injection E as <- <-. cbn [app In] in Hs.
  destruct Hs as [H|[H|[H|[H|[H|[]]]]]]; injection H as <- <- <-; repeat constructor; vm_compute; congruence.
Qed.

(** C149: each -f a, up to the next -f, stands for the addresses from a up to the last -e, or for a alone. *)
Definition oneRange (a : Z) (es : list Z) : Z * Z := (a, last es (a + 1)).
Theorem C149_options_partial : forall groups : list (Z * list Z), Forall (fun g => 0 <= fst g < W64 - 1) groups ->
  addrOpts [] (flat_map (fun g => OptF (fst g) :: map OptE (snd g)) groups) = Ok (map (fun g => oneRange (fst g) (snd g)) groups).
Proof.
  assert (SL : forall l a x e, setLast (l ++ [(a, x)]) e = Ok (l ++ [(a, e)])).
  { induction l as [|p l IH]; intros a x e; [reflexivity|]. cbn [app setLast]. destruct p as [p1 p2]. rewrite IH. cbn [bind]. now destruct l. }
  assert (G : forall groups l, Forall (fun g => 0 <= fst g < W64 - 1) groups -> addrOpts l (flat_map (fun g => OptF (fst g) :: map OptE (snd g)) groups) = Ok (l ++ map (fun g => oneRange (fst g) (snd g)) groups)).
  { induction groups as [|[a es] r IH]; intros l F; cbn [flat_map map addrOpts]; [now rewrite app_nil_r|]. inversion F as [|? ? F1 F2]; subst. cbn [fst snd] in *. rewrite <- app_comm_cons. cbn [addrOpts]. rewrite u64_id by (unfold isU64; lia).
    assert (K : forall es x, addrOpts (l ++ [(a, x)]) (map OptE es ++ flat_map (fun g => OptF (fst g) :: map OptE (snd g)) r) = Ok (l ++ (a, last es x) :: map (fun g => oneRange (fst g) (snd g)) r)).
    { clear es F. induction es as [|e es IHe]; intros x; cbn [map app addrOpts]; [rewrite IH by exact F2; rewrite <- app_assoc; reflexivity|]. rewrite SL. cbn [bind]. rewrite IHe. do 4 f_equal. clear. destruct es as [|e' es]; [reflexivity|]. revert e'. induction es as [|e2 es IH]; intros e'; [reflexivity|]. cbn [last] in *. apply (IH e2). }
    exact (K es (a + 1)). }
  intros groups F. exact (G groups [] F).
Qed.
Print Assumptions C149_options_partial.
(** The whole search: for each mapping, in order, the address of each word once for each range its value is in; and no report. *)
Theorem C149_search_partial : forall rd mem wordsize ws off show pats objs segs r0 ranges,
  serves rd mem -> (wordsize = 32 /\ ws = 4 \/ wordsize = 64 /\ ws = 8) -> Forall (segOk ws) segs ->
  cleanNames (match pats with [] => [lit "_ZTV*"] | _ => pats end) objs ->
  exists N, forall fuel, (N <= fuel)%nat -> exists out s texts, canal fuel rd wordsize off (r0 :: ranges) show false pats objs segs = Ok (out, Some s) /\ out = concat texts /\
    Forall2 (fun g t => RangeRefs (r0 :: ranges) ws (sgStart g) (wordsIn mem ws g) t) (filter (fun g => negb (sgIo g)) segs) texts /\
    (forall text, reports objs s text -> text = []).
Proof.
  intros rd mem wordsize ws off show pats objs segs r0 ranges Hs Hw Hg Hc. assert (Wp : 0 < ws) by lia. destruct (canal_run rd mem wordsize ws off (r0 :: ranges) show pats objs segs Hs Hw Hg Hc) as (ys & Hys & N & E). exists N. intros fuel L. specialize (E fuel L).
  assert (LW : forall mem' ws' n a, (length (wordsAt mem' ws' a n) <= n)%nat). { intros mem' ws'. induction n as [|n IH]; intros a; cbn [wordsAt length]; [lia|]. destruct (memread mem' a (Z.to_nat ws')); cbn [length]; [specialize (IH (a + ws'))|]; lia. }
  assert (W : forall words loc, 0 <= loc -> loc + ws * zlen words < W64 -> RangeRefs (r0 :: ranges) ws loc words (flat_map (fun a => txt "0x" ++ hexText 16 (u64 a) ++ [10]) (searchRanges ws (r0 :: ranges) loc words))).
  { induction words as [|w r IH]; intros loc L0 L1; [constructor|]. rewrite zlen_cons in L1. assert (0 <= zlen r) by (unfold zlen; lia). cbn [searchRanges]. rewrite flat_map_app.
    replace (flat_map (fun a => txt "0x" ++ hexText 16 (u64 a) ++ [10]) (flat_map (fun rg => if (w >=? fst rg) && (w <? snd rg) then [loc] else []) (r0 :: ranges)))
      with (concat (repeat (lit "0x" ++ hexText 16 loc ++ [10]) (length (filter (fun g => (fst g <=? w) && (w <? snd g)) (r0 :: ranges))))).
    - constructor; [apply hexText_canonical; nia|]. apply IH; lia.
    - clear -L0 L1 H Wp. induction (r0 :: ranges) as [|g q IHq]; [reflexivity|]. cbn [filter flat_map]. rewrite flat_map_app, <- IHq. rewrite Z.geb_leb. destruct ((fst g <=? w) && (w <? snd g)); [|reflexivity]. cbn [length repeat concat flat_map]. rewrite app_nil_r. rewrite (u64_id loc) by (unfold isU64; nia). reflexivity. }
  assert (F : forall segs' s out, Forall (segOk ws) segs' -> exists texts, fold_left (scanSeg show off (r0 :: ranges) ws rd) segs' (s, out) = (s, out ++ concat texts) /\
    Forall2 (fun g t => RangeRefs (r0 :: ranges) ws (sgStart g) (wordsIn mem ws g) t) (filter (fun g => negb (sgIo g)) segs') texts).
  { induction segs' as [|g r IH]; intros s out Fg; cbn [fold_left filter]; [exists []; split; [cbn; now rewrite app_nil_r|constructor]|]. inversion Fg as [|? ? F1 F2]; subst. cbn [scanSeg]. destruct (sgIo g) eqn:Eg; cbn [negb].
    - now apply IH.
    - rewrite (segWords_ok rd mem ws g Hs Wp F1). destruct (IH s (out ++ flat_map (fun a => txt "0x" ++ hexText 16 (u64 a) ++ [10]) (searchRanges ws (r0 :: ranges) (sgStart g) (wordsIn mem ws g))) F2) as (texts & T1 & T2).
      eexists (_ :: texts). split; [rewrite T1; cbn [concat]; now rewrite app_assoc|]. constructor; [|exact T2]. apply W; [destruct F1; lia|].
      destruct F1 as (G1 & G2 & G3). unfold wordsIn, zlen. pose proof (LW mem ws (Z.to_nat ((sgFileEnd g - sgStart g) / ws)) (sgStart g)). assert (0 <= (sgFileEnd g - sgStart g) / ws) by (apply Z.div_pos; lia). pose proof (Z.mul_div_le (sgFileEnd g - sgStart g) ws Wp). nia. }
  destruct (F segs (build ys) [] Hg) as (texts & T1 & T2). rewrite T1 in E. cbn [app] in E. exists (concat texts), (build ys), texts. split; [exact E|]. split; [reflexivity|]. split; [exact T2|].
  intros text R. apply (report_zero objs (build ys) text); [|exact R]. apply build_zero. intros e [].
Qed.
Print Assumptions C149_search_partial.
(** Not so: -e before any -f is undefined behaviour (the last element of an empty vector), and the last address can not be searched for. *)
Theorem C149_end_first_refuted : forall e os, addrOpts [] (OptE e :: os) = UB.
Proof. reflexivity. Qed.
Print Assumptions C149_end_first_refuted.
Theorem C149_last_address_refuted : forall ws loc words, exists ranges, addrOpts [] [OptF (W64 - 1)] = Ok ranges /\ (Forall (fun w => 0 <= w) words -> searchRanges ws ranges loc words = []).
Proof.
  intros ws loc words. eexists. split; [reflexivity|]. change (u64 (W64 - 1 + 1)) with 0. intros F. revert loc. induction F as [|w r Hw F IH]; intros loc; [reflexivity|]. cbn [searchRanges flat_map app fst snd]. replace (w <? 0) with false by lia. rewrite andb_false_r. cbn [app]. apply IH.
Qed.
Print Assumptions C149_last_address_refuted.
Example C149_nonvacuous : addrOpts [] [OptF 4100; OptE 4101; OptE 4128; OptF 4168] = Ok [(4100, 4128); (4168, 4169)] /\
  exists s, canal 100 (rdOf exMem) 64 (-1) [(4100, 4128); (4168, 4169)] false false [] exObjs exSegs = Ok (lit "0x10000" ++ [10] ++ lit "0x10018" ++ [10] ++ lit "0x20000" ++ [10], Some s).
Proof. split; [reflexivity|]. eexists. vm_compute. reflexivity. Qed.

(** C66: exactly when a reference to symbol + offset is found: the symbol is the one with the lowest end that is not below the address. *)
Theorem C66_offset_exact : forall ys off y, Forall symOk ys -> In y ys -> 0 <= off -> lsValue y + lsBase y + off < W64 ->
  (forall z, In z ys -> lsValue z + lsBase z + lsSize z = lsValue y + lsBase y + lsSize y -> z = y) ->
  ((exists k, storeFind (matchBound off) (fold_left storeAdd ys []) (lsValue y + lsBase y + off) = Some (k, y)) <->
   off <= lsSize y /\ forall z, In z ys -> lsValue y + lsBase y + off <= lsValue z + lsBase z + lsSize z -> lsValue y + lsBase y + lsSize y <= lsValue z + lsBase z + lsSize z).
Proof.
  intros ys off y Ho Hy H0 Hw Hu. change (fold_left storeAdd ys []) with (build ys). assert (Hall := Ho). rewrite Forall_forall in Hall. destruct (build_spec ys Ho) as (A & B & C). split.
  - intros (k & F). unfold storeFind in F. destruct (mapLowerBound (lsValue y + lsBase y + off) (build ys)) as [[k' [y' n]]|] eqn:E; [|discriminate]. destruct (matchBound off _ y'); [|discriminate]. injection F as <- <-.
    destruct (lb_some _ _ _ A E) as (I1 & I2 & I3). cbn [fst] in *. destruct (B _ I1) as (z & Hz & Ez). injection Ez as -> <- ->. unfold ends in *. split; [lia|]. intros x Hx L. destruct (C x Hx) as (v & Hv). specialize (I3 _ Hv). cbn [fst] in I3. unfold ends in I3. lia.
  - intros (L & M). destruct (find_at ys (lsValue y + lsBase y + off) y (matchBound off) Ho Hy) as (y' & H1 & H2 & _ & H3).
    + unfold ends. lia.
    + intros z Hz Lz. unfold ends in *. now apply M.
    + assert (y' = y) by (apply Hu; [exact H1|exact H2]). subst y'. eexists. rewrite H3. unfold matchBound. rewrite memaddr_ok by (apply Hall, Hy). unfold starts. rewrite u64_id by (pose proof (Hall y Hy); unfold symOk, isU64 in *; lia). now rewrite Z.eqb_refl.
Qed.
Print Assumptions C66_offset_exact.
(** Not so: --offset 0 is the search without an offset: references to any part of a symbol are reported. *)
Theorem C66_offset_zero_refuted : (forall fuel rd wordsize ranges show showsyms pats objs segs, canal fuel rd wordsize 0 ranges show showsyms pats objs segs = canal fuel rd wordsize (-1) ranges show showsyms pats objs segs) /\
  exists out s, canal 100 (rdOf exMem) 64 0 [] true false [] exObjs [mkSeg 131072 131080 false] = Ok (out, Some s) /\ out = lit "_ZTV1B 0x20000 ... size=16, diff=8" ++ [10].
Proof. split; [reflexivity|]. eexists _, _. split; [vm_compute; reflexivity|]. vm_compute. reflexivity. Qed.
Print Assumptions C66_offset_zero_refuted.
(** Nor is a reference beyond the end of the last symbol, or into the next one, found. *)
Theorem C66_beyond_refuted : forall y off k z, symOk y -> lsSize y < off -> lsValue y + lsBase y + off < W64 -> storeFind (matchBound off) (fold_left storeAdd [y] []) (lsValue y + lsBase y + off) <> Some (k, z).
Proof.
  intros y off k z Oy L W F. unfold storeFind in F. cbn [fold_left storeAdd emplace] in F. unfold storeAdd in F. cbn [emplace mapLowerBound] in F. rewrite key_ok in F by exact Oy. unfold ends in F. replace (lsValue y + lsBase y + lsSize y <? lsValue y + lsBase y + off) with true in F by lia. discriminate.
Qed.
Print Assumptions C66_beyond_refuted.
(** C67: a word that is the start of a symbol is not counted if another symbol ends there. *)
Theorem C67_adjacent_refuted : forall ys ws loc y z, Forall symOk ys -> disjoint ys -> (forall x, In x ys -> 0 < lsSize x) -> In y ys -> In z ys ->
  lsValue y + lsBase y + lsSize y = lsValue z + lsBase z ->
  pointsInto z (lsValue z + lsBase z) = true /\ searchSyms matchFree ws (fold_left storeAdd ys []) loc [lsValue z + lsBase z] = (fold_left storeAdd ys [], []).
Proof.
  intros ys ws loc y z Ho Hd Hp Hy Hz E. split; [pose proof (Hp z Hz); unfold pointsInto; lia|]. cbn [searchSyms]. now rewrite (C43_adjacent_refuted ys y z Ho Hd Hp Hy Hz E).
Qed.
Print Assumptions C67_adjacent_refuted.
