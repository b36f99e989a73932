From Coq Require Import Sorting.Sorted Sorting.Permutation.
From Verif Require Import Base Reader ReaderSpec DwarfReader DwarfReaderProofs CfiSpec Cfi CfiProofs CfiProofs2 Cursor ElfHash ElfHashSpec ElfHashProofs Bound ElfObj ElfObjSpec.

(** ** Segments *)
Definition covers (h : phdr) (a : Z) : Prop := p_vaddr h <= a < p_vaddr h + p_memsz h.
Definition segOk (h : phdr) : Prop := 0 <= p_vaddr h /\ 0 < p_memsz h /\ p_vaddr h + p_memsz h <= 2 ^ 64.
Definition segDisjoint (x y : phdr) : Prop := p_vaddr x + p_memsz x <= p_vaddr y \/ p_vaddr y + p_memsz y <= p_vaddr x.

Section Seg.
Context (hdrs : list phdr).
Context (Hok : Forall segOk hdrs) (Hs : StronglySorted (fun x y => p_vaddr x <= p_vaddr y) hdrs) (Hn : NoDup hdrs)
  (Hd : forall x y, In x hdrs -> In y hdrs -> x = y \/ segDisjoint x y).

Lemma sorted_nth : forall i j x y, (i < j)%nat -> nth_error hdrs i = Some x -> nth_error hdrs j = Some y -> p_vaddr x + p_memsz x <= p_vaddr y.
Proof using Hok Hs Hn Hd.
  intros i j x y Hij Hx Hy.
  assert (Hne : x <> y). { intros ->. assert (i = j); [|lia]. apply (proj1 (NoDup_nth_error hdrs) Hn); [apply nth_error_Some; congruence|congruence]. }
  assert (Hle : p_vaddr x <= p_vaddr y).
  { clear Hok Hn Hd Hne. revert i j Hij Hx Hy. induction Hs as [|z l Hl IH Hz]; intros i j Hij Hx Hy; [destruct i; discriminate|].
    destruct j as [|j]; [lia|]. cbn [nth_error] in Hy. destruct i as [|i]; cbn [nth_error] in Hx.
    - inversion Hx; subst. rewrite Forall_forall in Hz. apply Hz. eapply nth_error_In, Hy.
    - apply (IH Hl i j); auto; lia. }
  destruct (Hd x y) as [E|[E|E]]; [eapply nth_error_In, Hx|eapply nth_error_In, Hy|contradiction|exact E|].
  rewrite Forall_forall in Hok. pose proof (Hok x (nth_error_In _ _ Hx)) as (_ & ? & _). pose proof (Hok y (nth_error_In _ _ Hy)) as (_ & ? & _). lia.
Qed.
Lemma in_ok x : In x hdrs -> segOk x. Proof using Hok. clear -Hok. rewrite Forall_forall in Hok. apply Hok. Qed.
Lemma segPred_spec a x : In x hdrs -> 0 <= a < 2 ^ 64 -> segPred a x = (p_vaddr x + p_memsz x <=? a).
Proof using Hok.
  clear Hs Hn Hd. intros Hx Ha. destruct (in_ok x Hx) as (H1 & H2 & H3). unfold segPred, phEnd. change (2 ^ 64) with W64 in *.
  destruct (Z.eq_dec (p_vaddr x + p_memsz x) W64) as [E|E].
  - rewrite E. change (u64 W64) with 0. cbn [Z.eqb negb]. rewrite andb_false_r. lia.
  - rewrite u64_id by (unfold isU64; lia). replace (_ =? 0) with false by lia. now rewrite andb_true_r.
Qed.
Definition cacheOk (c : option phdr) : Prop := forall x, c = Some x -> In x hdrs.
Lemma cover_unique a x y : In x hdrs -> In y hdrs -> covers x a -> covers y a -> x = y.
Proof using Hd. clear Hok Hs Hn. intros Hx Hy Cx Cy. destruct (Hd x y Hx Hy) as [E|[E|E]]; [exact E| |]; unfold covers in *; lia. Qed.
Lemma segSearch_spec c a : cacheOk c -> 0 <= a < 2 ^ 64 ->
  cacheOk (fst (segSearch hdrs c a)) /\
  match snd (segSearch hdrs c a) with Some h => In h hdrs /\ covers h a | None => forall h, In h hdrs -> ~ covers h a end.
Proof using Hok Hs Hn Hd.
  intros Hc Ha. unfold segSearch.
  destruct (lowerBound_spec (segPred a) hdrs) as [Hr Hp].
  { intros i j x y Hij Hx Hy. rewrite !segPred_spec by (eauto using nth_error_In). pose proof (sorted_nth i j x y Hij Hx Hy).
    pose proof (in_ok y (nth_error_In _ _ Hy)) as (_ & ? & _). intros. lia. }
  set (r := lowerBound (segPred a) hdrs) in *. destruct (nth_error hdrs r) as [h|] eqn:E.
  - pose proof (nth_error_In _ _ E) as Hin. pose proof (Hp r h E) as P. rewrite Nat.ltb_irrefl, segPred_spec in P by assumption.
    destruct (p_vaddr h <=? a) eqn:Ev; cbn [fst snd].
    + split; [intros x Hx; injection Hx as <-; exact Hin|]. split; [exact Hin|]. unfold covers. lia.
    + split; [exact Hc|]. intros x Hx [C1 C2]. apply In_nth_error in Hx as [i Hi].
      pose proof (Hp i x Hi) as P2. rewrite segPred_spec in P2 by (eauto using nth_error_In).
      destruct (Nat.ltb_spec i r); [lia|]. destruct (Nat.eq_dec i r) as [->|].
      { rewrite E in Hi. injection Hi as <-. lia. }
      pose proof (sorted_nth r i h x ltac:(lia) E Hi). pose proof (in_ok h Hin) as (_ & ? & _). lia.
  - split; [exact Hc|]. cbn [snd]. apply nth_error_None in E. intros x Hx [C1 C2]. apply In_nth_error in Hx as [i Hi].
    pose proof (Hp i x Hi) as P2. rewrite segPred_spec in P2 by (eauto using nth_error_In).
    assert (i < length hdrs)%nat by (apply nth_error_Some; congruence). destruct (Nat.ltb_spec i r); lia.
Qed.
Lemma getSegment_spec c a : cacheOk c -> 0 <= a < 2 ^ 64 ->
  cacheOk (fst (getSegment hdrs c a)) /\
  match snd (getSegment hdrs c a) with Some h => In h hdrs /\ covers h a | None => forall h, In h hdrs -> ~ covers h a end.
Proof using Hok Hs Hn Hd.
  intros Hc Ha. unfold getSegment. destruct c as [c|]; [|now apply segSearch_spec].
  destruct ((p_vaddr c <=? a) && (phEnd c >? a)) eqn:E; [|now apply segSearch_spec].
  cbn [fst snd]. split; [exact Hc|]. specialize (Hc c eq_refl). split; [exact Hc|].
  destruct (in_ok c Hc) as (H1 & H2 & H3). unfold covers, phEnd in *. change (2 ^ 64) with W64 in *.
  destruct (Z.eq_dec (p_vaddr c + p_memsz c) W64) as [Ew|Ew]; [rewrite Ew in E; change (u64 W64) with 0 in E; lia|].
  rewrite u64_id in E by (unfold isU64; lia). lia.
Qed.
Lemma segHistory_ok h : Forall (fun a => 0 <= a < 2 ^ 64) h -> cacheOk (segHistory hdrs h).
Proof using Hok Hs Hn Hd.
  intros H. unfold segHistory. assert (H0 : cacheOk None) by (intros x; discriminate). revert H0. generalize (@None phdr).
  induction H as [|a h Ha _ IH]; intros c Hc; [exact Hc|]. cbn [fold_left]. apply IH. now apply getSegment_spec.
Qed.
End Seg.

(** ** Notes *)
Definition descOf (n : snote) : ndesc := mkNd (snName n) (snType n) (snDesc n).
Lemma leBytes4_len v : zlen (leBytes 4 v) = 4. Proof. now rewrite leBytes_len. Qed.
Lemma roundup2_4 v p : 0 <= v -> 0 <= p < 4 -> (v + p) mod 4 = 0 -> roundup2 v 4 = v + p.
Proof. intros Hv Hp H. unfold roundup2. lia. Qed.
Lemma encodeNote_len n : zlen (encodeNote n) = 12 + (zlen (snName n) + 1 + zlen (snPad1 n)) + (zlen (snDesc n) + zlen (snPad2 n)).
Proof. unfold encodeNote. rewrite !zlen_app, !leBytes4_len, zlen_cons. lia. Qed.
Lemma encodeNote_bytes n : wfNote n -> Forall isByte (encodeNote n).
Proof.
  intros (H1 & H2 & _). rewrite !Forall_app in H2. destruct H2 as (H2 & H3 & H4). unfold encodeNote. rewrite !Forall_app.
  repeat split; try apply leBytes_byte; auto.
  - eapply Forall_impl; [|exact H1]. unfold isByte. cbv beta. lia.
  - constructor; [unfold isByte; lia|assumption].
Qed.
(** a position in the file *)
Lemma view_at file base size off l : at_ file base l -> zlen l = size -> 0 <= off -> off <= size ->
  zdrop off (fileView file base size) = zdrop off l.
Proof. intros H <- Ho Hl. unfold fileView. now rewrite (at_take _ _ _ H). Qed.
Section NotesS.
Context (file : list Z) (Hf : zlen file + 32 < W64).

Lemma read_note base size off n rest : at_ file base (rest) -> zlen rest = size -> wfNote n ->
  (exists r2, zdrop off rest = encodeNote n ++ r2) -> 0 <= off ->
  readNote file base size off = Ok (mkNh (zlen (snName n) + 1) (zlen (snDesc n)) (snType n)) /\
  mkDesc file base off (mkNh (zlen (snName n) + 1) (zlen (snDesc n)) (snType n)) = descOf n.
Proof using Hf.
  intros A L W [r2 Hz] Ho. pose proof W as (W1 & W2 & W3 & W4 & W5 & W6 & W7).
  pose proof (zlen_nonneg (snName n)) as N1. pose proof (zlen_nonneg (snDesc n)) as N2. pose proof (zlen_nonneg (snPad1 n)) as N3.
  assert (Hlen : zlen rest <= zlen file).
  { pose proof A as [A0 [z Hzd]]. pose proof (zlen_zdrop base file A0) as Q. rewrite Hzd, zlen_app in Q. pose proof (zlen_nonneg z). pose proof (zlen_nonneg file). pose proof (zlen_nonneg rest). lia. }
  assert (Ar : at_ rest off (encodeNote n)) by (split; [exact Ho|]; eauto).
  split.
  - unfold readNote. assert (E : fileView file base size = rest) by (unfold fileView; subst size; exact (at_take _ _ _ A)). rewrite E.
    set (h3 := leBytes 4 (zlen (snName n) + 1) ++ leBytes 4 (zlen (snDesc n)) ++ leBytes 4 (snType n)).
    assert (A3 : at_ rest off h3). { unfold encodeNote in Ar. rewrite !app_assoc in Ar. do 4 apply at_app in Ar as [Ar _]. unfold h3. rewrite app_assoc. 
      first [exact Ar | (apply at_app in Ar as [Ar _]; exact Ar)]. }
    assert (L3 : zlen h3 = 12) by (unfold h3; rewrite !zlen_app, !leBytes4_len; reflexivity).
    rewrite (secBytes_at _ _ _ 12 A3 L3 ltac:(lia) ltac:(lia)). cbn [bind].
    assert (B3 : Forall isByte h3) by (unfold h3; rewrite !Forall_app; repeat split; apply leBytes_byte).
    assert (S3 : zlen h3 + 32 < W64) by (rewrite L3; reflexivity).
    pose proof (at_self h3) as Q. unfold h3 in Q at 2. rewrite <- !app_assoc in Q. change (2 ^ 32) with W32 in *.
    apply rd_u32 in Q as [E1 Q]; [|assumption|assumption|lia]. rewrite E1. cbn [bind].
    apply rd_u32 in Q as [E2 Q]; [|assumption|assumption|lia]. rewrite E2. cbn [bind].
    apply rd_u32 in Q as [E3 Q]; [|assumption|assumption|unfold W32; lia]. rewrite E3. reflexivity.
  - assert (Af : at_ file (base + off) (encodeNote n ++ r2)).
    { pose proof A as [A0 [z Hzd]]. split; [lia|]. exists z. rewrite Z.add_comm, <- zdrop_zdrop by lia. rewrite Hzd, <- Hz.
      clear -Ho Hz N1. rewrite !zdrop_skipn by lia. rewrite skipn_app. f_equal.
      assert (zlen (zdrop off rest) > 0). { rewrite Hz, zlen_app, encodeNote_len. pose proof (zlen_nonneg r2). pose proof (zlen_nonneg (snPad1 n)). pose proof (zlen_nonneg (snDesc n)). pose proof (zlen_nonneg (snPad2 n)). lia. }
      rewrite zlen_zdrop in H by lia. replace (Z.to_nat off - length rest)%nat with 0%nat by (unfold zlen in H; lia). reflexivity. }
    unfold encodeNote in Af. rewrite <- !app_assoc in Af.
    apply at_app in Af as [_ Af]. rewrite leBytes4_len in Af. apply at_app in Af as [_ Af]. rewrite leBytes4_len in Af.
    apply at_app in Af as [_ Af]. rewrite leBytes4_len in Af.
    assert (Af2 : at_ file (base + off + 12) ((snName n ++ 0 :: snPad1 n) ++ snDesc n ++ snPad2 n ++ r2)) by (replace (base + off + 12) with (base + off + 4 + 4 + 4) by lia; rewrite <- !app_assoc; exact Af).
    unfold mkDesc, descOf. cbn [n_namesz n_descsz n_type]. f_equal.
    + unfold secString. rewrite <- app_assoc in Af2. cbn [app] in Af2. apply rd_str in Af2 as [E _]; [|assumption]. rewrite E. reflexivity.
    + unfold s32, sgn, W32. rewrite Z.mod_small by (change (2 ^ 31) with 2147483648 in W5; lia). change (4294967296 / 2) with 2147483648.
      replace (_ <? _) with true by (change (2 ^ 31) with 2147483648 in W5; lia). reflexivity.
    + apply at_app in Af2 as [_ Af2]. rewrite zlen_app, zlen_cons in Af2. rewrite (roundup2_4 _ (zlen (snPad1 n))) by lia.
      apply at_app in Af2 as [Af2 _]. unfold fileView.
      replace (base + off + 12 + (zlen (snName n) + 1 + zlen (snPad1 n))) with (base + off + 12 + (zlen (snName n) + (zlen (snPad1 n) + 1))) by lia.
      exact (at_take _ _ _ Af2).
Qed.
Definition noteRel (ph : phdr) (ns : list snote) : Prop :=
  ns <> [] /\ wfNotes ns /\ at_ file (p_offset ph) (flat_map encodeNote ns) /\ p_filesz ph = zlen (flat_map encodeNote ns).

Lemma seg_walk ph : forall ns done fuel rest rdescs, ns <> [] -> wfNotes ns ->
  at_ file (p_offset ph) (done ++ flat_map encodeNote ns) -> p_filesz ph = zlen (done ++ flat_map encodeNote ns) ->
  segNotes fuel file rest 0 = Ok rdescs ->
  segNotes (length ns + fuel) file (ph :: rest) (zlen done) = Ok (map descOf ns ++ rdescs).
Proof using Hf.
  induction ns as [|n ns IH]; intros done fuel rest rdescs Hne W A L Hr; [congruence|].
  cbn [length Nat.add segNotes]. cbn [wfNotes] in W. destruct W as (Wn & Wl & Wm & Wr).
  destruct (read_note (p_offset ph) (p_filesz ph) (zlen done) n _ A (eq_sym L) Wn) as [E1 E2].
  { exists (flat_map encodeNote ns). rewrite zdrop_app_zlen. reflexivity. } { apply zlen_nonneg. }
  rewrite E1. cbn [bind]. pose proof Wn as (W1 & W2 & W3 & W4 & W5 & W6 & W7).
  pose proof (zlen_nonneg (snName n)) as N1. pose proof (zlen_nonneg (snDesc n)) as N2. pose proof (zlen_nonneg (snPad1 n)) as N3. pose proof (zlen_nonneg (snPad2 n)) as N4.
  assert (Es : noteSize (mkNh (zlen (snName n) + 1) (zlen (snDesc n)) (snType n)) = 12 + (zlen (snName n) + 1 + zlen (snPad1 n)) + 4 * ((zlen (snDesc n) + 3) / 4)).
  { unfold noteSize. cbn [n_namesz n_descsz]. change (roundup2 12 4) with 12. rewrite (roundup2_4 (zlen (snName n) + 1) (zlen (snPad1 n))) by lia.
    f_equal. unfold roundup2. lia. }
  rewrite Es. rewrite E2. cbn [flat_map] in L. rewrite !zlen_app, encodeNote_len in L.
  destruct ns as [|n2 ns].
  - cbn [flat_map] in L. change (zlen (@nil Z)) with 0 in L. replace (_ >=? _) with true by lia. cbn [length Nat.add]. rewrite Hr. reflexivity.
  - specialize (Wm ltac:(discriminate)).
    assert (Hpos : 0 < zlen (flat_map encodeNote (n2 :: ns))).
    { cbn [flat_map]. rewrite zlen_app, encodeNote_len. pose proof (zlen_nonneg (snName n2)). pose proof (zlen_nonneg (snDesc n2)). pose proof (zlen_nonneg (snPad1 n2)). pose proof (zlen_nonneg (snPad2 n2)).
      pose proof (zlen_nonneg (flat_map encodeNote ns)). lia. }
    assert (Ed : 4 * ((zlen (snDesc n) + 3) / 4) = zlen (snDesc n) + zlen (snPad2 n)) by lia.
    rewrite Ed. replace (_ >=? _) with false by lia.
    assert (Eo : zlen done + (12 + (zlen (snName n) + 1 + zlen (snPad1 n)) + (zlen (snDesc n) + zlen (snPad2 n))) = zlen (done ++ encodeNote n)) by (rewrite zlen_app, encodeNote_len; lia).
    rewrite Eo. rewrite (IH (done ++ encodeNote n) fuel rest rdescs); [reflexivity|discriminate|exact Wr| | |exact Hr].
    + rewrite <- app_assoc. exact A.
    + rewrite <- app_assoc. cbn [flat_map]. rewrite !zlen_app, encodeNote_len. cbn [flat_map] in L. rewrite !zlen_app in L. lia.
Qed.
Lemma segs_walk : forall phs nss, Forall2 noteRel phs nss -> forall k,
  segNotes (length (concat nss) + S k) file phs 0 = Ok (map descOf (concat nss)).
Proof using Hf.
  induction 1 as [|ph ns phs nss (H1 & H2 & H3 & H4) _ IH]; intros k; cbn [concat].
  - cbn [length Nat.add map]. reflexivity.
  - rewrite app_length, map_app, <- Nat.add_assoc. change 0 with (zlen (@nil Z)).
    apply (seg_walk ph ns [] _ phs); auto.
Qed.
Lemma segNotes_mono : forall fuel phs off r k, segNotes fuel file phs off = Ok r -> segNotes (fuel + k) file phs off = Ok r.
Proof using Type.
  clear. induction fuel as [|f IH]; intros phs off r k H; [discriminate|]. cbn [Nat.add segNotes] in *. destruct phs as [|ph rest]; [exact H|].
  destruct (readNote file (p_offset ph) (p_filesz ph) off) as [n| | |]; cbn [bind] in *; try discriminate.
  destruct (_ >=? _).
  - destruct (segNotes f file rest 0) as [x| | |] eqn:E; cbn [bind] in *; try discriminate. rewrite (IH _ _ _ k E). exact H.
  - destruct (segNotes f file (ph :: rest) _) as [x| | |] eqn:E; cbn [bind] in *; try discriminate. rewrite (IH _ _ _ k E). exact H.
Qed.
(** The iteration ends on any input. *)
Lemma getu32_range d o v o' : getu32 d o = Ok (v, o') -> 0 <= v < W32.
Proof using Type.
  clear. unfold getu32. destruct (secBytes d o 4) as [q| | |]; cbn [bind]; try discriminate.
  set (x := Z.lor _ _). intros H. injection H as <- _. apply u32_range.
Qed.
Lemma noteSize_pos base size off n : readNote file base size off = Ok n -> 12 <= noteSize n.
Proof using Type.
  clear. unfold readNote. destruct (secBytes _ off 12) as [b| | |]; cbn [bind]; try discriminate.
  destruct (getu32 b 0) as [[a o1]| | |] eqn:E1; cbn [bind]; try discriminate.
  destruct (getu32 b o1) as [[c o2]| | |] eqn:E2; cbn [bind]; try discriminate.
  destruct (getu32 b o2) as [[d o3]| | |] eqn:E3; cbn [bind]; try discriminate.
  intros H. injection H as <-. apply getu32_range in E1, E2. unfold noteSize, roundup2. cbn [n_namesz n_descsz]. change (12 + (4 - 12 mod 4) mod 4) with 12. lia.
Qed.
Lemma readNote_nf base size off : readNote file base size off <> OutOfFuel.
Proof using Type.
  clear. unfold readNote, secBytes, readObj, secRead. destruct (_ =? 0); cbn [bind].
  - unfold getu32, secBytes, readObj, secRead. cbn. discriminate.
  - destruct (off >? _); cbn [bind]; [discriminate|]. destruct (_ =? _); cbn [bind]; [|discriminate].
    assert (G : forall d o, getu32 d o <> OutOfFuel). { intros d o. unfold getu32, secBytes, readObj, secRead. cbn [Z.eqb]. destruct (o >? _); cbn [bind]; [discriminate|]. destruct (_ =? _); cbn [bind]; discriminate. }
    set (b := ztake _ _). destruct (getu32 b 0) as [[? o1]| | |] eqn:E; cbn [bind]; try discriminate; [|now apply G in E].
    destruct (getu32 b o1) as [[? o2]| | |] eqn:E2; cbn [bind]; try discriminate; [|now apply G in E2].
    destruct (getu32 b o2) as [[? o3]| | |] eqn:E3; cbn [bind]; try discriminate; now apply G in E3.
Qed.
Fixpoint noteBudget (phs : list phdr) : Z := match phs with [] => 1 | ph :: r => Z.max 0 (p_filesz ph) + 1 + noteBudget r end.
Lemma noteBudget_pos phs : 1 <= noteBudget phs. Proof using Type. clear. induction phs; cbn [noteBudget]; lia. Qed.
Lemma segNotes_ends : forall fuel phs off, 0 <= off -> noteBudget phs - match phs with [] => 0 | ph :: _ => Z.min off (Z.max 0 (p_filesz ph)) end <= Z.of_nat fuel ->
  segNotes fuel file phs off <> OutOfFuel.
Proof using Type.
  clear. induction fuel as [|f IH]; intros phs off Ho Hb.
  - exfalso. destruct phs as [|ph r]; cbn [noteBudget] in Hb; [lia|]. pose proof (noteBudget_pos r). lia.
  - cbn [segNotes]. destruct phs as [|ph rest]; [discriminate|]. cbn [noteBudget] in Hb.
    destruct (readNote file (p_offset ph) (p_filesz ph) off) as [n| | |] eqn:E; cbn [bind]; try discriminate; [|now apply readNote_nf in E].
    pose proof (noteSize_pos _ _ _ _ E) as Hp. destruct (off + noteSize n >=? p_filesz ph) eqn:Ec.
    + assert (N : segNotes f file rest 0 <> OutOfFuel). { apply IH; [lia|]. destruct rest as [|p2 r2]; [cbn [noteBudget] in *; lia|]. cbn [noteBudget] in *. lia. }
      destruct (segNotes f file rest 0); cbn [bind]; try discriminate. contradiction.
    + assert (N : segNotes f file (ph :: rest) (off + noteSize n) <> OutOfFuel). { apply IH; [lia|]. cbn [noteBudget]. lia. }
      destruct (segNotes f file (ph :: rest) (off + noteSize n)); cbn [bind]; try discriminate. contradiction.
Qed.
End NotesS.

(** ** Notes of a debug image: the same walk over the note sections *)
Definition toPh (s : shdr) : phdr := mkPh 4 (sh_offset s) 0 (sh_size s) 0.
Fixpoint noteSecs (n : nat) (secs : list shdr) (idx : Z) : list phdr :=
  match n with
  | O => []
  | S k => match znth idx secs with
           | Some s => if sh_type s =? 7 then toPh s :: noteSecs k secs (idx + 1) else noteSecs k secs (idx + 1)
           | None => noteSecs k secs (idx + 1)
           end
  end.
Section SecNotes.
Context (file : list Z) (secs : list shdr) (shnum : Z) (s0 : shdr).
Context (H0 : znth 0 secs = Some s0) (T0 : sh_type s0 = 0) (Hn : shnum <= zlen secs).
Definition notesAt (idx : Z) : list phdr := noteSecs (Z.to_nat (shnum - idx)) secs idx.
Lemma notesAt_end idx : shnum <= idx -> notesAt idx = [].
Proof using Type. clear. intros H. unfold notesAt. now replace (Z.to_nat (shnum - idx)) with O by lia. Qed.
Lemma notesAt_step idx s : 0 <= idx < shnum -> znth idx secs = Some s ->
  notesAt idx = if sh_type s =? 7 then toPh s :: notesAt (idx + 1) else notesAt (idx + 1).
Proof using Type.
  clear. intros H Hs. unfold notesAt. replace (Z.to_nat (shnum - idx)) with (S (Z.to_nat (shnum - (idx + 1)))) by lia. cbn [noteSecs]. now rewrite Hs.
Qed.
Lemma next_spec : forall fuel idx, 0 <= idx -> (Z.to_nat (shnum - idx) < fuel)%nat ->
  exists i, nextNoteSection fuel secs shnum idx = Ok i /\ idx <= i /\ notesAt i = notesAt idx /\
    (i < shnum -> exists s, znth i secs = Some s /\ sh_type s = 7).
Proof using H0 T0 Hn.
  induction fuel as [|f IH]; intros idx Hi Hf; [lia|]. cbn [nextNoteSection]. destruct (idx <? shnum) eqn:E.
  - destruct (znth_lt idx secs) as [s Hs]; [lia|]. rewrite Hs, H0.
    assert (Et : (sh_type (if sh_type s =? 0 then s0 else s) =? 7) = (sh_type s =? 7)).
    { destruct (sh_type s =? 0) eqn:?; [rewrite T0; destruct (sh_type s =? 7) eqn:?; lia|reflexivity]. }
    rewrite Et. destruct (sh_type s =? 7) eqn:E7.
    + exists idx. repeat split; auto; [lia|]. intros _. exists s. split; [exact Hs|lia].
    + destruct (IH (idx + 1)) as (i & A & B & C & D); [lia|lia|]. exists i. repeat split; auto; [lia|].
      rewrite C. rewrite (notesAt_step idx s) by (auto; lia). now rewrite E7.
  - exists idx. repeat split; auto; lia.
Qed.
Lemma secNotes_seg : forall fuel idx off, 0 <= idx -> (idx < shnum -> exists s, znth idx secs = Some s /\ sh_type s = 7) ->
  secNotes fuel file secs shnum idx off = segNotes fuel file (notesAt idx) off.
Proof using H0 T0 Hn.
  induction fuel as [|f IH]; intros idx off Hi Hs; [reflexivity|]. cbn [secNotes]. destruct (idx >=? shnum) eqn:E.
  - rewrite notesAt_end by lia. reflexivity.
  - destruct (Hs ltac:(lia)) as (s & Es & Et). rewrite Es. rewrite (notesAt_step idx s) by (auto; lia). rewrite Et. cbn [Z.eqb Pos.eqb segNotes toPh p_offset p_filesz].
    destruct (readNote file (sh_offset s) (sh_size s) off) as [n| | |]; cbn [bind]; try reflexivity.
    destruct (off + noteSize n <? sh_size s) eqn:El.
    + replace (_ >=? _) with false by lia. rewrite IH by (auto; lia). rewrite (notesAt_step idx s) by (auto; lia). rewrite Et. reflexivity.
    + replace (_ >=? _) with true by lia. destruct (next_spec (S (Z.to_nat (shnum - idx))) (idx + 1)) as (i & A & B & C & D); [lia|lia|].
      rewrite A. cbn [bind]. rewrite IH by (auto; lia). rewrite C. reflexivity.
Qed.
Lemma debugNotes_seg fuel : debugNotes fuel file secs shnum = segNotes fuel file (notesAt 1) 0.
Proof using H0 T0 Hn.
  unfold debugNotes. destruct (next_spec (S (Z.to_nat shnum)) 1) as (i & A & B & C & D); [lia|lia|]. rewrite A. cbn [bind].
  rewrite secNotes_seg by (auto; lia). now rewrite C.
Qed.
End SecNotes.

(** ** Symbols *)
Definition eligible (secs : list shdr) (addr type : Z) (c : esym) : Prop :=
  (type = 0 \/ Z.land (st_info c) 15 = type) /\ st_value c <= addr < st_value c + st_size c /\
  exists sec, znth (st_shndx c) secs = Some sec /\ Z.testbit (sh_flags sec) 1 = true.
Lemma land2 x : (Z.land x 2 =? 0) = negb (Z.testbit x 1).
Proof.
  change 2 with (2 ^ 1) . rewrite <- (Z.shiftl_1_l 1).
  destruct (Z.testbit x 1) eqn:E; cbn [negb].
  - apply Z.eqb_neq. intros H. assert (F : Z.testbit (Z.land x (Z.shiftl 1 1)) 1 = false) by (rewrite H; apply Z.testbit_0_l).
    rewrite Z.land_spec, E in F. discriminate.
  - apply Z.eqb_eq. apply Z.bits_inj'. intros n Hn. rewrite Z.land_spec, Z.testbit_0_l. change (Z.shiftl 1 1) with (2 ^ 1). rewrite Z.pow2_bits_eqb by lia.
    destruct (1 =? n) eqn:E1; [|apply andb_false_r]. replace n with 1 by lia. now rewrite E.
Qed.
Definition symOk (c : esym) : Prop := 0 <= st_value c /\ 0 <= st_size c /\ st_value c + st_size c < 2 ^ 64 /\ 0 <= st_shndx c.
Lemma findSym_spec strings secs addr type syms : Forall symOk syms -> 0 <= addr < 2 ^ 64 ->
  match findSym strings secs addr type syms with
  | Some (c, nm) => exists l1 l2, syms = l1 ++ c :: l2 /\ eligible secs addr type c /\ nm = secString strings (st_name c) /\ Forall (fun x => ~ eligible secs addr type x) l1
  | None => Forall (fun x => ~ eligible secs addr type x) syms
  end.
Proof.
  intros H Ha. induction H as [|c r (Hv & Hz & Hw & Hx) _ IH]; cbn [findSym]; [constructor|].
  assert (Skip : ~ eligible secs addr type c -> match findSym strings secs addr type r with
    | Some (c0, nm) => exists l1 l2, c :: r = l1 ++ c0 :: l2 /\ eligible secs addr type c0 /\ nm = secString strings (st_name c0) /\ Forall (fun x => ~ eligible secs addr type x) l1
    | None => Forall (fun x => ~ eligible secs addr type x) (c :: r) end).
  { intros N. destruct (findSym strings secs addr type r) as [[c0 nm]|].
    - destruct IH as (l1 & l2 & -> & A & B & C). exists (c :: l1), l2. split; [reflexivity|]. split; [exact A|]. split; [exact B|]. constructor; assumption.
    - constructor; assumption. }
  change (2 ^ 64) with W64 in *. rewrite u64_id by (unfold isU64; lia).
  destruct (st_shndx c >=? zlen secs) eqn:E1. { apply Skip. intros (_ & _ & sec & Hs & _). apply znth_some in Hs. lia. }
  destruct (negb (type =? 0) && negb (Z.land (st_info c) 15 =? type)) eqn:E2. { apply Skip. intros ([T|T] & _); subst; lia. }
  destruct (st_value c >? addr) eqn:E3. { apply Skip. intros (_ & R & _). lia. }
  destruct (st_size c + st_value c <=? addr) eqn:E4. { apply Skip. intros (_ & R & _). lia. }
  destruct (znth (st_shndx c) secs) as [sec|] eqn:Es. 2: { apply Skip. intros (_ & _ & sec & Hs & _). congruence. }
  rewrite land2. destruct (Z.testbit (sh_flags sec) 1) eqn:Et; cbn [negb].
  - exists [], r. split; [reflexivity|]. split; [|split; [reflexivity|constructor]]. split; [destruct (Z.eq_dec type 0); [now left|right; lia]|]. split; [lia|]. exists sec. auto.
  - apply Skip. intros (_ & _ & sec' & Hs & Ht). congruence.
Qed.
(** The symbol tables of an image and of the images embedded in it, in order: section headers,
    strings, symbols. *)
Fixpoint tables (o : elfobj) : list (list shdr * list Z * list esym) :=
  match o with
  | mkObj secs symtab strtab dynsym dynstr dd =>
      (secs, strtab, symtab) :: (secs, dynstr, dynsym) :: match dd with Some d => tables d | None => [] end
  end.
Fixpoint objSize (o : elfobj) : nat := match o with mkObj _ _ _ _ _ dd => S (match dd with Some d => objSize d | None => 0 end) end.
Lemma findByAddr_spec addr type : 0 <= addr < 2 ^ 64 -> forall k o, (objSize o < k)%nat -> Forall (fun t => Forall symOk (snd t)) (tables o) ->
  match findSymbolByAddress o addr type with
  | Some (c, nm) => exists secs strings syms, In (secs, strings, syms) (tables o) /\ In c syms /\ eligible secs addr type c /\ nm = secString strings (st_name c)
  | None => forall secs strings syms c, In (secs, strings, syms) (tables o) -> In c syms -> ~ eligible secs addr type c
  end.
Proof.
  intros Ha. induction k as [|k IH]; intros o Hk Hok; [lia|]. destruct o as [secs symtab strtab dynsym dynstr dd]. cbn [findSymbolByAddress tables objSize] in *.
  inversion Hok as [|? ? Ok1 Hok2]; subst. inversion Hok2 as [|? ? Ok2 Hok3]; subst. cbn [snd] in Ok1, Ok2.
  pose proof (findSym_spec strtab secs addr type symtab Ok1 Ha) as S1. destruct (findSym strtab secs addr type symtab) as [[c nm]|].
  { destruct S1 as (l1 & l2 & -> & A & B & _). exists secs, strtab, (l1 ++ c :: l2). split; [now left|]. split; [apply in_elt|]. auto. }
  pose proof (findSym_spec dynstr secs addr type dynsym Ok2 Ha) as S2. destruct (findSym dynstr secs addr type dynsym) as [[c nm]|].
  { destruct S2 as (l1 & l2 & -> & A & B & _). exists secs, dynstr, (l1 ++ c :: l2). split; [right; now left|]. split; [apply in_elt|]. auto. }
  rewrite Forall_forall in S1, S2.
  destruct dd as [d|].
  - specialize (IH d ltac:(lia) Hok3). destruct (findSymbolByAddress d addr type) as [[c nm]|].
    + destruct IH as (a & b & s & I1 & I2). exists a, b, s. split; [right; right; exact I1|exact I2].
    + intros a b s c [E|[E|Hin]] Hc; [injection E as <- <- <-; now apply S1|injection E as <- <- <-; now apply S2|]. eapply IH; eauto.
  - intros a b s c [E|[E|[]]] Hc; injection E as <- <- <-; [now apply S1|now apply S2].
Qed.

(** ** Sections by name *)
Lemma startsWith_spec p l : startsWith p l = true <-> exists r, l = p ++ r.
Proof.
  revert l; induction p as [|x p IH]; intros l; cbn [startsWith app].
  - split; [intros _; eauto|reflexivity].
  - destruct l as [|y l]; [split; [discriminate|intros [r H]; discriminate]|]. rewrite andb_true_iff, IH, Z.eqb_eq. split.
    + intros [-> [r ->]]. eauto.
    + intros [r H]. injection H as -> ->. eauto.
Qed.
Lemma isDebug_starts n : startsWith dotDebug n = true <-> isDebugName n.
Proof. apply startsWith_spec. Qed.
(** [n] is not a proper suffix of ".dwo" *)
Definition safeName (n : list Z) : Prop := n <> [] /\ n <> [111] /\ n <> [119; 111] /\ n <> [100; 119; 111].
Lemma equalRange_spec : forall rs rn, equalRange rs rn = if startsWith rs rn then Ok true else if startsWith rn rs then UB else Ok false.
Proof.
  induction rs as [|x rs IH]; intros rn; cbn [equalRange startsWith]; [reflexivity|]. destruct rn as [|y rn]; cbn [startsWith]; [reflexivity|].
  rewrite (Z.eqb_sym y x). destruct (x =? y); cbn [andb]; [apply IH|reflexivity].
Qed.
Lemma dwo_ends n : safeName n -> equalRange (rev dotDwo) (rev n) = Ok (startsWith (rev dotDwo) (rev n)).
Proof.
  intros (H1 & H2 & H3 & H4). rewrite equalRange_spec. destruct (startsWith (rev dotDwo) (rev n)) eqn:E; [reflexivity|].
  destruct (startsWith (rev n) (rev dotDwo)) eqn:E2; [|reflexivity]. exfalso. apply startsWith_spec in E2 as [r Hr].
  change (rev dotDwo) with [111; 119; 100; 46] in *. rewrite <- (rev_involutive n) in H1, H2, H3, H4.
  destruct (rev n) as [|a l]; [now apply H1|]. cbn [app] in Hr. injection Hr as <- Hr.
  destruct l as [|b l]; [now apply H2|]. cbn [app] in Hr. injection Hr as <- Hr.
  destruct l as [|c l]; [now apply H3|]. cbn [app] in Hr. injection Hr as <- Hr.
  destruct l as [|d l]; [now apply H4|]. cbn [app] in Hr. injection Hr as <- Hr.
  destruct l; [|discriminate]. discriminate.
Qed.
Lemma ends_spec n : startsWith (rev dotDwo) (rev n) = true <-> endsDwo n.
Proof.
  rewrite startsWith_spec. unfold endsDwo. split; intros [r H].
  - exists (rev r). rewrite <- (rev_involutive n), H, rev_app_distr, rev_involutive. reflexivity.
  - exists (rev r). rewrite H, rev_app_distr. reflexivity.
Qed.
Lemma namedFrom_some secs name : forall i k, namedFrom secs i name = Some k -> i <= k /\ exists s, znth (k - i) secs = Some s /\ sh_nm s = name.
Proof.
  induction secs as [|s r IH]; intros i k H; cbn [namedFrom] in H; [discriminate|].
  destruct (namedFrom r (i + 1) name) as [j|] eqn:E.
  - injection H as <-. destruct (IH _ _ E) as (H1 & s' & H2 & H3). split; [lia|]. exists s'. split; [|exact H3].
    cbn [znth]. destruct (j - i =? 0) eqn:?; [lia|]. destruct (j - i <? 0) eqn:?; [lia|]. rewrite <- H2. f_equal. lia.
  - destruct (beq (sh_nm s) name) eqn:Eb; [|discriminate]. injection H as <-. apply beq_spec in Eb. split; [lia|]. exists s.
    replace (i - i) with 0 by lia. auto.
Qed.
Lemma namedFrom_none secs name : forall i, namedFrom secs i name = None -> forall s, In s secs -> sh_nm s <> name.
Proof.
  induction secs as [|s r IH]; intros i H s' Hs'; [destruct Hs'|]. cbn [namedFrom] in H.
  destruct (namedFrom r (i + 1) name) as [j|] eqn:E; [discriminate|]. destruct (beq (sh_nm s) name) eqn:Eb; [discriminate|].
  destruct Hs' as [<-|Hs']; [intros Eq; rewrite (proj2 (beq_spec _ _) Eq) in Eb; discriminate|]. now apply (IH _ E).
Qed.
Section Sect.
Context (secs : list shdr) (type : Z).
Definition typeOk (s : shdr) : Prop := type = 0 \/ sh_type s = type.
(** section [i] is called [n] and has the type asked for *)
Definition hit (n : list Z) (i : Z) : Prop := exists s, znth i secs = Some s /\ sh_nm s = n /\ typeOk s.
Definition lookup1 (n : list Z) : option Z :=
  match namedFrom secs 0 n with
  | Some i => match znth i secs with Some s => if (sh_type s =? type) || (type =? 0) then Some i else None | None => None end
  | None => None
  end.
Lemma lookup1_hit n i : lookup1 n = Some i -> hit n i.
Proof using Type.
  unfold lookup1. destruct (namedFrom secs 0 n) as [k|] eqn:E; [|discriminate]. destruct (namedFrom_some _ _ _ _ E) as (_ & s & H1 & H2).
  rewrite Z.sub_0_r in H1. rewrite H1. destruct ((sh_type s =? type) || (type =? 0)) eqn:Et; [|discriminate]. intros H. injection H as <-.
  exists s. repeat split; auto. unfold typeOk. lia.
Qed.
Lemma lookup1_none n : NoDup (map sh_nm secs) -> lookup1 n = None -> forall i, ~ hit n i.
Proof using Type.
  intros ND H i (s & Hs & Hnm & Ht). unfold lookup1 in H.
  assert (Hin : In s secs) by (pose proof (znth_some _ _ _ Hs); rewrite znth_nth_error in Hs by lia; eapply nth_error_In, Hs).
  destruct (namedFrom secs 0 n) as [k|] eqn:E; [|now apply (namedFrom_none _ _ _ E s)].
  destruct (namedFrom_some _ _ _ _ E) as (_ & s' & H1 & H2). rewrite Z.sub_0_r in H1. rewrite H1 in H.
  assert (s' = s).
  { pose proof (znth_some _ _ _ Hs). pose proof (znth_some _ _ _ H1). rewrite znth_nth_error in Hs, H1 by lia.
    assert (Z.to_nat k = Z.to_nat i). { apply (proj1 (NoDup_nth_error _) ND); [rewrite map_length; apply nth_error_Some; congruence|].
      rewrite (map_nth_error sh_nm _ _ H1), (map_nth_error sh_nm _ _ Hs). congruence. } congruence. }
  subst s'. unfold typeOk in Ht. destruct ((sh_type s =? type) || (type =? 0)) eqn:Et; [discriminate|]. lia.
Qed.
Lemma getSection_S f n : getSection (S f) secs n type =
  match lookup1 n with
  | Some i => Ok i
  | None => let dwo := let* e := equalRange (rev dotDwo) (rev n) in if e then Ok 0 else getSection f secs (n ++ dotDwo) type in
      if startsWith dotDebug n then let* c := getSection f secs (46 :: 122 :: tl n) type in if secTrue secs c then Ok c else dwo else dwo
  end.
Proof using Type.
  unfold lookup1. cbn [getSection]. destruct (namedFrom secs 0 n) as [i|] eqn:E; [|reflexivity].
  destruct (namedFrom_some _ _ _ _ E) as (_ & s' & H1 & H2). rewrite Z.sub_0_r in H1. rewrite H1. now destruct ((sh_type s' =? type) || (type =? 0)).
Qed.
Definition o2z (o : option Z) : Z := match o with Some i => i | None => 0 end.
Definition orElse (a b : option Z) : option Z := match a with Some i => Some i | None => b end.
Definition whenTrue (o : option Z) : option Z := match o with Some i => if secTrue secs i then Some i else None | None => None end.

Lemma notDebug_z n : startsWith dotDebug (46 :: 122 :: tl n) = false. Proof using Type. reflexivity. Qed.
Lemma safe_long n : (4 <= length n)%nat -> safeName n.
Proof using Type. clear. intros H. repeat split; intros ->; cbn in H; lia. Qed.
Lemma ends_app n : startsWith (rev dotDwo) (rev (n ++ dotDwo)) = true.
Proof using Type. clear. apply ends_spec. now exists n. Qed.
Lemma debug_app n : startsWith dotDebug n = false -> safeName n -> startsWith dotDebug (n ++ dotDwo) = false.
Proof using Type.
  clear. intros H _. destruct (startsWith dotDebug (n ++ dotDwo)) eqn:E; [|reflexivity]. apply startsWith_spec in E as [r Hr].
  unfold dotDebug, dotDwo in *. cbn [app] in Hr.
  do 7 (destruct n as [|? n]; [discriminate Hr|cbn [app] in Hr; injection Hr as -> Hr]). discriminate H.
Qed.
(** names not starting ".debug_": the name, else with ".dwo" *)
Lemma plain f n : (2 <= f)%nat -> safeName n -> startsWith dotDebug n = false ->
  getSection f secs n type = Ok (o2z (orElse (lookup1 n) (if startsWith (rev dotDwo) (rev n) then None else lookup1 (n ++ dotDwo)))).
Proof using Type.
  intros Hf Hs Hd. destruct f as [|[|f]]; [lia|lia|]. rewrite getSection_S. destruct (lookup1 n) as [i|]; [reflexivity|]. cbv zeta. rewrite Hd.
  rewrite dwo_ends by assumption. cbn [bind]. destruct (startsWith (rev dotDwo) (rev n)); [reflexivity|].
  rewrite getSection_S. cbn [orElse]. destruct (lookup1 (n ++ dotDwo)) as [i|]; [reflexivity|]. cbv zeta. rewrite debug_app by assumption.
  rewrite dwo_ends by (apply safe_long; rewrite app_length; cbn; lia). rewrite ends_app. reflexivity.
Qed.
Lemma zname_eq n : zname n = 46 :: 122 :: tl n. Proof using Type. clear. now destruct n. Qed.
Lemma debug_ends f n : (2 <= f)%nat -> startsWith dotDebug n = true -> startsWith (rev dotDwo) (rev n) = true ->
  getSection (S f) secs n type = Ok (o2z (orElse (lookup1 n) (whenTrue (lookup1 (zname n))))).
Proof using Type.
  intros Hf Hd He. rewrite getSection_S. destruct (lookup1 n) as [i|]; [reflexivity|]. cbv zeta. rewrite Hd.
  assert (Sn : safeName n). { apply safe_long. apply startsWith_spec in Hd as [r ->]. rewrite app_length. cbn. lia. }
  assert (Sz : safeName (46 :: 122 :: tl n)). { apply safe_long. apply startsWith_spec in Hd as [r ->]. cbn. lia. }
  assert (Ez : startsWith (rev dotDwo) (rev (46 :: 122 :: tl n)) = true).
  { apply ends_spec. apply ends_spec in He as [q ->]. apply startsWith_spec in Hd as [r Hr]. destruct q as [|x q]; [discriminate Hr|].
    exists (46 :: 122 :: q). reflexivity. }
  rewrite plain by (try assumption; reflexivity). rewrite Ez. rewrite zname_eq. cbn [bind orElse].
  rewrite dwo_ends by assumption. rewrite He. cbn [bind].
  destruct (lookup1 (46 :: 122 :: tl n)) as [i|]; cbn [orElse o2z whenTrue]; [destruct (secTrue secs i); reflexivity|]. now destruct (secTrue secs 0).
Qed.
Lemma debug_plain f n : (3 <= f)%nat -> znth 0 secs <> None -> secTrue secs 0 = false -> startsWith dotDebug n = true -> startsWith (rev dotDwo) (rev n) = false ->
  getSection (S f) secs n type = Ok (o2z (orElse (lookup1 n) (orElse (whenTrue (orElse (lookup1 (zname n)) (lookup1 (zname (dwoname n)))))
     (orElse (lookup1 (dwoname n)) (whenTrue (lookup1 (zname (dwoname n)))))))).
Proof using Type.
  intros Hf _ H0 Hd He. rewrite getSection_S. destruct (lookup1 n) as [i|]; [reflexivity|]. cbv zeta. rewrite Hd.
  assert (Sn : safeName n). { apply safe_long. apply startsWith_spec in Hd as [r ->]. rewrite app_length. cbn. lia. }
  assert (Sz : safeName (46 :: 122 :: tl n)). { apply safe_long. apply startsWith_spec in Hd as [r ->]. cbn. lia. }
  assert (Ez : startsWith (rev dotDwo) (rev (46 :: 122 :: tl n)) = false).
  { destruct (startsWith (rev dotDwo) (rev (46 :: 122 :: tl n))) eqn:E; [|reflexivity]. exfalso. apply ends_spec in E as [q Hq].
    apply startsWith_spec in Hd as [r Hr]. assert (endsDwo n); [|apply ends_spec in H; congruence]. subst n. cbn [tl dotDebug app] in Hq.
    destruct q as [|x q]; [discriminate Hq|]. cbn [app] in Hq. injection Hq as <- Hq. destruct q as [|x q]; [discriminate Hq|]. cbn [app] in Hq. injection Hq as <- Hq.
    exists (46 :: q). cbn [app]. now rewrite <- Hq. }
  rewrite plain by (try assumption; try reflexivity; lia). rewrite Ez. cbn [bind orElse].
  assert (Ed : (46 :: 122 :: tl n) ++ dotDwo = zname (dwoname n)). { apply startsWith_spec in Hd as [r ->]. reflexivity. }
  rewrite Ed, (zname_eq n). rewrite dwo_ends by assumption. rewrite He. cbn [bind].
  destruct f as [|f]; [lia|]. change (n ++ dotDwo) with (dwoname n). rewrite debug_ends; [|lia| |].
  - destruct (lookup1 (46 :: 122 :: tl n)) as [i|]; cbn [orElse o2z whenTrue]; [destruct (secTrue secs i); reflexivity|].
    destruct (lookup1 (zname (dwoname n))) as [i|]; cbn [orElse o2z whenTrue]; [destruct (secTrue secs i); reflexivity|]. now rewrite H0.
  - apply startsWith_spec in Hd as [r ->]. apply startsWith_spec. exists (r ++ dotDwo). unfold dwoname. now rewrite <- app_assoc.
  - apply ends_app.
Qed.
End Sect.
Section SectFacts.
Context (secs : list shdr) (type : Z) (s0 : shdr).
Context (H0 : znth 0 secs = Some s0) (T0 : sh_type s0 = 0).
Lemma true0 : secTrue secs 0 = false.
Proof using H0 T0. unfold secTrue. rewrite H0, T0. reflexivity. Qed.
Lemma whenTrue_some o i : whenTrue secs o = Some i -> o = Some i.
Proof using Type. clear. destruct o as [k|]; cbn [whenTrue]; [|discriminate]. destruct (secTrue secs k); [auto|discriminate]. Qed.
(** The candidates in order. *)
Lemma getSection_cands f n : (4 <= f)%nat -> safeName n -> exists o, getSection f secs n type = Ok (o2z o) /\
  (forall i, lookup1 secs type n = Some i -> o = Some i) /\
  (forall i, o = Some i -> exists m, aliasOf n m /\ hit secs type m i) /\
  (NoDup (map sh_nm secs) -> forall m i, aliasOf n m -> hit secs type m i -> secTrue secs i = true -> o <> None).
Proof using H0 T0.
  intros Hf Hs. destruct f as [|f]; [lia|].
  assert (Miss : NoDup (map sh_nm secs) -> forall m i, hit secs type m i -> lookup1 secs type m <> None).
  { intros ND m i Hh E. now apply (lookup1_none secs type m ND E i). }
  assert (MissT : NoDup (map sh_nm secs) -> forall m i, hit secs type m i -> secTrue secs i = true -> whenTrue secs (lookup1 secs type m) <> None).
  { intros ND m i Hh Ht. destruct (lookup1 secs type m) as [k|] eqn:E; [|now apply (lookup1_none secs type m ND E i) in Hh].
    assert (k = i). { apply lookup1_hit in E. destruct E as (s & E1 & E2 & _), Hh as (s' & E3 & E4 & _).
      pose proof (znth_some _ _ _ E1). pose proof (znth_some _ _ _ E3). rewrite znth_nth_error in E1, E3 by lia.
      assert (Z.to_nat k = Z.to_nat i); [|lia]. apply (proj1 (NoDup_nth_error _) ND); [rewrite map_length; apply nth_error_Some; congruence|].
      rewrite (map_nth_error sh_nm _ _ E1), (map_nth_error sh_nm _ _ E3). congruence. }
    subst. cbn [whenTrue]. rewrite Ht. discriminate. }
  destruct (startsWith dotDebug n) eqn:Ed; [destruct (startsWith (rev dotDwo) (rev n)) eqn:Ee|].
  - rewrite debug_ends by (auto; lia). eexists. split; [reflexivity|]. apply isDebug_starts in Ed as Dn. apply ends_spec in Ee as En. split; [|split].
    + intros i ->. reflexivity.
    + intros i Hi. destruct (lookup1 secs type n) as [k|] eqn:E1; cbn [orElse] in Hi.
      * injection Hi as <-. exists n. split; [constructor|now apply lookup1_hit].
      * apply whenTrue_some in Hi. exists (zname n). split; [now constructor|now apply lookup1_hit].
    + intros ND m i Ha Hh Ht E. destruct (lookup1 secs type n) as [k|] eqn:E1; [discriminate|]. cbn [orElse] in E. inversion Ha; subst; try contradiction.
      * now apply (Miss ND m i).
      * now apply (MissT ND (zname n) i).
  - rewrite debug_plain; [|lia|congruence|apply true0|assumption..]. eexists. split; [reflexivity|]. apply isDebug_starts in Ed as Dn.
    assert (En : ~ endsDwo n) by (intros X; apply ends_spec in X; congruence). split; [|split].
    + intros i ->. reflexivity.
    + intros i Hi. destruct (lookup1 secs type n) as [k|] eqn:E1; cbn [orElse] in Hi.
      { injection Hi as <-. exists n. split; [constructor|now apply lookup1_hit]. }
      assert (Hi' : lookup1 secs type (zname n) = Some i \/ lookup1 secs type (zname (dwoname n)) = Some i \/ lookup1 secs type (dwoname n) = Some i).
      { destruct (whenTrue secs (orElse (lookup1 secs type (zname n)) (lookup1 secs type (zname (dwoname n))))) as [k|] eqn:E2; cbn [orElse] in Hi.
        - injection Hi as <-. apply whenTrue_some in E2. destruct (lookup1 secs type (zname n)); cbn [orElse] in E2; auto.
        - destruct (lookup1 secs type (dwoname n)) as [k|]; cbn [orElse] in Hi; [auto|]. apply whenTrue_some in Hi. auto. }
      destruct Hi' as [E|[E|E]]; apply lookup1_hit in E; eexists; (split; [|exact E]); now constructor.
    + intros ND m i Ha Hh Ht E. destruct (lookup1 secs type n) as [k|] eqn:E1; [discriminate|]. cbn [orElse] in E.
      destruct (whenTrue secs (orElse (lookup1 secs type (zname n)) (lookup1 secs type (zname (dwoname n))))) as [k|] eqn:E2; [discriminate|]. cbn [orElse] in E.
      destruct (lookup1 secs type (dwoname n)) as [k|] eqn:E3; [discriminate|]. cbn [orElse] in E. inversion Ha; subst.
      * now apply (Miss ND m i).
      * pose proof (MissT ND (zname n) i Hh Ht) as P. pose proof (Miss ND (zname n) i Hh) as P2. destruct (lookup1 secs type (zname n)); cbn [orElse] in E2; contradiction.
      * now apply (Miss ND (dwoname n) i).
      * now apply (MissT ND (zname (dwoname n)) i).
  - rewrite plain by (auto; lia). eexists. split; [reflexivity|].
    assert (Dn : ~ isDebugName n) by (intros X; apply isDebug_starts in X; congruence). split; [|split].
    + intros i ->. reflexivity.
    + intros i Hi. destruct (lookup1 secs type n) as [k|] eqn:E1; cbn [orElse] in Hi.
      { injection Hi as <-. exists n. split; [constructor|now apply lookup1_hit]. }
      destruct (startsWith (rev dotDwo) (rev n)) eqn:Ee; [discriminate|]. exists (dwoname n). split; [|now apply lookup1_hit].
      constructor. intros X. apply ends_spec in X. congruence.
    + intros ND m i Ha Hh Ht E. destruct (lookup1 secs type n) as [k|] eqn:E1; [discriminate|]. cbn [orElse] in E. inversion Ha; subst; try contradiction.
      * now apply (Miss ND m i).
      * destruct (startsWith (rev dotDwo) (rev n)) eqn:Ee; [apply ends_spec in Ee; contradiction|]. now apply (Miss ND (dwoname n) i).
Qed.
End SectFacts.
