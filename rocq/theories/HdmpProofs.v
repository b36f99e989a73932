From Coq Require Import Ascii String.
From Verif Require Import Base Leb LebSpec DwarfReader DwarfReaderProofs MapsSpec Reader ReaderProofs ReaderArrayProofs CacheProofs Cfi CfiSpec CfiProofs ElfHash ElfHashProofs Json Args ArgsSpec ArgsProofs Load LoadSpec LoadProofs FrameText FrameTextSpec Heap Hdmp HdmpSpec.

(** ** Numbers as text *)
Lemma char_digit base v : 2 <= base <= 16 -> 0 <= v < base -> digitOf base (hexChar v) v.
Proof. intros Hb Hv. unfold digitOf, hexChar. split; [lia|]. destruct (v <? 10) eqn:E; [left|right]; lia. Qed.
Lemma hexChar48 v : 0 <= v < 16 -> hexChar v = 48 -> v = 0.
Proof. unfold hexChar. destruct (v <? 10); lia. Qed.
Lemma numText_canonical base : 2 <= base <= 16 -> forall fuel v, (0 < fuel)%nat -> 0 <= v < base ^ Z.of_nat fuel -> canonical base (numText base fuel v) v.
Proof.
  intros Hb. induction fuel as [|f IH]; intros v Hf Hv; [lia|]. cbn [numText]. destruct (v <? base) eqn:E.
  - split; [constructor; apply char_digit; lia|]. cbn [hd]. now intros ->.
  - assert (Hq : 1 <= v / base) by (apply Z.div_le_lower_bound; lia). pose proof (Z.mod_pos_bound v base ltac:(lia)) as Hm. pose proof (Z.div_mod v base ltac:(lia)) as Hd.
    assert (Hf' : (0 < f)%nat). { destruct f; [|lia]. change (base ^ Z.of_nat 1) with (base ^ 1) in Hv. rewrite Z.pow_1_r in Hv. lia. }
    replace (Z.of_nat (S f)) with (Z.of_nat f + 1) in Hv by lia. rewrite Z.pow_add_r, Z.pow_1_r in Hv by lia.
    destruct (IH (v / base) Hf') as [N C]. { split; [lia|]. apply Z.div_lt_upper_bound; lia. }
    split.
    + replace v with (v / base * base + v mod base) at 3 by lia. constructor; [exact N|]. apply char_digit; lia.
    + pose proof (num_ne _ _ _ N) as Ne. destruct (numText base f (v / base)) as [|x s] eqn:Es; [easy|]. cbn [hd app]. intros ->. specialize (C eq_refl). injection C as ->.
      inversion N as [c d D|s0 v0 c d N0 D E1]; [|exfalso; destruct s0; [now apply num_ne in N0|destruct s0; discriminate]]. subst. destruct D as [D1 [[D2 D3]|[D2 D3]]]; lia.
Qed.
Lemma decText_canon v : isWord v -> canonical 10 (decText 20 v) v.
Proof. intros [H H']. rewrite decText_num by lia. apply numText_canonical; [lia|lia|]. change (10 ^ Z.of_nat 20) with 100000000000000000000. lia. Qed.
Lemma intText_decimal v : - 2 ^ 31 <= v < 2 ^ 31 -> decimal (intText v) v.
Proof.
  intros R. unfold intText, decimal. destruct (v <? 0) eqn:E; [right|left].
  - split; [lia|]. eexists. split; [reflexivity|]. apply decText_canon. unfold isWord. lia.
  - split; [lia|]. apply decText_canon. unfold isWord. lia.
Qed.
Lemma ptrText_pointer v : isWord v -> pointer (ptrText v) v.
Proof.
  intros [R R']. unfold ptrText, pointer. destruct (v =? 0) eqn:E; [left|right]; [split; [lia|reflexivity]|]. split; [lia|]. eexists. split; [reflexivity|]. rewrite hexText_num.
  apply numText_canonical; [lia|lia|]. change (16 ^ Z.of_nat 16) with (2 ^ 64). lia.
Qed.

(** ** Words *)
Lemma words_len l : zlen (words l) = 8 * zlen l.
Proof. induction l as [|x l IH]; [reflexivity|]. unfold words. cbn [flat_map]. rewrite zlen_app, leBytes_len. fold (words l). rewrite IH, zlen_cons. lia. Qed.
Lemma words_app a b : words (a ++ b) = words a ++ words b.
Proof. apply flat_map_app. Qed.
Lemma words_cons x l : words (x :: l) = leBytes 8 x ++ words l.
Proof. reflexivity. Qed.
Lemma word_in pre a v b post o : o = zlen pre + 8 * zlen a -> isWord v -> word (pre ++ words (a ++ v :: b) ++ post) o = v.
Proof.
  intros -> H. rewrite words_app, words_cons, <- !app_assoc, app_assoc. apply word_at; [|exact H]. rewrite zlen_app, words_len. lia.
Qed.

Section Text.
Context (seg : Z -> res (option (Z * Z))) (sym : Z -> Z -> res (option (Z * list Z))) (src : Z -> Z -> res (list (list Z * Z))).
Notation lookable := (lookable seg sym src).
Notation Line := (Line seg sym src).
Notation frameLine := (frameLine seg sym src).
Notation stackLoop := (stackLoop seg sym src).

Lemma sources_ok : forall l sep, Forall (fun x => - 2 ^ 31 <= snd x < 2 ^ 31) l -> Sources (tx sep) l (srcText sep l).
Proof.
  induction l as [|[f n] l IH]; intros sep F; [constructor|]. apply Forall_cons_iff in F as [F1 F2]. cbn [srcText]. apply SoCons; [now apply intText_decimal|]. apply IH, F2.
Qed.
Lemma frameLine_ok (first : bool) a : isWord a -> let ip := if first then a else a - 1 in lookable ip -> exists t, frameLine first a = Ok t /\ Line ip a t.
Proof.
  intros Ha ip (s & Es & L). unfold Hdmp.frameLine. fold ip. rewrite Es. cbn [bind]. destruct s as [[reloc e]|].
  - destruct L as [(y & Ey) (l & El & Fl)]. unfold u64. change W64 with (2 ^ 64). rewrite Ey, El. cbn [bind]. eexists. split; [reflexivity|].
    destruct y as [[v name]|].
    + rewrite <- !app_assoc. eapply LnSym; [exact Es|exact Ey|exact El| |now apply ptrText_pointer|].
      * apply (sources_ok l "in" Fl).
      * apply decText_canon. unfold isWord. apply Z.mod_pos_bound. lia.
    + eapply LnNoSym; [exact Es|exact Ey|exact El| |now apply ptrText_pointer]. apply (sources_ok l "in" Fl).
  - eexists. split; [reflexivity|]. apply LnUnknown; [exact Es|now apply ptrText_pointer].
Qed.

Definition ended (n : nat) (st rest : list Z) : Prop := (rest = [] /\ n = length st) \/ (exists r, rest = 0 :: r) /\ (length st < n)%nat.
Lemma stack_end n pre a rest post first : ended n [] rest -> Forall isWord rest -> stackLoop n first (pre ++ words (a ++ rest) ++ post) (zlen pre + 8 * zlen a) = Ok [10].
Proof.
  intros [[-> ->]|[(r & ->) L]] F; [reflexivity|]. destruct n as [|n]; [cbn in L; lia|]. cbn [Hdmp.stackLoop].
  apply Forall_cons_iff in F as [F1 F2]. rewrite word_in by (try reflexivity; assumption). replace (zlen (pre ++ words (a ++ 0 :: r) ++ post) <? zlen pre + 8 * zlen a + 8) with false; [reflexivity|].
  rewrite !zlen_app, words_len, zlen_app, zlen_cons. pose proof (zlen_nonneg r). pose proof (zlen_nonneg post). lia.
Qed.
Lemma stack_step n pre a x rest post first t r : Forall isWord (x :: rest) -> x <> 0 -> frameLine first x = Ok t ->
  stackLoop n false (pre ++ words ((a ++ [x]) ++ rest) ++ post) (zlen pre + 8 * zlen (a ++ [x])) = Ok r ->
  stackLoop (S n) first (pre ++ words (a ++ x :: rest) ++ post) (zlen pre + 8 * zlen a) = Ok (t ++ r).
Proof.
  intros F Nz Ht Hr. apply Forall_cons_iff in F as [F1 F2]. cbn [Hdmp.stackLoop]. rewrite word_in by (try reflexivity; assumption).
  replace (zlen (pre ++ words (a ++ x :: rest) ++ post) <? zlen pre + 8 * zlen a + 8) with false.
  - replace (x =? 0) with false by lia. rewrite Ht. cbn [bind]. rewrite <- app_assoc in Hr. cbn [app] in Hr. rewrite zlen_app in Hr. change (zlen [x]) with 1 in Hr.
    replace (zlen pre + 8 * (zlen a + 1)) with (zlen pre + 8 * zlen a + 8) in Hr by lia. rewrite Hr. reflexivity.
  - rewrite !zlen_app, words_len, zlen_app, zlen_cons. pose proof (zlen_nonneg rest). pose proof (zlen_nonneg post). lia.
Qed.
Lemma callers_ok : forall st n pre a rest post, ended n st rest -> Forall isWord (st ++ rest) -> Forall (fun f => f <> 0) st -> Forall (fun f => lookable (f - 1)) st ->
  exists t, stackLoop n false (pre ++ words (a ++ st ++ rest) ++ post) (zlen pre + 8 * zlen a) = Ok t /\ CallerLines seg sym src st t.
Proof.
  induction st as [|x st IH]; intros n pre a rest post E F N L.
  - eexists. split; [apply stack_end; [exact E|exact F]|constructor].
  - apply Forall_cons_iff in N as [N1 N2]. apply Forall_cons_iff in L as [L1 L2]. pose proof F as F0. cbn [app] in F. apply Forall_cons_iff in F as [F1 F2].
    destruct n as [|n]; [destruct E as [[_ E]|[_ E]]; cbn in E; lia|].
    destruct (frameLine_ok false x F1 L1) as (t & Et & Lt). destruct (IH n pre (a ++ [x]) rest post) as (r & Er & Lr); [destruct E as [[E1 E2]|[E1 E2]]; [left|right]; cbn [length] in E2; split; auto; lia|exact F2|exact N2|exact L2|].
    exists (t ++ r). split; [|now constructor]. cbn [app]. apply stack_step; [exact F0|exact N1|exact Et|exact Er].
Qed.
Definition stackLookable (st : list Z) : Prop := match st with [] => True | a :: r => lookable a /\ Forall (fun f => lookable (f - 1)) r end.
Lemma printStack_ok st max pre area post : recorded max area st -> stackLookable st ->
  exists t, printStack seg sym src max (pre ++ words area ++ post) (zlen pre) = Ok t /\ StackLines seg sym src st t.
Proof.
  intros (Hm & F & N & rest & -> & R) L. unfold printStack. assert (E : ended (Z.to_nat max) st rest).
  { rewrite zlen_app in Hm. destruct R as [->|(r & ->)]; [left|right]; [split; [reflexivity|]|split; [now exists r|]].
    - change (zlen (@nil Z)) with 0 in Hm. unfold zlen in Hm. lia.
    - rewrite zlen_cons in Hm. unfold zlen in Hm. lia. }
  destruct st as [|x st].
  - eexists. split; [|constructor]. replace (zlen pre) with (zlen pre + 8 * zlen (@nil Z)) by (change (zlen (@nil Z)) with 0; lia). apply (stack_end _ pre [] rest post true E F).
  - destruct L as [L1 L2]. apply Forall_cons_iff in N as [N1 N2]. pose proof F as F0. cbn [app] in F. apply Forall_cons_iff in F as [F1 F2].
    destruct (Z.to_nat max) as [|n] eqn:En; [destruct E as [[_ E]|[_ E]]; cbn in E; lia|].
    destruct (frameLine_ok true x F1 L1) as (t & Et & Lt). destruct (callers_ok st n pre [x] rest post) as (r & Er & Lr); [destruct E as [[E1 E2]|[E1 E2]]; [left|right]; cbn [length] in E2; split; auto; lia|exact F2|exact N2|exact L2|].
    exists (t ++ r). split; [|now constructor]. replace (zlen pre) with (zlen pre + 8 * zlen (@nil Z)) by (change (zlen (@nil Z)) with 0; lia).
    apply (stack_step n pre [] x (st ++ rest) post true t r); [exact F0|exact N1|exact Et|exact Er].
Qed.

(** ** A block *)
Lemma memread_of_holds m a bs n : holds m a bs -> n = length bs -> memread m a n = Some bs.
Proof. intros H E. pose proof (obj_holds m a bs n H E) as X. unfold obj in X. destruct (memread m a n); congruence. Qed.
Lemma holds_app_inv m a x y : holds m a x -> holds m (a + zlen x) y -> holds m a (x ++ y).
Proof.
  intros H1 H2 i Hi. rewrite zlen_app in Hi. destruct (Z.lt_ge_cases i (zlen x)) as [L|L]; [rewrite znth_app_l by lia; apply H1; lia|].
  rewrite znth_app_r by lia. specialize (H2 (i - zlen x) ltac:(lia)). rewrite <- H2. f_equal. lia.
Qed.
Lemma desc_read m max next b : 0 <= max -> 56 + max * 8 < W64 -> descAt m max next b -> after m max b ->
  exists prev serial base area extra, Forall isWord [next; prev; serial; base] /\ recorded max area (hbStack b) /\
    memread m (hbDesc b) (Z.to_nat (u64 (56 + max * 8))) = Some (words ([next; prev; serial; hbSize b; hbPtr b - 16; base]) ++ words area ++ leBytes 8 extra).
Proof.
  intros Hm Hs (prev & serial & base & area & F & R & Hd) (x & Hx & Ha). exists prev, serial, base, area, x. split; [exact F|]. split; [exact R|].
  destruct R as (Rl & _). rewrite words_app in Hd. unfold u64. rewrite Z.mod_small by lia. apply memread_of_holds.
  - rewrite app_assoc. apply holds_app_inv; [exact Hd|]. rewrite zlen_app, !words_len, Rl. replace (hbDesc b + (8 * zlen [next; prev; serial; hbSize b; hbPtr b - 16; base] + 8 * max)) with (hbDesc b + 48 + 8 * max); [exact Ha|]. rewrite !zlen_cons. change (zlen (@nil Z)) with 0. lia.
  - pose proof (words_len ([next; prev; serial; hbSize b; hbPtr b - 16; base])) as L1. pose proof (words_len area) as L2. rewrite !zlen_cons in L1. change (zlen (@nil Z)) with 0 in L1. pose proof (leBytes_len 8 x) as L3.
    rewrite !app_length. unfold zlen in *. lia.
Qed.
Lemma beq_dec a b : (a = b /\ beq a b = true) \/ (a <> b /\ beq a b = false).
Proof. destruct (beq a b) eqn:E; [left|right]; split; try reflexivity; [now apply beq_spec in E|]. intros H. apply beq_spec in H. congruence. Qed.
Lemma printBlocks_step m max st next b head tail : 0 <= max -> 56 + max * 8 < W64 -> blkOk b -> descAt m max next b -> after m max b -> guards m b head tail -> stackLookable (hbStack b) ->
  exists t, BlockText seg sym src m st b t /\ forall fuel, printBlocks m seg sym src (S fuel) max st (hbDesc b) = let* r := printBlocks m seg sym src fuel max st next in Ok (t ++ r).
Proof.
  intros Hmax Hs (B1 & B2 & B3 & B4 & B5) Hd Ha (G1 & G2 & G3 & G4) L. destruct (desc_read m max next b Hmax Hs Hd Ha) as (prev & serial & base & area & x & F & R & Hr).
  set (hdr := [next; prev; serial; hbSize b; hbPtr b - 16; base]) in *.
  assert (Hh : zlen (words hdr) = 48) by reflexivity.
  assert (Fh : Forall isWord hdr). { inversion F as [|? ? F1 F2]. inversion F2 as [|? ? F3 F4]. inversion F4 as [|? ? F5 F6]. inversion F6. unfold hdr, isWord in *. repeat (constructor; [first [assumption | lia]|]). constructor. }
  destruct (printStack_ok (hbStack b) max (words hdr) area (leBytes 8 x) R L) as (s & Es & Ls). rewrite Hh in Es.
  assert (W : forall o a v c, hdr = a ++ v :: c -> o = 8 * zlen a -> word (words hdr ++ words area ++ leBytes 8 x) o = v).
  { intros o a v c E E2. rewrite E at 1. pose proof (word_in [] a v c (words area ++ leBytes 8 x) o) as X. cbn [app] in X. apply X; [rewrite E2; reflexivity|]. rewrite E in Fh. apply Forall_app in Fh as [_ Fh]. now inversion Fh. }
  assert (E0 : forall fuel, printBlocks m seg sym src (S fuel) max st (hbDesc b) = let* r := printBlocks m seg sym src fuel max st next in
    Ok (tx "ptr=" ++ ptrText (hbPtr b) ++ (if beq head st then [] else tx " BADHEAD") ++ (if beq tail st then [] else tx " BADTAIL") ++ tx " size=" ++ decText 20 (hbSize b) ++ nl ++ s ++ r)).
  { intros fuel. cbn [printBlocks]. replace (hbDesc b =? 0) with false by lia. rewrite Hr.
  replace (zlen (words hdr ++ words area ++ leBytes 8 x) <? 56) with false by (rewrite !zlen_app, Hh, words_len, leBytes_len; pose proof (zlen_nonneg area); lia).
  rewrite (W 32 [next; prev; serial; hbSize b] (hbPtr b - 16) [base]) by reflexivity. rewrite (W 24 [next; prev; serial] (hbSize b) [hbPtr b - 16; base]) by reflexivity. rewrite (W 0 [] next [prev; serial; hbSize b; hbPtr b - 16; base]) by reflexivity.
  replace (u64 (hbPtr b - 16 + 8)) with (hbPtr b - 8) by (unfold u64; rewrite Z.mod_small; [lia|]; unfold W64; lia).
  replace (u64 (hbPtr b - 16 + 16)) with (hbPtr b) by (unfold u64; rewrite Z.mod_small; [lia|]; unfold W64; lia).
  replace (u64 (hbPtr b + hbSize b)) with (hbPtr b + hbSize b) by (unfold u64; rewrite Z.mod_small; [lia|]; unfold W64; lia).
  rewrite (obj_holds m (hbPtr b - 8) head 4 G3) by (unfold zlen in G1; lia). cbn [bind]. rewrite (obj_holds m (hbPtr b + hbSize b) tail 4 G4) by (unfold zlen in G2; lia). cbn [bind]. rewrite Es. cbn [bind]. reflexivity. }
  destruct (beq_dec head st) as [[Eh Bh]|[Eh Bh]]; destruct (beq_dec tail st) as [[Et Bt]|[Et Bt]]; rewrite Bh, Bt in E0;
    (eexists; split; [exists (ptrText (hbPtr b)), (decText 20 (hbSize b)), s, head, tail; split; [apply ptrText_pointer; unfold isWord; lia|]; split; [apply decText_canon; unfold isWord; lia|]; split; [exact Ls|]; split; [repeat split; assumption|]; eexists; eexists; split; [eauto|]; split; [eauto|]; reflexivity|]);
    intros fuel;
    rewrite E0; cbn [bind]; destruct (printBlocks m seg sym src fuel max st next); cbn [bind]; try reflexivity; rewrite <- ?app_assoc; reflexivity.
Qed.
Lemma printBlocks_ok m max st : 0 <= max -> 56 + max * 8 < W64 -> forall first bs, listAt m max first bs -> Forall (after m max) bs -> Forall (fun b => exists h t, guards m b h t) bs -> Forall (fun b => stackLookable (hbStack b)) bs ->
  exists ts, Forall2 (BlockText seg sym src m st) bs ts /\ forall fuel, (length bs < fuel)%nat -> printBlocks m seg sym src fuel max st first = Ok (concat ts).
Proof.
  intros Hm Hs first bs H. induction H as [|b next r Ok1 D1 _ IH]; intros A G L.
  - exists []. split; [constructor|]. intros [|f] Hf; [cbn in Hf; lia|]. reflexivity.
  - apply Forall_cons_iff in A as [A1 A2]. apply Forall_cons_iff in G as [(hd & tl & G1) G2]. apply Forall_cons_iff in L as [L1 L2].
    destruct (IH A2 G2 L2) as (ts & F & P). 
    destruct (printBlocks_step m max st next b hd tl Hm Hs Ok1 D1 A1 G1 L1) as (t & Bt & Pt).
    exists (t :: ts). split; [now constructor|]. intros [|f] Hf; [lia|]. rewrite Pt, P by (cbn [length] in Hf; lia). reflexivity.
Qed.
End Text.
