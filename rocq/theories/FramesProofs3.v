From Coq Require Import Permutation.
From Verif Require Import Base Leb LebSpec LebProofs DwarfReader DwarfReaderProofs Cfi CfiSpec CfiProofs CfiProofs2 Cursor Frames FramesSpec FramesProofs FramesProofs2.

Lemma startOf_range sa es x : 0 <= startOf sa es x < 2 ^ 64.
Proof. unfold startOf. destruct (cieOf es (sfCie (snd x))); [unfold fdeStart, target; apply Z.mod_pos_bound; lia|lia]. Qed.
Section H.
Context (data : list Z) (eh : bool) (sa : Z) (es : list (Z * entry)) (Hsec : section eh data es) (Hsa : 0 <= sa < 2 ^ 64).
Context (fs0 fs : list (Z * sfde)) (HP : Permutation fs0 fs) (Hfs : forall x, In x fs -> In (fst x, EFde (snd x)) es).
Context (Hfit : Forall (fun x => 0 < sfRange (snd x) /\ startOf sa es x + sfRange (snd x) < 2 ^ 64) fs).
Context (Hord : ForallOrdPairs (fun x y => startOf sa es x + sfRange (snd x) <= startOf sa es y) fs).
Context (te : efmt * eapp) (ha : Z) (tab : list (Z * Z)) (T : list Z).
Context (Hte : In (fst te) [FUdata2; FUdata4; FUdata8; FSdata2; FSdata4; FSdata8]) (Hta : snd te = AAbs \/ snd te = ADatarel).
Lemma replies_right fuel : (1 < fuel)%nat -> forall ops k, Forall (fun o => match o with Look a => 0 <= a | ListAll => True end) ops -> TInv data sa es fs te ha tab T k ->
  Forall2 (rightReply data sa es fs0) ops (replies data eh sa fuel k ops).
Proof.
  intros Hf. induction ops as [|o ops IH]; intros k F TI; [constructor|]. apply Forall_cons_iff in F as [A0 F]. destruct o as [a|]; cbn [replies].
  - destruct (find_fde_spec data eh sa es Hsec fs Hfs Hfit Hord te ha tab T Hte Hta fuel k a TI Hf A0) as (k' & r & E & TI' & AN). rewrite E. constructor; [|now apply IH].
    destruct r as [f'|]; cbn [rightReply answer] in *.
    + destruct AN as (x & I & C & Q). exists x. split; [now rewrite HP|]. split; assumption.
    + intros x I. apply AN. now rewrite <- HP.
  - destruct (get_fdes_spec data eh sa es Hsec fs Hfs te ha tab T Hte Hta fuel k TI Hf) as (k' & l & E & TI' & AN). rewrite E. constructor; [|now apply IH]. cbn [rightReply]. exists fs.
    split; [intros x; split; intros I; [now rewrite HP|now rewrite <- HP]|]. split; [symmetry; now apply Permutation_length|]. split; [|exact AN].
    clear -Hord Hfit. induction Hord as [|x l F1 F2 IH]; [constructor|]. apply Forall_cons_iff in Hfit as [[R0 _] HF]. constructor; [|now apply IH]. eapply Forall_impl; [|exact F1]. intros y Hy. cbv beta in Hy. lia.
Qed.
End H.

Lemma in_order sa es : forall l, Forall (fun x => 0 < sfRange (snd x) /\ startOf sa es x + sfRange (snd x) < 2 ^ 64) l ->
  ForallOrdPairs (fun x y => startOf sa es x + sfRange (snd x) <= startOf sa es y \/ startOf sa es y + sfRange (snd y) <= startOf sa es x) l ->
  ForallOrdPairs (fun x y => startOf sa es x <= startOf sa es y) l -> ForallOrdPairs (fun x y => startOf sa es x + sfRange (snd x) <= startOf sa es y) l.
Proof.
  induction l as [|x l IH]; intros F D O1; [constructor|]. apply Forall_cons_iff in F as [_ F]. inversion D as [|? ? D1 D2]; subst. inversion O1 as [|? ? O2 O3]; subst. constructor; [|now apply IH].
  rewrite Forall_forall in *. intros y Hy. specialize (D1 y Hy). specialize (O2 y Hy). specialize (F y Hy). lia.
Qed.
Lemma nodup_disjoint {A} (R : A -> A -> Prop) l : (forall x, ~ R x x) -> ForallOrdPairs R l -> NoDup l.
Proof. intros N. induction 1 as [|x l F1 F2 IH]; constructor; [|exact IH]. intros I. rewrite Forall_forall in F1. exact (N x (F1 x I)). Qed.

(** full decoding *)
Lemma full_spec data eh sa es fuel : section eh data es -> 0 <= sa < 2 ^ 64 -> disjointFdes sa es (fdesOf es) -> (S (length es) < fuel)%nat ->
  exists cs l fs, decodeAll data eh sa fuel = Ok (cs, l) /\ Permutation (fdesOf es) fs /\ Forall2 (isFde data sa es) l fs /\
    ForallOrdPairs (fun x y => startOf sa es x + sfRange (snd x) <= startOf sa es y) fs /\ CInv data es cs /\ (forall o c, In (o, ECie c) es -> cieFind o cs <> None).
Proof.
  intros SEC SA [F D] Hf. pose proof SEC as (Hd & Hw & _ & LY).
  destruct (allLoop_spec data eh sa Hd Hw es (section_placed eh data es SEC) es 0 [] fuel LY ltac:(auto) ltac:(pose proof (zlen_nonneg data); lia) ltac:(intros o c' X; discriminate) Hf) as (cs & l & E & F2 & CI & _ & ALL).
  destruct (perm_Forall2 _ _ _ (sortF_perm l) _ F2) as (fs & P & F2'). exists cs, (sortF l), fs. unfold decodeAll. rewrite E. cbn [bind]. split; [reflexivity|]. split; [exact P|]. split; [exact F2'|]. split; [|split; [exact CI|exact ALL]].
  apply in_order.
  - now rewrite <- P.
  - eapply ordPairs_perm; [|exact P|exact D]. intros x y [X|X]; [now right|now left].
  - eapply ordPairs_Forall2; [|exact F2'|apply sortF_sorted]. intros a b a' b' R R'. destruct (isFde_start data sa es _ _ R) as [<- _]. destruct (isFde_start data sa es _ _ R') as [<- _]. auto.
Qed.
Lemma map_some_znth {A} : forall (l : list A) i x, znth i (map Some l) = Some x -> exists y, x = Some y /\ znth i l = Some y.
Proof. induction l as [|a l IH]; intros i x E; [discriminate|]. cbn [map znth] in *. destruct (i =? 0); [injection E as <-; now exists a|]. destruct (i <? 0); [discriminate|]. now apply IH. Qed.
Lemma full_TInv data sa es cs l fs te ha tab T : CInv data es cs -> Forall2 (isFde data sa es) l fs -> TInv data sa es fs te ha tab T (mkCfi cs (map Some l) None 0 0).
Proof.
  intros CI F2. split; [exact CI|]. cbn [kFdes kTable]. split; [unfold zlen; rewrite map_length; fold (zlen l); now apply Forall2_zlen in F2|]. split.
  - intros i f' E. apply map_some_znth in E as (y & Y & E). injection Y as <-. eapply Forall2_znth_l; [exact F2|exact E].
  - right. intros i E. apply map_some_znth in E as (y & Y & _). discriminate.
Qed.
Lemma full_cfi data eh sa es fuel : section eh data es -> 0 <= sa < 2 ^ 64 -> disjointFdes sa es (fdesOf es) -> (S (length es) < fuel)%nat ->
  exists k, (let* (cs, l) := decodeAll data eh sa fuel in Ok (mkCfi cs (map Some l) None 0 0)) = Ok k /\ CInv data es (kCies k) /\ (forall o c, In (o, ECie c) es -> cieFind o (kCies k) <> None) /\
    forall ops, Forall (fun o => match o with Look a => 0 <= a | ListAll => True end) ops -> Forall2 (rightReply data sa es (fdesOf es)) ops (replies data eh sa fuel k ops).
Proof.
  intros SEC SA DJ Hf. destruct (full_spec data eh sa es fuel SEC SA DJ Hf) as (cs & l & fs & E & P & F2 & OR & CI & ALL). rewrite E. cbn [bind]. eexists. split; [reflexivity|]. split; [exact CI|]. split; [exact ALL|].
  intros ops FO. apply (replies_right data eh sa es SEC (fdesOf es) fs P) with (te := (FUdata4, AAbs)) (ha := 0) (tab := []) (T := []); try assumption.
  - intros [o f] I. rewrite <- P in I. now apply in_fdesOf in I.
  - rewrite <- P. apply DJ.
  - cbn [fst In]. auto.
  - now left.
  - lia.
  - now apply full_TInv.
Qed.

(** the search table *)
Lemma Forall_skipn' {A} (P : A -> Prop) : forall n l, Forall P l -> Forall P (skipn n l).
Proof. induction n as [|n IH]; intros l F; [exact F|]. destruct F as [|x l Hx F]; [constructor|]. now apply IH. Qed.
Lemma znth_repeat {A} (a : A) : forall n i x, znth i (repeat a n) = Some x -> x = a.
Proof. intros n i x E. apply znth_In in E. now apply repeat_spec in E. Qed.
Lemma zlen_repeat {A} (a : A) n : zlen (repeat a n) = Z.of_nat n.
Proof. unfold zlen. now rewrite repeat_length. Qed.
Lemma hdr_TInv data sa es fuel h H rest ha fs : section true data es -> 0 <= sa < 2 ^ 64 -> (1 < fuel)%nat ->
  H = hdrBytes h ++ rest -> Forall isByte H -> zlen H < 2 ^ 63 -> 0 <= ha < 2 ^ 64 ->
  (forall x, In x fs -> In (fst x, EFde (snd x)) es) -> disjointFdes sa es fs -> hdrOk sa es ha h fs ->
  exists k T, makeCfi data true sa fuel (Some (H, ha)) = Ok k /\ kCies k = [] /\ (exists n, kFdes k = repeat None n) /\ TInv data sa es fs (shTabEnc h) ha (shTab h) T k.
Proof.
  intros SEC SA Hf EH HB HW HA SUB [FIT DJ] (PO & CO & TF & TA & F2 & OR).
  set (tb := flat_map (fun e => fmtBytes (fst (shTabEnc h)) (fst e) ++ fmtBytes (fst (shTabEnc h)) (snd e)) (shTab h)).
  assert (HW2 : zlen H + 32 < W64) by (unfold W64; lia).
  assert (AT : at_ H 0 ([1; encCode (shPtrEnc h); encCode (shCountFmt h, AAbs); encCode (shTabEnc h)] ++ fmtBytes (fst (shPtrEnc h)) (shPtr h) ++ fmtBytes (shCountFmt h) (zlen (shTab h)) ++ tb ++ rest)).
  { split; [lia|]. exists []. rewrite app_nil_r. rewrite zdrop_neg by lia. rewrite EH. unfold hdrBytes, tb. rewrite <- !app_assoc. reflexivity. }
  unfold makeCfi. cbn [app] in AT. do 4 (apply rd_u8 in AT as [E AT]; [|exact HW2]; rewrite E; cbn [bind]; clear E).
  assert (NO : forall e : efmt * eapp, Z.land (encCode e) 15 =? 255 = false).
  { intros [f a]. unfold encCode. cbn [fst snd]. destruct (enc_decompose f a false) as (X & _ & _). cbv zeta iota in X. rewrite Z.add_0_r in X. rewrite X. destruct f; reflexivity. }
  rewrite !NO. cbn [orb]. assert (SZ : encSize (encCode (shTabEnc h)) =? 0 = false).
  { destruct (shTabEnc h) as [f a]. cbn [fst snd] in *. destruct (enc_decompose f a false) as (X & _ & _). cbv zeta iota in X. rewrite Z.add_0_r in X. unfold encSize, encCode. cbn [fst snd]. rewrite X. cbn [In] in TF. destruct TF as [<-|[<-|[<-|[<-|[<-|[<-|[]]]]]]]; reflexivity. }
  rewrite SZ. pose proof (proj1 AT) as O4. destruct PO as [PN PR]. destruct CO as [CN CR]. cbn [fst] in CN, CR.
  apply at_app in AT as [AT1 AT]. set (o4 := 0 + 1 + 1 + 1 + 1) in *.
  pose proof (decodeAddress_spec H o4 (fst (shPtrEnc h)) (shPtr h) (snd (shPtrEnc h)) false sa ha HB HW2 PN PR AT1) as D1. cbv iota in D1. rewrite Z.add_0_r in D1. unfold encCode at 1. rewrite D1. cbn [bind]. clear D1.
  apply at_app in AT as [AT2 AT]. set (o5 := o4 + zlen (fmtBytes (fst (shPtrEnc h)) (shPtr h))) in *.
  pose proof (decodeAddress_spec H o5 (shCountFmt h) (zlen (shTab h)) AAbs false sa 0 HB HW2 CN CR AT2) as D2. cbv iota in D2. rewrite Z.add_0_r in D2. unfold encCode at 1. cbn [fst snd]. rewrite D2. cbn [bind]. clear D2.
  set (o6 := o5 + zlen (fmtBytes (shCountFmt h) (zlen (shTab h)))) in *.
  assert (L64 : zlen (shTab h) < 2 ^ 64) by (clear -CR CN; destruct (shCountFmt h); cbn [fmtRange] in CR; lia).
  rewrite Z.add_0_r, Z.mod_small by (unfold W64; pose proof (zlen_nonneg (shTab h)); lia).
  pose proof (Forall2_zlen _ _ _ F2) as LEN.
  eexists. exists (zdrop o6 H). split; [reflexivity|]. cbn [kCies kFdes]. split; [reflexivity|]. split; [eexists; reflexivity|]. destruct AT as [O6 [r6 AT]].
  split; [intros o c' X; discriminate|]. cbn [kFdes kTable kEnc kHdr]. split; [rewrite zlen_repeat; rewrite Z2Nat.id; [exact LEN|apply zlen_nonneg]|]. split; [intros i f' X; apply znth_repeat in X; discriminate|].
    left. split; [reflexivity|]. split; [reflexivity|]. split; [reflexivity|]. split; [exists (rest ++ r6); rewrite AT; unfold tb, tabBytes; now rewrite <- app_assoc|]. split; [rewrite zdrop_skipn by exact O6; now apply Forall_skipn'|]. split; [|exact F2]. rewrite zlen_zdrop by exact O6. pose proof (zlen_nonneg H). lia.
Qed.
Lemma hdr_cfi data sa es fuel h H rest ha fs : section true data es -> 0 <= sa < 2 ^ 64 -> (1 < fuel)%nat ->
  H = hdrBytes h ++ rest -> Forall isByte H -> zlen H < 2 ^ 63 -> 0 <= ha < 2 ^ 64 ->
  (forall x, In x fs -> In (fst x, EFde (snd x)) es) -> disjointFdes sa es fs -> hdrOk sa es ha h fs ->
  exists k, makeCfi data true sa fuel (Some (H, ha)) = Ok k /\ kCies k = [] /\
    forall ops, Forall (fun o => match o with Look a => 0 <= a | ListAll => True end) ops -> Forall2 (rightReply data sa es fs) ops (replies data true sa fuel k ops).
Proof.
  intros SEC SA Hf EH HB HW HA SUB DJ OK. destruct (hdr_TInv data sa es fuel h H rest ha fs SEC SA Hf EH HB HW HA SUB DJ OK) as (k & T & E & KC & _ & TI). exists k. split; [exact E|]. split; [exact KC|].
  destruct DJ as [FIT DJ]. destruct OK as (PO & CO & TF & TA & F2 & OR). intros ops FO.
  apply (replies_right data true sa es SEC fs fs (Permutation_refl _)) with (te := shTabEnc h) (ha := ha) (tab := shTab h) (T := T); try assumption. now apply in_order.
Qed.
