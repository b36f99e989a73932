(** Property C55: reading compressed sections. *)
From Verif Require Import Base Lzma LzmaSpec LzmaProofs.

(** Whatever was read before, in whatever order, successfully or not: reading a range all of whose blocks decode returns the bytes of the decompressed
    data; a range that reaches past its end is refused. *)
Theorem C55_read_partial : forall bs h fuel0 off size, consistent bs -> lzSize bs < W64 -> Forall (fun x => 0 <= fst x /\ 0 <= snd x) h -> 0 <= off -> 0 <= size ->
  exists n, forall fuel, (n <= fuel)%nat ->
   (off + size <= lzSize bs -> decodes bs off size -> snd (lzRead fuel bs (lzRun fuel0 bs [] h) off size) = Ok (ztake size (zdrop off (decompressed bs)))) /\
   (0 < size -> lzSize bs < off + size -> snd (lzRead fuel bs (lzRun fuel0 bs [] h) off size) = Throw).
Proof.
  intros bs h fuel0 off size C W Hh Ho Hs. exists (S (Z.to_nat size)). intros fuel Hf. pose proof (run_cacheOk bs fuel0 h C W Hh [] (cacheOk_nil bs)) as Hc.
  destruct (read_ok bs C W fuel _ off size Hc Ho Hs) as (_ & _ & _ & R1 & R2). split; intros; [apply R1|apply R2]; auto; lia.
Qed.
(** If every block decodes, then for every range inside the data. *)
Theorem C55_uncorrupted : forall bs h fuel0 off size, consistent bs -> (forall b, In b bs -> exists d, lbDec b = Good d) -> lzSize bs < W64 -> Forall (fun x => 0 <= fst x /\ 0 <= snd x) h ->
  0 <= off -> 0 <= size -> off + size <= lzSize bs ->
  exists n, forall fuel, (n <= fuel)%nat -> snd (lzRead fuel bs (lzRun fuel0 bs [] h) off size) = Ok (ztake size (zdrop off (decompressed bs))).
Proof.
  intros bs h fuel0 off size C G W Hh Ho Hs He. destruct (C55_read_partial bs h fuel0 off size C W Hh Ho Hs) as (n & H). exists n. intros fuel Hf. apply (H fuel Hf); [exact He|]. intros pre b post E _ _. apply G. rewrite E. apply in_or_app. right. now left.
Qed.
Example C55_case : let bs := [mkLB 3 (Good [1; 2; 3]); mkLB 0 (Good []); mkLB 4 (Good [4; 5; 6; 7])] in
  consistent bs /\ snd (lzRead 10 bs (lzRun 10 bs [] [(5, 2); (0, 9)]) 1 4) = Ok [2; 3; 4; 5].
Proof. split; [|vm_compute; reflexivity]. intros b [<-|[<-|[<-|[]]]]; (split; [cbn; lia|intros d [= <-]; reflexivity]). Qed.
(** For a damaged block the property is false: the first read of it is refused, but the next one delivers zeros in its place. *)
Theorem C55_damaged_refuted : forall bs pre b post off size, consistent bs -> lzSize bs < W64 -> bs = pre ++ b :: post -> lbDec b = BadData -> lzSize pre <= off -> 0 < size -> off + size <= lzSize pre + lbSize b ->
  exists n, forall fuel, (n <= fuel)%nat ->
   snd (lzRead fuel bs [] off size) = Throw /\
   snd (lzRead fuel bs (fst (lzRead fuel bs [] off size)) off size) = Ok (zeros size).
Proof.
  intros bs pre b post off size C W E D Ho Hs He. exists 2%nat. intros fuel Hf. destruct fuel as [|[|fuel]]; [lia..|].
  assert (Np : 0 <= lzSize pre) by (apply lz_nonneg; intros x Hx; apply C; rewrite E; apply in_or_app; now left).
  assert (Ez : lzSize bs = lzSize pre + lbSize b + lzSize post) by (rewrite E, lz_app; cbn [lzSize fold_right]; fold (lzSize post); lia).
  assert (Nq : 0 <= lzSize post) by (apply lz_nonneg; intros x Hx; apply C; rewrite E; apply in_or_app; right; now right).
  assert (L : locate bs 0 off = Some (lzSize pre, b)).
  { pose proof (locate_spec bs 0 off C ltac:(lia)) as L. destruct (locate bs 0 off) as [(st & b')|]; [|lia]. destruct L as (pre' & post' & E' & Es & Hr). rewrite Z.add_0_l in Es. subst st.
    assert (Hb' : 0 < lbSize b') by lia. enough (X : pre' = pre /\ b' = b) by (destruct X as (-> & ->); reflexivity).
    clear -C E E' Hr Ho Hs He. rewrite E in *. clear E. revert pre' C E' Ho He Hr. generalize off as o. 
    enough (G : forall pre pre' post' o, consistent (pre ++ b :: post) -> pre ++ b :: post = pre' ++ b' :: post' -> lzSize pre <= o -> o + size <= lzSize pre + lbSize b -> lzSize pre' <= o < lzSize pre' + lbSize b' -> pre' = pre /\ b' = b) by (intros o pre' C E' Ho He Hr; apply (G pre pre' post' o C E' Ho He Hr)).
    induction pre0 as [|x p IH]; intros [|y p'] q o C E Ho He Hr; cbn [app lzSize fold_right] in *; try fold (lzSize p) in *; try fold (lzSize p') in *.
    - injection E as -> _. auto.
    - injection E as <- E. assert (0 <= lzSize p') by (apply lz_nonneg; intros z Hz; apply C; right; rewrite E; apply in_or_app; now left). lia.
    - injection E as -> E. assert (0 <= lzSize p) by (apply lz_nonneg; intros z Hz; apply C; right; apply in_or_app; now left). lia.
    - injection E as -> E. destruct (IH p' q (o - lbSize y)) as (-> & ->); auto; [exact (cons_tl _ _ C)|lia..]. }
  assert (R1 : lzRead (S (S fuel)) bs [] off size = ([(lzSize pre, zeros (lbSize b))], Throw)).
  { cbn [lzRead]. replace (size =? 0) with false by lia. rewrite L. unfold getBlock. cbn [lookupBlock]. rewrite D. reflexivity. }
  rewrite R1. cbn [fst snd]. split; [reflexivity|]. cbn [lzRead]. replace (size =? 0) with false by lia. rewrite L. unfold getBlock. cbn [lookupBlock]. rewrite Z.eqb_refl. destruct (zeros (lbSize b)) as [|z l] eqn:Ezr; [pose proof (zlen_zeros (lbSize b) ltac:(lia)) as X; rewrite Ezr in X; change (zlen (@nil Z)) with 0 in X; lia|]. rewrite <- Ezr.
  rewrite zlen_zeros by lia. replace (Z.min (lbSize b - (off - lzSize pre)) size) with size by lia. replace (size - size) with 0 by lia. cbn [Z.eqb snd bind]. rewrite app_nil_r. f_equal.
  unfold zeros. rewrite zdrop_skipn, ztake_firstn by lia.
  assert (Sk : forall k n, skipn k (repeat 0 n) = repeat 0 (n - k)) by (induction k as [|k IH]; intros [|n]; cbn; auto).
  assert (Ft : forall k n, firstn k (repeat 0 n) = repeat 0 (Nat.min k n)) by (induction k as [|k IH]; intros [|n]; cbn; auto; now rewrite IH).
  rewrite Sk, Ft. f_equal. lia.
Qed.
Example C55_damaged_case : let bs := [mkLB 3 (Good [1; 2; 3]); mkLB 4 BadData] in
  snd (lzRead 10 bs [] 4 2) = Throw /\ snd (lzRead 10 bs (fst (lzRead 10 bs [] 4 2)) 2 3) = Ok [3; 0; 0].
Proof. split; vm_compute; reflexivity. Qed.
Print Assumptions C55_read_partial.
Print Assumptions C55_uncorrupted.
Print Assumptions C55_damaged_refuted.
