From Verif Require Import Base Reader ReaderSpec ReaderProofs Cache.

(** ** Invariant *)
Definition PageOk (up : Z -> Z -> res (list Z)) (p : page) : Prop :=
  poff p mod 256 = 0 /\ 0 <= poff p < W64 /\ up (poff p) 256 = Ok (pbytes p).
Definition PagesInv (up : Z -> Z -> res (list Z)) (ps : list page) : Prop :=
  zlen ps <= 16 /\ NoDup (map poff ps) /\ Forall (PageOk up) ps.

Lemma takePage_spec o ps : 
  match takePage o ps with
  | Some (p, r) => poff p = o /\ exists l1 l2, ps = l1 ++ p :: l2 /\ r = l1 ++ l2
  | None => ~ In o (map poff ps)
  end.
Proof.
  induction ps as [|p ps IH]; cbn [takePage]; [easy|].
  destruct (poff p =? o) eqn:E.
  - split; [lia|]. exists [], ps. easy.
  - destruct (takePage o ps) as [[q r]|].
    + destruct IH as (H1 & l1 & l2 & -> & ->). split; [exact H1|]. exists (p :: l1), l2. easy.
    + cbn. intros [H|H]; [lia|contradiction].
Qed.

Lemma in_removelast {A} (x : A) l : In x (removelast l) -> In x l.
Proof.
  induction l as [|y l IH]; [easy|]. cbn [removelast]. destruct l as [|z l].
  - intros [].
  - intros [H|H]; [now left|right; now apply IH].
Qed.
Lemma NoDup_removelast {A} (l : list A) : NoDup l -> NoDup (removelast l).
Proof.
  induction l as [|x l IH]; intros H; [constructor|]. cbn [removelast].
  inversion H; subst. destruct l as [|z l]; [constructor|].
  constructor; [|now apply IH]. intros Hin. apply H2. now apply in_removelast.
Qed.
Lemma map_removelast {A B} (f : A -> B) l : map f (removelast l) = removelast (map f l).
Proof.
  induction l as [|x l IH]; [easy|]. cbn [removelast map]. destruct l as [|z l]; [easy|].
  cbn [map] in *. now rewrite IH.
Qed.
Lemma zlen_removelast {A} (l : list A) : l <> [] -> zlen (removelast l) = zlen l - 1.
Proof.
  induction l as [|x l IH]; intros H; [easy|]. cbn [removelast]. destruct l as [|z l]; [reflexivity|].
  rewrite zlen_cons, IH by easy. rewrite !zlen_cons. lia.
Qed.
Lemma Forall_removelast {A} (P : A -> Prop) l : Forall P l -> Forall P (removelast l).
Proof. rewrite !Forall_forall. intros H x Hx. apply H. now apply in_removelast. Qed.

Lemma evict_inv up ps o : PagesInv up ps -> ~ In o (map poff ps) ->
  let ps' := if zlen ps =? MAXPAGES then removelast ps else ps in
  PagesInv up ps' /\ zlen ps' <= 15 /\ ~ In o (map poff ps').
Proof.
  intros (H1 & H2 & H3) Hn. cbv zeta. unfold MAXPAGES. destruct (zlen ps =? 16) eqn:E.
  - assert (ps <> []) by (intros ->; discriminate E).
    split; [|split].
    + split; [rewrite zlen_removelast by assumption; lia|]. split.
      * rewrite map_removelast. now apply NoDup_removelast.
      * now apply Forall_removelast.
    + rewrite zlen_removelast by assumption. lia.
    + rewrite map_removelast. intros Hin. apply Hn. now apply in_removelast.
  - split; [easy|]. split; [lia|easy].
Qed.

Lemma getPage_inv up ps o : PagesInv up ps -> o mod 256 = 0 -> 0 <= o < W64 ->
  let '(ps', r) := getPage up ps o in
  PagesInv up ps' /\
  match r with
  | Ok p => poff p = o /\ up o 256 = Ok (pbytes p)
  | Throw => up o 256 = Throw
  | UB => up o 256 = UB
  | OutOfFuel => up o 256 = OutOfFuel
  end.
Proof.
  intros Hinv Hal Ho. unfold getPage. pose proof (takePage_spec o ps) as Ht.
  destruct (takePage o ps) as [[p rest]|].
  - destruct Ht as (Hp & l1 & l2 & -> & ->). destruct Hinv as (H1 & H2 & H3).
    split; [|split; [exact Hp|]].
    + split; [|split].
      * rewrite zlen_cons, zlen_app in *. rewrite zlen_cons in H1. lia.
      * rewrite map_app in H2. cbn [map] in *. apply NoDup_remove in H2.
        rewrite map_app. constructor; tauto.
      * apply Forall_app in H3. destruct H3 as [Ha Hb]. inversion Hb; subst.
        constructor; [assumption|]. apply Forall_app. tauto.
    + apply Forall_app in H3. destruct H3 as [_ Hb]. inversion Hb; subst. match goal with Hx : PageOk _ _ |- _ => apply Hx end.
  - destruct (evict_inv up ps o Hinv Ht) as (Hinv' & Hlen & Hn).
    set (ps' := if zlen ps =? MAXPAGES then removelast ps else ps) in *.
    unfold PAGESIZE. destruct (up o 256) as [bs| | |] eqn:E; [|auto..].
    split; [|now cbn]. destruct Hinv' as (H1 & H2 & H3). split; [|split].
    + rewrite zlen_cons. lia.
    + cbn [map poff]. constructor; assumption.
    + constructor; [|assumption]. repeat split; cbn; try lia. exact E.
Qed.

Lemma readLoop_inv up : forall fuel ps off count, PagesInv up ps -> 0 <= off < W64 ->
  PagesInv up (fst (readLoop up fuel ps off count)).
Proof.
  induction fuel as [|f IH]; intros ps off count Hi Ho; cbn [readLoop]; [exact Hi|].
  destruct (count =? 0); [exact Hi|].
  unfold PAGESIZE in *.
  pose proof (getPage_inv up ps (off - off mod 256) Hi ltac:(lia) ltac:(lia)) as Hg.
  destruct (getPage up ps (off - off mod 256)) as [ps' [p| | |]]; destruct Hg as [Hg _]; [|exact Hg..].
  destruct (off mod 256 >=? zlen (pbytes p)); [exact Hg|].
  destruct (negb (zlen (pbytes p) =? 256)); [exact Hg|].
  match goal with |- context [readLoop up f ps' ?o ?c] =>
    pose proof (IH ps' o c Hg (u64_range _)) as Hr; destruct (readLoop up f ps' o c) as [ps'' [r| | |]] end;
  exact Hr.
Qed.

Lemma cread_inv up ps off count : PagesInv up ps -> 0 <= off < W64 ->
  PagesInv up (fst (cread up ps off count)).
Proof.
  intros Hi Ho. unfold cread. destruct (count >=? PAGESIZE); [exact Hi|]. now apply readLoop_inv.
Qed.

Lemma cstringLoop_inv up : forall fuel ps off s, PagesInv up ps -> 0 <= off -> s <= W64 ->
  PagesInv up (fst (cstringLoop up fuel ps off s)).
Proof.
  induction fuel as [|f IH]; intros ps off s Hi Ho Hs; cbn [cstringLoop]; [exact Hi|].
  destruct (off <? s) eqn:E; [|exact Hi].
  pose proof (cread_inv up ps off 1 Hi ltac:(lia)) as Hc.
  destruct (cread up ps off 1) as [ps' [bs| | |]]; try exact Hc. cbn [fst] in Hc.
  destruct bs as [|c [|d bs]]; try exact Hc.
  destruct (c =? 0); [exact Hc|].
  pose proof (IH ps' (off+1) s Hc ltac:(lia) Hs) as Hr.
  destruct (cstringLoop up f ps' (off+1) s) as [ps'' [r| | |]]; exact Hr.
Qed.

Definition opValid (o : cop) : Prop :=
  match o with
  | OpRead off count => 0 <= off < W64 /\ 0 <= count < W64
  | OpString _ off => 0 <= off < W64
  | OpFlush => True
  end.

Lemma cstep_inv up usize c o : PagesInv up (pages c) -> opValid o -> usize <= W64 ->
  PagesInv up (pages (fst (cstep up usize c o))).
Proof.
  intros Hi Hv Hu. destruct o as [off count|fuel off|]; cbn [cstep].
  - destruct Hv as [Hv _]. pose proof (cread_inv up (pages c) off count Hi Hv) as Hc.
    destruct (cread up (pages c) off count). exact Hc.
  - unfold creadString. destruct (lookupStr off (strings c)); [exact Hi|].
    destruct (off =? 0); [exact Hi|]. cbn in Hv.
    pose proof (cstringLoop_inv up fuel (pages c) off usize Hi ltac:(lia) Hu) as Hc.
    destruct (cstringLoop up fuel (pages c) off usize) as [ps [v| | |]]; exact Hc.
  - cbn. repeat split; try constructor. unfold zlen; cbn; lia.
Qed.

Lemma emptyPages_inv up : PagesInv up [].
Proof. repeat split; try constructor. unfold zlen; cbn; lia. Qed.

Lemma crun_inv up usize ops : usize <= W64 -> Forall opValid ops ->
  forall c, PagesInv up (pages c) -> PagesInv up (pages (crun up usize c ops)).
Proof.
  intros Hu Hops. unfold crun. induction ops as [|o ops IH]; intros c Hi; cbn [fold_left]; [exact Hi|].
  inversion Hops; subst. apply IH; [assumption|]. now apply cstep_inv.
Qed.

(** ** Transparency *)
(** Each 256-byte page is readable from its start up to some point: regions start on page
    boundaries. *)
Definition regionsStartOnPages (src : memory) : Prop :=
  forall a, 0 <= a -> src a <> None -> src (a - a mod 256) <> None /\
     forall b, a - a mod 256 <= b <= a -> src b <> None.

Lemma prefix_full src a n : (forall k, a <= k < a + Z.of_nat n -> src k <> None) -> length (prefix src a n) = n.
Proof.
  revert a; induction n as [|n IH]; intros a H; cbn [prefix]; [easy|].
  destruct (src a) eqn:E; [|exfalso; apply (H a); [lia|easy]]. cbn. f_equal. apply IH. intros; apply H; lia.
Qed.

Lemma nth_prefix src a n k : (k < length (prefix src a n))%nat ->
  nth_error (prefix src a n) k = src (a + Z.of_nat k).
Proof.
  intros H. destruct (nth_error (prefix src a n) k) eqn:E.
  - destruct (proj1 (prefix_spec src a n _) eq_refl) as (_ & H2 & _). symmetry. now apply H2.
  - apply nth_error_None in E. lia.
Qed.

Lemma nth_error_skipn' {A} i k (L : list A) : nth_error (skipn i L) k = nth_error L (i + k)%nat.
Proof.
  revert L; induction i as [|i IH]; intros L; [reflexivity|].
  destruct L as [|x L]; cbn [skipn Nat.add nth_error]; [now destruct k|]. apply IH.
Qed.
Lemma nth_error_firstn' {A} n k (L : list A) : (k < n)%nat -> nth_error (firstn n L) k = nth_error L k.
Proof.
  revert k L; induction n as [|n IH]; intros k L H; [lia|].
  destruct L as [|x L]; [reflexivity|]. destruct k as [|k]; [reflexivity|]. cbn [firstn nth_error]. apply IH; lia.
Qed.
Lemma nth_error_firstn_skipn {A} n i k (L : list A) : (k < n)%nat ->
  nth_error (firstn n (skipn i L)) k = nth_error L (i + k)%nat.
Proof. intros H. rewrite nth_error_firstn' by assumption. apply nth_error_skipn'. Qed.

Lemma prefix_of_page src P i n N :
  (i + n <= N)%nat ->
  (i < length (prefix src P N))%nat ->
  prefix src (P + Z.of_nat i) n = firstn n (skipn i (prefix src P N)).
Proof.
  intros Hn Hi.
  destruct (proj1 (prefix_spec src P N _) eq_refl) as (H1 & H2 & H3).
  remember (prefix src P N) as L eqn:HL. clear HL.
  apply prefix_spec. split; [|split].
  - rewrite firstn_length, skipn_length. lia.
  - intros k b Hk.
    assert (Hkn : (k < n)%nat).
    { assert (k < length (firstn n (skipn i L)))%nat by (apply nth_error_Some; congruence).
      rewrite firstn_length in H. lia. }
    assert (He : nth_error (firstn n (skipn i L)) k = nth_error L (i + k)%nat).
    { now apply nth_error_firstn_skipn. }
    rewrite He in Hk. apply H2 in Hk. rewrite <- Hk. f_equal. lia.
  - intros Hl. rewrite firstn_length, skipn_length in *.
    replace (Nat.min n (length L - i)) with (length L - i)%nat by lia.
    replace (P + Z.of_nat i + Z.of_nat (length L - i)) with (P + Z.of_nat (length L)) by lia.
    apply H3. lia.
Qed.

Lemma page_bytes up src P bs : serves up src -> 0 <= P -> P + 256 < W64 ->
  up P 256 = Ok bs -> bs = prefix src P (Z.to_nat 256).
Proof.
  intros Hs HP HP2 E. destruct (Hs P 256 HP ltac:(lia) HP2) as [H|[H _]].
  - congruence.
  - congruence.
Qed.

Lemma readLoop_transparent up src : serves up src -> regionsStartOnPages src ->
  forall fuel ps off count, PagesInv up ps -> 0 <= off -> 0 <= count < 256 -> off + count + 512 <= W64 ->
  (Z.to_nat count < fuel)%nat ->
  snd (readLoop up fuel ps off count) = Ok (prefix src off (Z.to_nat count)).
Proof.
  intros Hs Hreg. induction fuel as [|f IH]; intros ps off count Hi Ho Hc Hw Hf; [lia|].
  cbn [readLoop]. destruct (count =? 0) eqn:E0.
  { replace (Z.to_nat count) with 0%nat by lia. reflexivity. }
  unfold PAGESIZE in *. set (i := off mod 256). set (P := off - i).
  assert (Hi256 : 0 <= i < 256) by (apply Z.mod_pos_bound; lia).
  assert (HP0 : 0 <= P) by (unfold P, i; lia).
  assert (HPal : P mod 256 = 0) by (unfold P, i; lia).
  assert (Hoff : off = P + i) by (unfold P; lia).
  pose proof (getPage_inv up ps P Hi HPal ltac:(lia)) as Hg.
  destruct (getPage up ps P) as [ps' [p| | |]]; destruct Hg as [Hg Hgp].
  - destruct Hgp as [_ Hup]. pose proof (page_bytes up src P _ Hs HP0 ltac:(lia) Hup) as Hb.
    destruct (i >=? zlen (pbytes p)) eqn:Ei.
    + cbn [snd]. f_equal. symmetry. destruct (src off) as [b|] eqn:Eoff.
      * exfalso. destruct (Hreg off Ho) as [_ Hall]; [congruence|]. fold i in Hall. fold P in Hall.
        rewrite Hb in Ei. destruct (proj1 (prefix_spec src P (Z.to_nat 256) _) eq_refl) as (H1 & H2 & H3).
        unfold zlen in Ei. apply (Hall (P + Z.of_nat (length (prefix src P (Z.to_nat 256))))); [lia|]. apply H3. lia.
      * destruct (Z.to_nat count); cbn [prefix]; [easy|]. now rewrite Eoff.
    + set (chunk := Z.min (zlen (pbytes p) - i) count).
      assert (Hlen : zlen (pbytes p) <= 256).
      { rewrite Hb. unfold zlen. pose proof (prefix_length src P (Z.to_nat 256)). lia. }
      assert (Hbytes : ztake chunk (zdrop i (pbytes p)) = prefix src off (Z.to_nat chunk)).
      { rewrite ztake_firstn, zdrop_skipn by lia. rewrite Hb, Hoff.
        replace (P + i) with (P + Z.of_nat (Z.to_nat i)) by lia.
        symmetry. apply prefix_of_page; [lia|]. rewrite <- Hb. unfold zlen in *. lia. }
      rewrite Hbytes. destruct (zlen (pbytes p) =? 256) eqn:E256; cbn [negb].
      * rewrite (u64_id (off + chunk)) by (unfold isU64; lia).
        specialize (IH ps' (off + chunk) (count - chunk) Hg ltac:(lia) ltac:(lia) ltac:(lia) ltac:(lia)).
        destruct (readLoop up f ps' (off + chunk) (count - chunk)) as [ps'' r]. cbn [snd] in IH. subst r.
        cbn [snd]. f_equal.
        replace (Z.to_nat count) with (Z.to_nat chunk + Z.to_nat (count - chunk))%nat by lia.
        rewrite prefix_split.
        assert (Hl : length (prefix src off (Z.to_nat chunk)) = Z.to_nat chunk).
        { rewrite <- Hbytes. rewrite ztake_firstn, zdrop_skipn by lia.
          rewrite firstn_length, skipn_length. unfold zlen in *. lia. }
        rewrite Hl, Nat.eqb_refl. do 2 f_equal. lia.
      * cbn [snd]. f_equal.
        destruct (Z_lt_dec chunk count) as [Hlt|Hge].
        2:{ f_equal. lia. }
        (* the page is short: nothing is readable beyond it *)
        assert (Hcl : chunk = zlen (pbytes p) - i) by lia.
        replace (Z.to_nat count) with (Z.to_nat chunk + Z.to_nat (count - chunk))%nat by lia.
        rewrite prefix_split. destruct (Nat.eqb _ _) eqn:El; [|reflexivity].
        assert (Hnone : src (off + Z.of_nat (Z.to_nat chunk)) = None).
        { rewrite Z2Nat.id by lia.
          destruct (proj1 (prefix_spec src P (Z.to_nat 256) _) eq_refl) as (_ & _ & H3).
          rewrite <- Hb in H3. rewrite <- H3 by (unfold zlen in *; lia). f_equal. unfold zlen in *; lia. }
        destruct (Z.to_nat (count - chunk)); cbn [prefix]; [|rewrite Hnone]; now rewrite app_nil_r.
  - cbn [snd]. f_equal. symmetry. destruct (src off) as [b|] eqn:Eoff.
    + exfalso. destruct (Hreg off Ho) as [HPn _]; [congruence|]. fold i in HPn. fold P in HPn.
      destruct (Hs P 256 HP0 ltac:(lia) ltac:(lia)) as [H|[_ H]]; [congruence|].
      change (Z.to_nat 256) with (S 255) in H. revert H. generalize 255%nat as m. intros m H.
      cbn [prefix] in H. destruct (src P); [discriminate|now apply HPn].
    + destruct (Z.to_nat count); cbn [prefix]; [easy|]. now rewrite Eoff.
  - exfalso. destruct (Hs P 256 HP0 ltac:(lia) ltac:(lia)) as [H|[H _]]; congruence.
  - exfalso. destruct (Hs P 256 HP0 ltac:(lia) ltac:(lia)) as [H|[H _]]; congruence.
Qed.

Lemma cread_transparent up src ps off count :
  serves up src -> regionsStartOnPages src -> PagesInv up ps ->
  0 <= off -> 0 <= count -> off + count + 512 <= W64 ->
  snd (cread up ps off count) = Ok (prefix src off (Z.to_nat count)) \/
  (256 <= count /\ snd (cread up ps off count) = Throw /\ up off count = Throw /\ prefix src off (Z.to_nat count) = []).
Proof.
  intros Hs Hreg Hi Ho Hc Hw. unfold cread, PAGESIZE. destruct (count >=? 256) eqn:E.
  - cbn [snd]. destruct (Hs off count Ho Hc ltac:(lia)) as [H|[H1 H2]].
    + now left.
    + right. repeat split; auto. lia.
  - left. apply readLoop_transparent; try assumption; lia.
Qed.

Lemma cstringLoop_transparent up src : serves up src -> regionsStartOnPages src ->
  forall fuel ps off s, PagesInv up ps -> 0 <= off -> s + 1024 <= W64 -> (Z.to_nat (s - off) < fuel)%nat ->
  snd (cstringLoop up fuel ps off s) = Ok (untilNul (prefix src off (Z.to_nat (s - off)))).
Proof.
  intros Hs Hreg. induction fuel as [|f IH]; intros ps off s Hi Ho Hsz Hf; [lia|].
  cbn [cstringLoop]. destruct (off <? s) eqn:E.
  - pose proof (cread_inv up ps off 1 Hi ltac:(lia)) as Hinv.
    pose proof (cread_transparent up src ps off 1 Hs Hreg Hi Ho ltac:(lia) ltac:(lia)) as Hr.
    destruct (cread up ps off 1) as [ps' r]. cbn [fst snd] in *.
    destruct Hr as [->|[Hbad _]]; [|lia].
    replace (Z.to_nat (s - off)) with (S (Z.to_nat (s - (off + 1)))) by lia.
    change (Z.to_nat 1) with 1%nat. cbn [prefix]. destruct (src off) as [c|]; [|reflexivity].
    cbn [untilNul]. destruct (c =? 0); [reflexivity|].
    specialize (IH ps' (off + 1) s Hinv ltac:(lia) Hsz ltac:(lia)).
    destruct (cstringLoop up f ps' (off + 1) s) as [ps'' r']. cbn [snd] in *. now subst r'.
  - replace (Z.to_nat (s - off)) with 0%nat by lia. reflexivity.
Qed.

(** What a string read must return. *)
Definition stringAt (src : memory) (size off : Z) : list Z :=
  if off =? 0 then nullText else untilNul (prefix src off (Z.to_nat (size - off))).

Definition StringsInv (src : memory) (size : Z) (l : list (Z * list Z)) : Prop :=
  Forall (fun kv => snd kv = stringAt src size (fst kv)) l.

Definition fuelOk (usize : Z) (o : cop) : Prop :=
  match o with OpString fuel off => (Z.to_nat (usize - off) < fuel)%nat | _ => True end.

Lemma lookupStr_in o l v : lookupStr o l = Some v -> In (o, v) l.
Proof.
  induction l as [|[k w] l IH]; cbn [lookupStr]; [discriminate|].
  destruct (k =? o) eqn:E; intros H; [inversion H; subst; left; f_equal; lia|right; now apply IH].
Qed.

Lemma creadString_spec up src usize fuel c off :
  serves up src -> regionsStartOnPages src -> PagesInv up (pages c) -> StringsInv src usize (strings c) ->
  0 <= off < W64 -> usize + 1024 <= W64 -> (Z.to_nat (usize - off) < fuel)%nat ->
  snd (creadString up usize fuel c off) = Ok (stringAt src usize off) /\
  StringsInv src usize (strings (fst (creadString up usize fuel c off))).
Proof.
  intros Hs Hreg Hi Hst Ho Hu Hf. unfold creadString.
  destruct (lookupStr off (strings c)) as [v|] eqn:El.
  - split; [|exact Hst]. apply lookupStr_in in El. unfold StringsInv in Hst. rewrite Forall_forall in Hst.
    specialize (Hst _ El). cbn in *. now rewrite Hst.
  - destruct (off =? 0) eqn:E0.
    + cbn [fst snd strings]. unfold stringAt at 1. rewrite E0. split; [reflexivity|].
      constructor; [|exact Hst]. cbn. unfold stringAt. now rewrite E0.
    + pose proof (cstringLoop_transparent up src Hs Hreg fuel (pages c) off usize Hi ltac:(lia) Hu Hf) as Hr.
      destruct (cstringLoop up fuel (pages c) off usize) as [ps r]. cbn [snd] in Hr. subst r.
      cbn [fst snd strings]. unfold stringAt at 1. rewrite E0. split; [reflexivity|].
      constructor; [|exact Hst]. cbn. unfold stringAt. now rewrite E0.
Qed.

Lemma crun_strings up src usize ops : serves up src -> regionsStartOnPages src -> usize + 1024 <= W64 ->
  Forall opValid ops -> Forall (fuelOk usize) ops ->
  forall c, PagesInv up (pages c) -> StringsInv src usize (strings c) ->
  StringsInv src usize (strings (crun up usize c ops)).
Proof.
  intros Hs Hreg Hu. unfold crun. induction ops as [|o ops IH]; intros Hv Hf c Hi Hst; cbn [fold_left]; [exact Hst|].
  inversion Hv; subst. inversion Hf; subst. apply IH; try assumption.
  - apply cstep_inv; try assumption. lia.
  - destruct o as [off count|fuel off|]; cbn [cstep].
    + destruct (cread up (pages c) off count). exact Hst.
    + cbn in *. apply (creadString_spec up src); assumption.
    + exact Hst.
Qed.

(** ** History-level statements *)
Lemma cached_read_any_history up src usize ops off count :
  serves up src -> regionsStartOnPages src -> usize <= W64 -> Forall opValid ops ->
  0 <= off -> 0 <= count -> off + count + 512 <= W64 ->
  let r := snd (cstep up usize (crun up usize emptyCache ops) (OpRead off count)) in
  r = Ok (prefix src off (Z.to_nat count)) \/
  (r = Throw /\ up off count = Throw /\ prefix src off (Z.to_nat count) = []).
Proof.
  intros Hs Hr Hu Hv Ho Hc Hw. cbn [cstep].
  pose proof (crun_inv up usize ops Hu Hv emptyCache (emptyPages_inv up)) as Hi.
  destruct (cread_transparent up src _ off count Hs Hr Hi Ho Hc Hw) as [H|(H0 & H1 & H2 & H3)];
  destruct (cread up (pages (crun up usize emptyCache ops)) off count) as [ps r]; cbn [snd] in *.
  - now left.
  - right. auto.
Qed.

Lemma cache_bounded_any_history up usize ops :
  usize <= W64 -> Forall opValid ops -> PagesInv up (pages (crun up usize emptyCache ops)).
Proof. intros Hu Hv. apply crun_inv; auto. apply emptyPages_inv. Qed.

Lemma flush_then_read up1 usize1 c up2 src2 usize2 ops off count :
  serves up2 src2 -> regionsStartOnPages src2 -> usize2 <= W64 -> Forall opValid ops ->
  0 <= off -> 0 <= count -> off + count + 512 <= W64 ->
  let c1 := fst (cstep up1 usize1 c OpFlush) in
  let r := snd (cstep up2 usize2 (crun up2 usize2 c1 ops) (OpRead off count)) in
  r = Ok (prefix src2 off (Z.to_nat count)) \/
  (r = Throw /\ up2 off count = Throw /\ prefix src2 off (Z.to_nat count) = []).
Proof.
  intros Hs Hr Hu Hv Ho Hc Hw. cbn [cstep fst].
  pose proof (crun_inv up2 usize2 ops Hu Hv (flush c) (emptyPages_inv up2)) as Hi.
  destruct (cread_transparent up2 src2 _ off count Hs Hr Hi Ho Hc Hw) as [H|(H0 & H1 & H2 & H3)];
  destruct (cread up2 (pages (crun up2 usize2 (flush c) ops)) off count) as [ps r]; cbn [snd] in *.
  - now left.
  - right. auto.
Qed.

Lemma cached_string_any_history up src usize ops fuel off :
  serves up src -> regionsStartOnPages src -> usize + 1024 <= W64 ->
  Forall opValid ops -> Forall (fuelOk usize) ops ->
  0 <= off < W64 -> (Z.to_nat (usize - off) < fuel)%nat ->
  snd (cstep up usize (crun up usize emptyCache ops) (OpString fuel off)) = Ok (stringAt src usize off).
Proof.
  intros Hs Hr Hu Hv Hf Ho Hfu. cbn [cstep].
  apply (creadString_spec up src); auto.
  - apply crun_inv; auto; [lia|]. apply emptyPages_inv.
  - apply crun_strings; auto; [apply emptyPages_inv|constructor].
Qed.

(** A byte source readable only from 100 on, as an upstream. *)
Definition midPageSrc : memory := fun a => if (100 <=? a) && (a <? 200) then Some (a mod 256) else None.
Definition midPageUp (off count : Z) : res (list Z) := Ok (prefix midPageSrc off (Z.to_nat count)).
Lemma midPage_serves : serves midPageUp midPageSrc.
Proof. intros off count _ _ _. left. reflexivity. Qed.

(** Two versions of an upstream, as a live process before and after running on. *)
Definition verUp (c : list Z) (off count : Z) : res (list Z) := Ok (prefix (ofList c) off (Z.to_nat count)).
Lemma verUp_serves c : serves (verUp c) (ofList c).
Proof. intros off count _ _ _. left. reflexivity. Qed.
Lemma ofList_regions c : regionsStartOnPages (ofList c).
Proof.
  intros a Ha Hn. unfold ofList in *.
  assert (H : forall b, 0 <= b <= a -> znth b c <> None).
  { intros b Hb. destruct (znth a c) as [x|] eqn:E; [|congruence]. apply znth_some in E.
    destruct (znth_lt b c) as [y ->]; [lia|discriminate]. }
  split; [apply H; lia|]. intros b Hb. apply H. lia.
Qed.
