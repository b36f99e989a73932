From Verif Require Import Base ElfHash ElfHashProofs Flags FlagsSpec.

(** the values given to the options *)
Fixpoint vals (next : Z) (ds : list odef) : list Z :=
  match ds with [] => [] | d :: r => if oShort d =? 0 then (next - 1) :: vals (next - 1) r else oShort d :: vals next r end.
Definition longs (ds : list odef) (vs : list Z) : list lopt := map (fun x => mkLo (oName (fst x)) (oArg (fst x)) (snd x)) (combine ds vs).
Lemma vals_len ds : forall n, length (vals n ds) = length ds.
Proof. induction ds as [|d ds IH]; intros n; cbn [vals]; [reflexivity|]. destruct (oShort d =? 0); cbn [length]; now rewrite IH. Qed.
Lemma dataFind_none d v : ~ In v (map fst d) -> dataFind d v = None.
Proof. induction d as [|(k & h) d IH]; cbn [dataFind map fst]; intros H; [reflexivity|]. replace (k =? v) with false by (symmetry; apply Z.eqb_neq; intros ->; apply H; now left). apply IH. intros X. apply H. now right. Qed.
Lemma dataFind_nth d : NoDup (map fst d) -> forall i v h, nth_error d i = Some (v, h) -> dataFind d v = Some h.
Proof.
  induction d as [|(k & h0) d IH]; intros N [|i] v h; cbn [nth_error dataFind]; try discriminate.
  - intros [= -> ->]. now rewrite Z.eqb_refl.
  - intros H. cbn [map fst] in N. inversion N as [|? ? N1 N2]; subst. replace (k =? v) with false; [exact (IH N2 i v h H)|]. symmetry. apply Z.eqb_neq. intros ->. apply N1. apply nth_error_In in H. apply (in_map fst) in H. exact H.
Qed.
Definition goodShort (d : odef) : Prop := oShort d = 0 \/ letter (oShort d).
Lemma vals_in ds : Forall goodShort ds -> forall n v, n <= -2 -> In v (vals n ds) -> v < n \/ (letter v /\ exists d, In d ds /\ oShort d = v).
Proof.
  induction 1 as [|d ds Hd _ IH]; intros n v Hn; cbn [vals]; [intros []|]. destruct (oShort d =? 0) eqn:E.
  - intros [<-|H]; [left; lia|]. destruct (IH (n - 1) v ltac:(lia) H) as [X|(X & d' & Y & Z)]; [left; lia|right; split; [exact X|exists d'; split; [now right|exact Z]]].
  - intros [<-|H]; [right; destruct Hd; [lia|]; split; [assumption|exists d; split; [now left|reflexivity]]|]. destruct (IH n v Hn H) as [X|(X & d' & Y & Z)]; [now left|right; split; [exact X|exists d'; split; [now right|exact Z]]].
Qed.
Lemma vals_nodup ds : Forall goodShort ds -> NoDup (filter (fun c => negb (c =? 0)) (map oShort ds)) -> forall n, n <= -2 -> NoDup (vals n ds).
Proof.
  induction 1 as [|d ds Hd Hds IH]; intros N n Hn; cbn [vals]; [constructor|]. cbn [map filter] in N. destruct (oShort d =? 0) eqn:E; cbn [negb] in N.
  - constructor; [|apply IH; [exact N|lia]]. intros X. destruct (vals_in ds Hds (n - 1) _ ltac:(lia) X) as [Y|(Y & _)]; [lia|unfold letter in Y; lia].
  - inversion N as [|? ? N1 N2]; subst. constructor; [|now apply IH]. intros X. destruct Hd as [Hd|Hd]; [lia|]. destruct (vals_in ds Hds n _ Hn X) as [Y|(_ & d' & Y & Z)]; [unfold letter in Hd; lia|]. apply N1. apply filter_In. split; [rewrite <- Z; now apply in_map|now rewrite E].
Qed.
Lemma build_spec ds : forall f h, NoDup (map fst (flData f) ++ vals (flNext f) ds) ->
  exists nx, build f ds h = Ok (mkFl (flLong f ++ longs ds (vals (flNext f) ds)) (flData f ++ combine (vals (flNext f) ds) (seq h (length ds))) nx).
Proof.
  induction ds as [|d ds IH]; intros f h N; cbn [build vals].
  - exists (flNext f). unfold longs. cbn. rewrite !app_nil_r. now destruct f.
  - unfold add. cbn [vals] in N. destruct (oShort d =? 0) eqn:E.
    + rewrite dataFind_none by (intros X; apply NoDup_remove in N; destruct N as (_ & N); apply N; apply in_or_app; now left). cbn [bind].
      destruct (IH (mkFl (flLong f ++ [mkLo (oName d) (oArg d) (flNext f - 1)]) (flData f ++ [(flNext f - 1, h)]) (flNext f - 1)) (S h)) as (nx & Eb); [cbn [flData flNext]; rewrite map_app; cbn [map fst]; rewrite <- app_assoc; exact N|]. exists nx. rewrite Eb. cbn [flLong flData flNext]. unfold longs. cbn [combine map fst snd length seq]. now rewrite <- !app_assoc.
    + rewrite dataFind_none by (intros X; apply NoDup_remove in N; destruct N as (_ & N); apply N; apply in_or_app; now left). cbn [bind].
      destruct (IH (mkFl (flLong f ++ [mkLo (oName d) (oArg d) (oShort d)]) (flData f ++ [(oShort d, h)]) (flNext f)) (S h)) as (nx & Eb); [cbn [flData flNext]; rewrite map_app; cbn [map fst]; rewrite <- app_assoc; exact N|]. exists nx. rewrite Eb. cbn [flLong flData flNext]. unfold longs. cbn [combine map fst snd length seq]. now rewrite <- !app_assoc.
Qed.

Definition flat (l : list lopt) : list Z := flat_map (fun o => if loVal o >? 0 then loVal o :: (if loArg o then [58] else []) else []) l.
Lemma flat_head l : Forall (fun o => loVal o <> 58) l -> match flat l with y :: _ => y =? 58 | [] => false end = false.
Proof. induction 1 as [|o l Ho _ IH]; [reflexivity|]. unfold flat. cbn [flat_map]. destruct (loVal o >? 0); cbn [app]; [apply Z.eqb_neq; exact Ho|exact IH]. Qed.
Lemma shortFind_flat l c : Forall (fun o => loVal o <> 58) l -> c <> 58 ->
  shortFind (flat l) c = match find (fun o => (loVal o >? 0) && (loVal o =? c)) l with Some o => Some (loArg o) | None => None end.
Proof.
  induction 1 as [|o l Ho Hl IH]; intros Hc; [reflexivity|]. unfold flat. cbn [flat_map find]. fold (flat l). destruct (loVal o >? 0) eqn:Ep; cbn [andb]; [|cbn [app]; now apply IH].
  cbn [app shortFind]. destruct (loVal o =? c) eqn:Ev.
  - destruct (loArg o) eqn:Ea; cbn [app]; [reflexivity|]. pose proof (flat_head l Hl) as H. destruct (flat l); [reflexivity|]. now rewrite H.
  - destruct (loArg o); cbn [app shortFind]; [replace (58 =? c) with false by lia|]; now apply IH.
Qed.
Lemma find_nth {A} (p : A -> bool) l : forall i x, nth_error l i = Some x -> p x = true -> (forall j y, nth_error l j = Some y -> p y = true -> j = i) -> find p l = Some x.
Proof.
  induction l as [|a l IH]; intros [|i] x H Hp Hu; try discriminate; cbn [find].
  - injection H as ->. now rewrite Hp.
  - destruct (p a) eqn:Ea; [specialize (Hu 0%nat a eq_refl Ea); discriminate|]. apply (IH i x H Hp). intros j y Hj Hy. specialize (Hu (S j) y Hj Hy). lia.
Qed.
Lemma find_no {A} (p : A -> bool) l : (forall x, In x l -> p x = false) -> find p l = None.
Proof. induction l as [|a l IH]; intros H; [reflexivity|]. cbn [find]. rewrite H by now left. apply IH. intros x Hx. apply H. now right. Qed.
Lemma combine_nth_error {A B} (w : list A) : forall (l : list B) i v k, nth_error w i = Some v -> nth_error l i = Some k -> nth_error (combine w l) i = Some (v, k).
Proof. induction w as [|x w IH]; intros [|y l] [|i] v k H S; try discriminate; cbn in *; [congruence|]. now apply IH. Qed.
Section Ds.
Variable ds : list odef.
Hypothesis Hok : okDefs ds.
Let vs := vals (-2) ds.
Let ls := longs ds vs.
Let ss := flat ls.
Let data := combine vs (seq 0 (length ds)).
Lemma good_all : Forall goodShort ds.
Proof. destruct Hok as (H & _). eapply Forall_impl; [|exact H]. cbn. unfold goodShort. tauto. Qed.
Lemma vs_nodup : NoDup vs.
Proof. destruct Hok as (_ & _ & H). apply vals_nodup; [exact good_all|exact H|lia]. Qed.
Lemma val_nth : forall i d, nth_error ds i = Some d -> exists v, nth_error vs i = Some v /\ nth_error ls i = Some (mkLo (oName d) (oArg d) v) /\ (oShort d <> 0 -> v = oShort d) /\ (v < -2 \/ letter v).
Proof.
  assert (G : forall l n i d, n <= -2 -> Forall goodShort l -> nth_error l i = Some d -> exists v, nth_error (vals n l) i = Some v /\ nth_error (longs l (vals n l)) i = Some (mkLo (oName d) (oArg d) v) /\ (oShort d <> 0 -> v = oShort d) /\ (v < -2 \/ letter v)).
  { induction l as [|x l IH]; intros n [|i] d Hn F; cbn [nth_error vals]; try discriminate.
    - intros [= ->]. inversion F as [|? ? Fd _]; subst. destruct (oShort d =? 0) eqn:E; (eexists; split; [reflexivity|]; split; [reflexivity|]; split; [try lia; reflexivity|]); [left; lia|right; destruct Fd; [lia|assumption]].
    - intros H. inversion F as [|? ? Fd Fl]; subst. destruct (oShort x =? 0) eqn:E; cbn [nth_error]; unfold longs; cbn [combine map nth_error]; [apply (IH (n - 1) i d ltac:(lia) Fl H)|apply (IH n i d Hn Fl H)]. }
  intros i d. apply G; [lia|exact good_all].
Qed.
Lemma data_find i v : nth_error vs i = Some v -> dataFind data v = Some i.
Proof.
  intros H. assert (L : length vs = length (seq 0 (length ds))) by (unfold vs; rewrite vals_len, seq_length; reflexivity).
  assert (Hi : (i < length ds)%nat) by (assert (X : nth_error vs i <> None) by congruence; apply nth_error_Some in X; unfold vs in X; now rewrite vals_len in X).
  apply (dataFind_nth data) with (i := i).
  - unfold data. enough (E : forall (a : list Z) (b : list nat), length a = length b -> map fst (combine a b) = a) by (rewrite E by exact L; exact vs_nodup). induction a as [|x a IH]; intros [|y b] E; try discriminate; cbn; [reflexivity|]. f_equal. apply IH. now injection E.
  - unfold data. revert L H. generalize vs. intros w L H. assert (S : nth_error (seq 0 (length ds)) i = Some i) by (rewrite (nth_error_nth' _ 0%nat) by (rewrite seq_length; exact Hi); f_equal; now rewrite seq_nth).
    exact (combine_nth_error w _ i v i H S).
Qed.
Lemma nth_val_inv j o : nth_error ls j = Some o -> exists d, nth_error ds j = Some d /\ o = mkLo (oName d) (oArg d) (loVal o) /\ nth_error vs j = Some (loVal o) /\ (oShort d <> 0 -> loVal o = oShort d) /\ (loVal o < -2 \/ letter (loVal o)) /\ (oShort d = 0 -> loVal o < -2).
Proof.
  intros H. assert (Lj : (j < length ds)%nat) by (assert (X : nth_error ls j <> None) by congruence; apply nth_error_Some in X; unfold ls, longs in X; rewrite map_length, combine_length in X; lia).
  destruct (nth_error ds j) as [d|] eqn:Ed; [|apply nth_error_None in Ed; lia]. destruct (val_nth j d Ed) as (v & V1 & V2 & V3 & V4). rewrite H in V2. injection V2 as ->. cbn [loVal]. exists d. split; [reflexivity|]. split; [reflexivity|]. split; [exact V1|]. split; [exact V3|]. split; [exact V4|].
  intros Hz. clear -V1 Ed Hz. unfold vs in V1. revert V1 Ed. assert (G : forall l n j, n <= -2 -> nth_error (vals n l) j = Some v -> nth_error l j = Some d -> v < -2).
  { induction l as [|x l IH]; intros n [|i] Hn; cbn [vals nth_error]; try discriminate.
    - intros H [= ->]. replace (oShort d =? 0) with true in H by lia. injection H as <-. lia.
    - destruct (oShort x =? 0); cbn [nth_error]; [apply (IH (n - 1) i); lia|apply (IH n i Hn)]. }
  apply G. lia.
Qed.
Lemma ls_58 : Forall (fun o => loVal o <> 58) ls.
Proof. apply Forall_forall. intros o Ho. apply In_nth_error in Ho. destruct Ho as (j & Hj). destruct (nth_val_inv j o Hj) as (d & _ & _ & _ & _ & [H|H] & _); unfold letter in *; lia. Qed.
Lemma short_known i d : nth_error ds i = Some d -> oShort d <> 0 -> shortFind ss (oShort d) = Some (oArg d) /\ oShort d <> 58 /\ oShort d <> 59 /\ oShort d <> 45 /\ oShort d <> 63 /\ 0 < oShort d /\ dataFind data (oShort d) = Some i.
Proof.
  intros Hi Hs. destruct (val_nth i d Hi) as (v & V1 & V2 & V3 & V4). specialize (V3 Hs). subst v.
  assert (Lt : letter (oShort d)). { pose proof good_all as G. rewrite Forall_forall in G. apply nth_error_In in Hi. destruct (G d Hi); [contradiction|assumption]. }
  split; [|unfold letter in Lt; repeat split; try lia; now apply data_find].
  unfold ss. rewrite shortFind_flat by (try exact ls_58; unfold letter in Lt; lia). rewrite (find_nth _ _ i (mkLo (oName d) (oArg d) (oShort d)) V2); [reflexivity|cbn [loVal]; unfold letter in Lt; lia|].
  intros j y Hj Hy. destruct (nth_val_inv j y Hj) as (d' & _ & _ & Vj & _). assert (Ey : loVal y = oShort d) by lia. rewrite Ey in Vj. pose proof vs_nodup as N. rewrite NoDup_nth_error in N. apply N; [assert (X : nth_error vs j <> None) by congruence; now apply nth_error_Some in X|congruence].
Qed.
Lemma short_unknown c : unknownLetter ds c -> c <> 58 -> shortFind ss c = None.
Proof.
  intros Hu Hc. unfold ss. rewrite shortFind_flat by (auto using ls_58). rewrite find_no; [reflexivity|]. intros o Ho. apply In_nth_error in Ho. destruct Ho as (j & Hj). destruct (nth_val_inv j o Hj) as (d & Hd & _ & _ & H1 & _ & H2).
  destruct (Z.eq_dec (oShort d) 0) as [E|E]; [specialize (H2 E); lia|]. rewrite (H1 E). apply nth_error_In in Hd. pose proof (Hu d Hd). lia.
Qed.
Lemma long_known i d : nth_error ds i = Some d -> exists v, longFind ls (oName d) = Some (mkLo (oName d) (oArg d) v) /\ dataFind data v = Some i /\ v <> -1 /\ v <> 63.
Proof.
  intros Hi. destruct (val_nth i d Hi) as (v & V1 & V2 & V3 & V4). exists v. split; [|split; [now apply data_find|unfold letter in V4; lia]].
  unfold longFind. rewrite (find_nth _ _ i (mkLo (oName d) (oArg d) v) V2); [reflexivity|now apply beq_spec|].
  intros j y Hj Hy. apply beq_spec in Hy. destruct (nth_val_inv j y Hj) as (d' & Hd' & Ey & _). rewrite Ey in Hy. cbn [loName] in Hy. destruct Hok as (_ & N & _). rewrite NoDup_nth_error in N. apply N; [rewrite map_length; assert (X : nth_error ds j <> None) by congruence; now apply nth_error_Some in X|].
  rewrite !nth_error_map, Hd', Hi. cbn. now rewrite Hy.
Qed.
Lemma isPrefix_spec p l : isPrefix p l = true <-> exists r, l = p ++ r.
Proof.
  revert l. induction p as [|x p IH]; intros l; cbn [isPrefix app]; [split; [now exists l|reflexivity]|]. destruct l as [|y l]; [split; [discriminate|intros (r & X); discriminate]|].
  rewrite andb_true_iff, IH. split.
  - intros (E & r & ->). apply Z.eqb_eq in E. subst. now exists r.
  - intros (r & [= -> ->]). split; [apply Z.eqb_refl|now exists r].
Qed.
Lemma long_unknown n : unknownName ds n -> longFind ls n = None.
Proof.
  intros Hu. assert (H : forall o, In o ls -> isPrefix n (loName o) = false).
  { intros o Ho. apply In_nth_error in Ho. destruct Ho as (j & Hj). destruct (nth_val_inv j o Hj) as (d & Hd & E & _). apply nth_error_In in Hd. destruct (isPrefix n (loName o)) eqn:X; [|reflexivity]. apply isPrefix_spec in X. rewrite E in X. cbn [loName] in X. destruct (Hu d Hd X). }
  unfold longFind. rewrite find_no.
  - enough (X : filter (fun o => isPrefix n (loName o)) ls = []) by (now rewrite X). clear -H. induction ls as [|o l IH]; [reflexivity|]. cbn [filter]. rewrite H by now left. apply IH. intros x Hx. apply H. now right.
  - intros o Ho. destruct (beq (loName o) n) eqn:E; [|reflexivity]. apply beq_spec in E. specialize (H o Ho). assert (X : isPrefix n (loName o) = true) by (apply isPrefix_spec; exists []; now rewrite app_nil_r). congruence.
Qed.
Lemma filter_one {A} (f : A -> bool) l i x : nth_error l i = Some x -> f x = true -> (forall j y, nth_error l j = Some y -> f y = true -> j = i) -> filter f l = [x].
Proof.
  revert i. induction l as [|a l IH]; intros [|i] H Hx U; cbn [nth_error filter] in *; try discriminate.
  - injection H as ->. rewrite Hx. f_equal. enough (G : forall y, In y l -> f y = false). { clear -G. induction l as [|b l IH]; [reflexivity|]. cbn [filter]. rewrite G by now left. apply IH. intros y Y. apply G. now right. }
    intros y Y. destruct (f y) eqn:E; [|reflexivity]. apply In_nth_error in Y as (j & Hj). specialize (U (S j) y Hj E). discriminate.
  - destruct (f a) eqn:E; [specialize (U 0%nat a eq_refl E); discriminate|]. apply (IH i H Hx). intros j y Hj Hy. specialize (U (S j) y Hj Hy). congruence.
Qed.
Lemma starts_prefix n j o : nth_error ls j = Some o -> isPrefix n (loName o) = true <-> exists d, nth_error ds j = Some d /\ startsName n d.
Proof.
  intros Hj. destruct (nth_val_inv j o Hj) as (d & Hd & E & _). rewrite isPrefix_spec. rewrite E. cbn [loName]. split; [intros X; exists d; auto|]. intros (d' & Hd' & X). replace d with d' by congruence. exact X.
Qed.
Lemma no_exact n : (forall d, In d ds -> oName d <> n) -> find (fun o => beq (loName o) n) ls = None.
Proof.
  intros H. apply find_no. intros o Ho. apply In_nth_error in Ho. destruct Ho as (j & Hj). destruct (nth_val_inv j o Hj) as (d & Hd & E & _). apply nth_error_In in Hd.
  destruct (beq (loName o) n) eqn:X; [|reflexivity]. apply beq_spec in X. rewrite E in X. cbn [loName] in X. now destruct (H d Hd).
Qed.
Lemma long_stands n i d : stands ds n i d -> exists v, longFind ls n = Some (mkLo (oName d) (oArg d) v) /\ dataFind data v = Some i /\ v <> -1 /\ v <> 63.
Proof.
  intros [Hi <-|Hi Hn Hs Hu]; [now apply long_known|]. destruct (in_dec (list_eq_dec Z.eq_dec) n (map oName ds)) as [I|I].
  - apply in_map_iff in I as (d' & E & I). apply In_nth_error in I as (j & Hj). assert (j = i) by (apply (Hu j d' Hj); exists []; now rewrite app_nil_r). subst j. assert (d' = d) by congruence. subst d' n. now apply long_known.
  - destruct (val_nth i d Hi) as (v & V1 & V2 & V3 & V4). exists v. split; [|split; [now apply data_find|unfold letter in V4; lia]].
    unfold longFind. rewrite no_exact by (intros d' D E; apply I; rewrite <- E; now apply in_map).
    rewrite (filter_one _ ls i (mkLo (oName d) (oArg d) v) V2); [reflexivity|apply isPrefix_spec; exact Hs|].
    intros j y Hj Hy. apply (starts_prefix n j y Hj) in Hy as (d' & Hd' & X). now apply (Hu j d').
Qed.
Lemma long_two n i j d d' : (forall d, In d ds -> oName d <> n) -> nth_error ds i = Some d -> nth_error ds j = Some d' -> i <> j -> startsName n d -> startsName n d' -> longFind ls n = None.
Proof.
  intros Hx Hi Hj Hn Hs Hs'. unfold longFind. rewrite no_exact by exact Hx.
  destruct (val_nth i d Hi) as (v & V1 & V2 & _). destruct (val_nth j d' Hj) as (v' & V1' & V2' & _).
  assert (Nv : v <> v'). { intros <-. apply Hn. pose proof vs_nodup as N. rewrite NoDup_nth_error in N. apply N; [apply nth_error_Some; congruence|congruence]. }
  assert (I1 : In (mkLo (oName d) (oArg d) v) (filter (fun o => isPrefix n (loName o)) ls)) by (apply filter_In; split; [now apply nth_error_In with i|now apply isPrefix_spec]).
  assert (I2 : In (mkLo (oName d') (oArg d') v') (filter (fun o => isPrefix n (loName o)) ls)) by (apply filter_In; split; [now apply nth_error_In with j|now apply isPrefix_spec]).
  destruct (filter (fun o => isPrefix n (loName o)) ls) as [|o r]; [reflexivity|]. destruct (forallb (same o) r) eqn:F; [|reflexivity]. exfalso. rewrite forallb_forall in F.
  assert (G : forall x, In x (o :: r) -> loVal x = loVal o). { intros x [->|X]; [reflexivity|]. specialize (F x X). unfold same in F. apply andb_true_iff in F as [_ F]. lia. }
  apply G in I1, I2. cbn [loVal] in *. congruence.
Qed.
Lemma splitEq_no n : ~ In 61 n -> splitEq n = (n, None).
Proof. induction n as [|c n IH]; intros H; cbn [splitEq]; [reflexivity|]. replace (c =? 61) with false by (symmetry; apply Z.eqb_neq; intros ->; apply H; now left). rewrite IH by (intros X; apply H; now right). reflexivity. Qed.
Lemma splitEq_eq n v : ~ In 61 n -> splitEq (n ++ 61 :: v) = (n, Some v).
Proof. induction n as [|c n IH]; intros H; cbn [app splitEq]; [reflexivity|]. replace (c =? 61) with false by (symmetry; apply Z.eqb_neq; intros ->; apply H; now left). rewrite IH by (intros X; apply H; now right). reflexivity. Qed.

(** the calls that follow from a list of results *)
Definition calls (x : list (Z * option (list Z)) * bool) : list (nat * option (list Z)) * res unit := dispatch data (fst x) (snd x).
Definition args (a : list (list Z)) := calls (getopts ss ls a).
Definition prep (c : list (nat * option (list Z))) (x : list (nat * option (list Z)) * res unit) := (c ++ fst x, snd x).
Lemma disp_cons v a i r b : dataFind data v = Some i -> v <> -1 -> v <> 63 -> dispatch data ((v, a) :: r) b = prep [(i, a)] (dispatch data r b).
Proof. intros H H1 H2. cbn [dispatch]. replace (v =? -1) with false by lia. replace (v =? 63) with false by lia. rewrite H. unfold prep. destruct (dispatch data r b). reflexivity. Qed.
Lemma name_ok i d : nth_error ds i = Some d -> oName d <> [] /\ ~ In 61 (oName d).
Proof. intros H. destruct Hok as (F & _). rewrite Forall_forall in F. apply nth_error_In in H. destruct (F d H) as (A & B & _). auto. Qed.
Lemma stands_ok n i d : stands ds n i d -> n <> [] /\ ~ In 61 n.
Proof.
  intros [Hi <-|Hi Hn (r & E) _]; [now apply name_ok with i|]. split; [exact Hn|]. intros X. apply (proj2 (name_ok i d Hi)). rewrite E. apply in_or_app. now left.
Qed.
Lemma beq_long n : n <> [] -> beq (45 :: 45 :: n) [45; 45] = false.
Proof. intros H. apply beq_neq. congruence. Qed.
Lemma cluster_letters l cs : letters ds l cs -> forall r, exists evs, cluster ss (l ++ r) = (evs ++ fst (cluster ss r), snd (cluster ss r)) /\ forall rest b, dispatch data (evs ++ rest) b = prep cs (dispatch data rest b).
Proof.
  induction 1 as [|i d l cs Hi Hs Ha Hl IH]; intros r.
  - exists []. cbn [app]. split; [now destruct (cluster ss r)|]. intros rest b. unfold prep. cbn [app]. now destruct (dispatch data rest b).
  - destruct (short_known i d Hi Hs) as (S1 & S2 & S3 & S4 & S5 & S6 & S7). destruct (IH r) as (evs & E & D). exists ((oShort d, None) :: evs). cbn [app cluster]. replace ((oShort d =? 58) || (oShort d =? 59)) with false by lia. rewrite S1, Ha, E. cbn [app]. split; [reflexivity|].
    intros rest b. rewrite (disp_cons _ _ i) by (auto; lia). rewrite D. reflexivity.
Qed.
Lemma letters_head l cs : letters ds l cs -> match l with c :: _ => c <> 45 | [] => True end.
Proof. destruct 1 as [|i d l cs Hi Hs Ha Hl]; [exact I|]. destruct (short_known i d Hi Hs). tauto. Qed.
Lemma short_arg l r : (match l with c :: _ => c <> 45 | [] => False end) -> beq (45 :: l) [45; 45] = false /\ isPrefix [45; 45] (45 :: l) = false /\ isPrefix [45] (45 :: l) && (1 <? zlen (45 :: l)) = true /\
  getopts ss ls ((45 :: l) :: r) = match cluster ss l with
        | (evs, CDone) => let (l, b) := getopts ss ls r in (evs ++ l, b)
        | (evs, CNeed c) => match r with [] => (evs, true) | v :: rest => let (l, b) := getopts ss ls rest in (evs ++ (c, Some v) :: l, b) end
        | (evs, CBad) => (evs, true)
        end.
Proof.
  destruct l as [|c l]; [intros []|]. intros Hc. assert (E1 : beq (45 :: c :: l) [45; 45] = false) by (apply beq_neq; congruence). assert (E2 : isPrefix [45; 45] (45 :: c :: l) = false) by (cbn [isPrefix]; destruct (45 =? c) eqn:X; [apply Z.eqb_eq in X; congruence|]; now rewrite andb_comm).
  assert (E3 : isPrefix [45] (45 :: c :: l) && (1 <? zlen (45 :: c :: l)) = true) by (rewrite !zlen_cons; pose proof (zlen_nonneg l); cbn [isPrefix]; lia).
  repeat split; auto. cbn [getopts]. rewrite E1, E2, E3. cbn [tl]. destruct (cluster ss (c :: l)) as (evs & [| |]); reflexivity.
Qed.
Lemma prep_app a b x : prep a (prep b x) = prep (a ++ b) x.
Proof. unfold prep. cbn [fst snd]. now rewrite app_assoc. Qed.
Lemma calls_app evs cs (x : list (Z * option (list Z)) * bool) : (forall rest b, dispatch data (evs ++ rest) b = prep cs (dispatch data rest b)) -> calls (let (l, b) := x in (evs ++ l, b)) = prep cs (calls x).
Proof. intros H. destruct x as (l & b). unfold calls. cbn [fst snd]. apply H. Qed.
Lemma item_ok a ca : item ds a ca -> forall rest, args (a ++ rest) = prep ca (args rest).
Proof.
  intros H rest. destruct H as [n i d Hi Ha|n i d v Hi Ha|n i d v Hi Ha|l cs Hl Hn|l cs i d v Hl Hi Hs Ha Hv|l cs i d v Hl Hi Hs Ha|a Ha]; unfold args.
  - destruct (long_stands n i d Hi) as (v & L & D & V1 & V2). destruct (stands_ok n i d Hi) as (N1 & N2). cbn [app getopts]. rewrite beq_long by exact N1. cbn [isPrefix Z.eqb andb Pos.eqb skipn]. rewrite splitEq_no by exact N2. rewrite L. cbn [loArg loVal]. rewrite Ha. apply (calls_app [(v, None)]). intros. now apply disp_cons.
  - destruct (long_stands n i d Hi) as (w & L & D & V1 & V2). destruct (stands_ok n i d Hi) as (N1 & N2). cbn [app getopts]. rewrite beq_long by (destruct n; discriminate). cbn [isPrefix Z.eqb andb Pos.eqb skipn]. rewrite splitEq_eq by exact N2. rewrite L. cbn [loArg loVal]. rewrite Ha. apply (calls_app [(w, Some v)]). intros. now apply disp_cons.
  - destruct (long_stands n i d Hi) as (w & L & D & V1 & V2). destruct (stands_ok n i d Hi) as (N1 & N2). cbn [app getopts]. rewrite beq_long by exact N1. cbn [isPrefix Z.eqb andb Pos.eqb skipn]. rewrite splitEq_no by exact N2. rewrite L. cbn [loArg loVal]. rewrite Ha. apply (calls_app [(w, Some v)]). intros. now apply disp_cons.
  - cbn [app]. pose proof (letters_head l cs Hl) as Hh. destruct (short_arg l rest) as (_ & _ & _ & E); [destruct l; [congruence|exact Hh]|]. rewrite E. destruct (cluster_letters l cs Hl []) as (evs & Ec & D). rewrite app_nil_r in Ec. cbn [cluster fst snd] in Ec. rewrite app_nil_r in Ec. rewrite Ec. apply calls_app, D.
  - cbn [app]. pose proof (letters_head l cs Hl) as Hh. destruct (short_known i d Hi Hs) as (S1 & S2 & S3 & S4 & S5 & S6 & S7).
    destruct (short_arg (l ++ oShort d :: v) rest) as (_ & _ & _ & E); [destruct l; [exact S4|exact Hh]|]. rewrite E. destruct (cluster_letters l cs Hl (oShort d :: v)) as (evs & Ec & D). rewrite Ec. cbn [cluster]. replace ((oShort d =? 58) || (oShort d =? 59)) with false by lia. rewrite S1, Ha. destruct v as [|v0 v]; [congruence|]. cbn [fst snd].
    apply calls_app. intros r b. rewrite <- app_assoc. rewrite D. cbn [app]. rewrite (disp_cons _ _ i) by (auto; lia). apply prep_app.
  - cbn [app]. pose proof (letters_head l cs Hl) as Hh. destruct (short_known i d Hi Hs) as (S1 & S2 & S3 & S4 & S5 & S6 & S7).
    destruct (short_arg (l ++ [oShort d]) (v :: rest)) as (_ & _ & _ & E); [destruct l; [exact S4|exact Hh]|]. rewrite E. destruct (cluster_letters l cs Hl [oShort d]) as (evs & Ec & D). rewrite Ec. cbn [cluster]. replace ((oShort d =? 58) || (oShort d =? 59)) with false by lia. rewrite S1, Ha. cbn [fst snd]. rewrite app_nil_r.
    destruct (getopts ss ls rest) as (gl & gb). unfold calls. cbn [fst snd]. rewrite D. rewrite (disp_cons _ _ i) by (auto; lia). apply prep_app.
  - cbn [app getopts]. unfold prep. cbn [app].
    assert (E1 : beq a [45; 45] = false) by (apply beq_neq; destruct Ha as [Ha| ->]; [apply Ha|discriminate]).
    assert (E2 : isPrefix [45; 45] a = false). { destruct (isPrefix [45; 45] a) eqn:X; [|reflexivity]. apply isPrefix_spec in X. destruct X as (r & ->). destruct Ha as [Ha|Ha]; [destruct (Ha (45 :: r) eq_refl)|discriminate]. }
    assert (E3 : isPrefix [45] a && (1 <? zlen a) = false). { destruct (isPrefix [45] a) eqn:X; [|reflexivity]. apply isPrefix_spec in X. destruct X as (r & ->). destruct Ha as [Ha|Ha]; [destruct (Ha r eq_refl)|]. destruct r; [reflexivity|discriminate]. }
    rewrite E1, E2, E3. now destruct (calls (getopts ss ls rest)).
Qed.
Lemma items_ok a ca : items ds a ca -> forall rest, args (a ++ rest) = prep ca (args rest).
Proof.
  induction 1 as [|a b ca cb Ha _ IH]; intros rest.
  - cbn [app]. unfold prep. cbn [app]. now destruct (args rest).
  - rewrite <- app_assoc, (item_ok a ca Ha), IH. apply prep_app.
Qed.
Lemma wrong_ok a ca : wrong ds a ca -> args a = (ca, Throw).
Proof.
  intros H. destruct H as [n v rest Hn He Hv Hu|n v i j d d' rest Hn Hv Hx Hi Hj Hij Hs Hs'|n i d Hi Ha|n i d v rest Hi Ha|l cs c r rest Hl Hu Hc|l cs i d Hl Hi Hs Ha]; unfold args.
  - cbn [getopts]. rewrite beq_long by (destruct n; [congruence|discriminate]). cbn [isPrefix Z.eqb andb Pos.eqb skipn]. destruct Hv as [-> |(w & ->)]; [rewrite app_nil_r, splitEq_no by exact He|rewrite splitEq_eq by exact He]; rewrite long_unknown by exact Hu; reflexivity.
  - assert (He : ~ In 61 n) by (intros X; apply (proj2 (name_ok i d Hi)); destruct Hs as (r & ->); apply in_or_app; now left).
    cbn [getopts]. rewrite beq_long by (destruct n; [congruence|discriminate]). cbn [isPrefix Z.eqb andb Pos.eqb skipn]. destruct Hv as [-> |(w & ->)]; [rewrite app_nil_r, splitEq_no by exact He|rewrite splitEq_eq by exact He]; rewrite (long_two n i j d d') by assumption; reflexivity.
  - destruct (long_stands n i d Hi) as (v & L & D & V1 & V2). destruct (stands_ok n i d Hi) as (N1 & N2). cbn [getopts]. rewrite beq_long by exact N1. cbn [isPrefix Z.eqb andb Pos.eqb skipn]. rewrite splitEq_no by exact N2. rewrite L. cbn [loArg]. rewrite Ha. reflexivity.
  - destruct (long_stands n i d Hi) as (w & L & D & V1 & V2). destruct (stands_ok n i d Hi) as (N1 & N2). cbn [getopts]. rewrite beq_long by (destruct n; discriminate). cbn [isPrefix Z.eqb andb Pos.eqb skipn]. rewrite splitEq_eq by exact N2. rewrite L. cbn [loArg]. rewrite Ha. reflexivity.
  - pose proof (letters_head l cs Hl) as Hh. destruct (short_arg (l ++ c :: r) rest) as (_ & _ & _ & E); [destruct l; [exact (Hc eq_refl)|exact Hh]|]. rewrite E. destruct (cluster_letters l cs Hl (c :: r)) as (evs & Ec & D). rewrite Ec. cbn [cluster].
    destruct ((c =? 58) || (c =? 59)) eqn:E5; [|rewrite short_unknown by (auto; lia)]; cbn [fst snd]; unfold calls; cbn [fst snd]; rewrite D; unfold prep; cbn; now rewrite app_nil_r.
  - pose proof (letters_head l cs Hl) as Hh. destruct (short_known i d Hi Hs) as (S1 & S2 & S3 & S4 & S5 & S6 & S7).
    destruct (short_arg (l ++ [oShort d]) []) as (_ & _ & _ & E); [destruct l; [exact S4|exact Hh]|]. rewrite E. destruct (cluster_letters l cs Hl [oShort d]) as (evs & Ec & D). rewrite Ec. cbn [cluster]. replace ((oShort d =? 58) || (oShort d =? 59)) with false by lia. rewrite S1, Ha. cbn [fst snd]. unfold calls. cbn [fst snd]. rewrite D. unfold prep. cbn. now rewrite app_nil_r.
Qed.
Lemma build_ok : exists f, build flEmpty ds 0 = Ok f /\ forall a, parse f a = args a.
Proof.
  destruct (build_spec ds flEmpty 0) as (nx & E); [cbn; exact vs_nodup|]. eexists. split; [exact E|]. intros a. unfold parse, args, calls, shorts. cbn [flEmpty flLong flData flNext app]. fold vs. fold ls. fold data. change (flat_map _ ls) with ss. now destruct (getopts ss ls a).
Qed.
End Ds.
