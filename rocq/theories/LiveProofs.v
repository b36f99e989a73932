From Coq Require Import Sorting.Sorted.
From Verif Require Import Base Live LiveSpec.

Definition cnt (s : live) (t : Z) : Z := match lfind (lwps s) t with Some l => stopCount l | None => 0 end.
Definition err (s : live) (t : Z) : Z := match lfind (lwps s) t with Some l => ptraceErr l | None => 0 end.
Definition on (s : live) (t : Z) : bool := (0 <? cnt s t) && (err s t =? 0).
Definition keys (s : live) : list Z := map fst (lwps s).
Definition inv (s : live) : Prop := StronglySorted Z.lt (keys s) /\ forall t, alternates (history t s) (on s t).

Lemma lfind_set_same m t v : lfind (lset m t v) t = Some v.
Proof. induction m as [|[k w] r IH]; cbn [lset lfind]; [now rewrite Z.eqb_refl|]. destruct (k =? t) eqn:E; cbn [lfind]; [now rewrite Z.eqb_refl|]. destruct (t <? k); cbn [lfind]; [now rewrite Z.eqb_refl|]. now rewrite E. Qed.
Lemma lfind_set_other m t u v : u <> t -> lfind (lset m t v) u = lfind m u.
Proof.
  intros H. induction m as [|[k w] r IH]; cbn [lset lfind]; [replace (t =? u) with false by lia; reflexivity|].
  destruct (k =? t) eqn:E; cbn [lfind].
  - replace (t =? u) with false by lia. replace (k =? u) with false by lia. reflexivity.
  - destruct (t <? k); cbn [lfind]; [replace (t =? u) with false by lia; reflexivity|]. now rewrite IH.
Qed.
Lemma lset_keys m t v x : In x (map fst (lset m t v)) -> x = t \/ In x (map fst m).
Proof.
  induction m as [|[k w] r IH]; cbn [lset map fst]; [intros [H|[]]; now left|]. destruct (k =? t) eqn:E; cbn [map fst]; [intros [H|H]; [now left|right; now right]|].
  destruct (t <? k); cbn [map fst]; [intros [H|H]; [now left|now right]|]. intros [H|H]; [right; now left|]. destruct (IH H); auto. right. now right.
Qed.
Lemma lset_sorted m t v : StronglySorted Z.lt (map fst m) -> StronglySorted Z.lt (map fst (lset m t v)).
Proof.
  induction m as [|[k w] r IH]; cbn [lset map fst]; intros H; [repeat constructor|]. inversion H as [|? ? H1 H2]; subst. rewrite Forall_forall in H2.
  destruct (k =? t) eqn:E; cbn [map fst].
  - replace t with k by lia. constructor; [exact H1|]. now apply Forall_forall.
  - destruct (t <? k) eqn:L; cbn [map fst].
    + constructor; [exact H|]. constructor; [lia|]. apply Forall_forall. intros x Hx. specialize (H2 x Hx). lia.
    + constructor; [now apply IH|]. apply Forall_forall. intros x Hx. apply lset_keys in Hx as [->|Hx]; [lia|now apply H2].
Qed.
Lemma lfind_in m t l : lfind m t = Some l -> In t (map fst m).
Proof. induction m as [|[k w] r IH]; cbn [lfind map fst]; [discriminate|]. destruct (k =? t) eqn:E; [left; lia|]. intros H. right. now apply IH. Qed.
Lemma lfind_none m t : lfind m t = None -> ~ In t (map fst m).
Proof. induction m as [|[k w] r IH]; cbn [lfind map fst]; [tauto|]. destruct (k =? t) eqn:E; [discriminate|]. intros H [->|Hi]; [lia|]. now apply IH. Qed.

Lemma history_cons t m k tr : history t (mkLive m (k :: tr)) = history t (mkLive m tr) ++ isAD t k.
Proof. unfold history. cbn [trace rev]. rewrite flat_map_app. cbn [flat_map]. now rewrite app_nil_r. Qed.
Lemma history_map t m m' tr : history t (mkLive m tr) = history t (mkLive m' tr).
Proof. reflexivity. Qed.
Lemma history_eta t s m : history t (mkLive m (trace s)) = history t s.
Proof. reflexivity. Qed.

Lemma alternates_attached t s : alternates (history t s) (on s t) -> (attached t s <-> on s t = true).
Proof.
  unfold attached. intros A. split.
  - intros [l E]. rewrite E in A. destruct (on s t); [reflexivity|]. exfalso. inversion A as [E0|E0|l' Al E0]; [now destruct l|apply app_inj_tail in E0 as [_ E0]; discriminate].
  - intros E. rewrite E in A. inversion A as [|l Al E0|]. exists l. reflexivity.
Qed.

Lemma waitStop_spec t ws : forall acts e acts', waitStop t ws acts = Ok (e, acts') ->
  (Forall wOk ws -> True) /\ (forall u m, history u (mkLive m acts') = history u (mkLive m acts)).
Proof.
  induction ws as [|w r IH]; intros acts e acts' H; cbn [waitStop] in H; [discriminate|].
  split; [trivial|]. intros u m. destruct w as [|e0| |sg e0|].
  - now apply (IH _ _ _ H).
  - destruct (e0 =? 0); [now apply (IH _ _ _ H)|]. now injection H as <- <-.
  - now injection H as <- <-.
  - destruct (e0 =? 0); [|now injection H as <- <-]. destruct (IH _ _ _ H) as [_ ->]. rewrite history_cons. cbn [isAD]. now rewrite app_nil_r.
  - now injection H as <- <-.
Qed.
Lemma waitStop_good t ws : forall acts, good (Attached ws) -> exists acts', waitStop t ws acts = Ok (0, acts').
Proof.
  intros acts (a & b & -> & H). revert acts. induction H as [|w a Hw Ha IH]; intros acts; cbn [app waitStop]; [eauto|].
  destruct Hw as [->|[s ->]]; [apply IH|]. cbn [Z.eqb]. apply IH.
Qed.

(** ** One thread *)
Lemma stop_spec s t o s' : inv s -> outOk o -> stop s t o = Ok s' ->
  inv s' /\ cnt s' t = cnt s t + 1 /\ (forall u, u <> t -> cnt s' u = cnt s u /\ err s' u = err s u) /\
  (good o -> err s t = 0 -> err s' t = 0) /\ In t (keys s') /\ (forall u, In u (keys s') -> u = t \/ In u (keys s)).
Proof.
  intros [Hs Ha] Ho H. unfold stop in H.
  assert (Hc : stopCount (match lfind (lwps s) t with Some l => l | None => mkLwp 0 0 end) = cnt s t) by (unfold cnt; now destruct (lfind (lwps s) t)).
  assert (He : ptraceErr (match lfind (lwps s) t with Some l => l | None => mkLwp 0 0 end) = err s t) by (unfold err; now destruct (lfind (lwps s) t)).
  rewrite Hc, He in H.
  assert (Gen : forall e tr, (forall u, u <> t -> history u (mkLive [] tr) = history u s) ->
     alternates (history t (mkLive [] tr)) ((0 <? cnt s t + 1) && (e =? 0)) -> (good o -> err s t = 0 -> e = 0) ->
     let s1 := mkLive (lset (lwps s) t (mkLwp (cnt s t + 1) e)) tr in
     inv s1 /\ cnt s1 t = cnt s t + 1 /\ (forall u, u <> t -> cnt s1 u = cnt s u /\ err s1 u = err s u) /\ (good o -> err s t = 0 -> err s1 t = 0) /\
     In t (keys s1) /\ (forall u, In u (keys s1) -> u = t \/ In u (keys s))).
  { intros e tr Hu Ht Hg s1. assert (Hoth : forall u, u <> t -> cnt s1 u = cnt s u /\ err s1 u = err s u).
    { intros u Hne. unfold cnt, err, s1. cbn [lwps]. now rewrite lfind_set_other. }
    assert (Hct : cnt s1 t = cnt s t + 1) by (unfold cnt at 1, s1; cbn [lwps]; now rewrite lfind_set_same).
    assert (Het : err s1 t = e) by (unfold err at 1, s1; cbn [lwps]; now rewrite lfind_set_same).
    split; [split|split; [|split; [|split; [|split]]]]; auto.
    - unfold keys, s1. cbn [lwps]. now apply lset_sorted.
    - intros u. unfold s1. rewrite (history_map u _ []). destruct (Z.eq_dec u t) as [->|Hne].
      + unfold on. fold s1. rewrite Hct, Het. exact Ht.
      + rewrite Hu by exact Hne. unfold on. fold s1. destruct (Hoth u Hne) as [-> ->]. apply Ha.
    - intros G E. rewrite Het. now apply Hg.
    - unfold keys, s1. cbn [lwps]. eapply lfind_in. apply lfind_set_same.
    - intros u. unfold keys, s1. cbn [lwps]. apply lset_keys. }
  specialize (Ha t) as Hat. destruct (cnt s t =? 0) eqn:E0; cbn [negb] in H.
  - assert (Hoff : on s t = false) by (unfold on; lia). rewrite Hoff in Hat. destruct o as [e|ws].
    + injection H as <-. apply Gen; auto.
      * rewrite (history_eta t s []). cbn in Ho. replace ((0 <? cnt s t + 1) && (e =? 0)) with false by lia. exact Hat.
      * intros [].
    + destruct (waitStop t ws (KAttach t :: trace s)) as [[e acts]| | |] eqn:W; try discriminate. cbn [bind] in H. injection H as <-.
      destruct (waitStop_spec _ _ _ _ _ W) as [_ Wh]. apply Gen.
      * intros u Hne. destruct (e =? 0); rewrite ?history_cons, Wh, history_cons; cbn [isAD]; replace (t =? u) with false by lia; rewrite !app_nil_r; reflexivity.
      * destruct (e =? 0) eqn:Ee.
        -- rewrite Wh, history_cons. cbn [isAD]. rewrite Z.eqb_refl. replace ((0 <? cnt s t + 1) && true) with true by lia. constructor. exact Hat.
        -- rewrite !history_cons, Wh, history_cons. cbn [isAD]. rewrite !Z.eqb_refl, app_nil_r. rewrite andb_false_r. constructor. constructor. exact Hat.
      * intros G _. destruct (waitStop_good t ws (KAttach t :: trace s) G) as [a' W']. congruence.
  - injection H as <-. apply Gen; auto. rewrite (history_eta t s []).
    replace ((0 <? cnt s t + 1) && (err s t =? 0)) with (on s t) by (unfold on; lia). exact Hat.
Qed.
Lemma resume_spec s t : inv s ->
  inv (resume s t) /\ (cnt (resume s t) t = if existsb (Z.eqb t) (keys s) then cnt s t - 1 else cnt s t) /\
  (forall u, u <> t -> lfind (lwps (resume s t)) u = lfind (lwps s) u) /\ err (resume s t) t = err s t /\
  (forall u, In u (keys (resume s t)) -> In u (keys s)).
Proof.
  intros [Hs Ha]. unfold resume. destruct (lfind (lwps s) t) as [l|] eqn:F.
  2:{ split; [now split|]. split.
      - destruct (existsb (Z.eqb t) (keys s)) eqn:E; [|reflexivity]. exfalso. apply existsb_exists in E as (x & Hi & E). apply (lfind_none _ _ F). now replace t with x by lia.
      - auto. }
  assert (Hin : In t (keys s)) by (eapply lfind_in; eauto).
  assert (Hex : existsb (Z.eqb t) (keys s) = true) by (apply existsb_exists; exists t; split; [exact Hin|lia]). rewrite Hex.
  assert (Hc : cnt s t = stopCount l) by (unfold cnt; now rewrite F). assert (He : err s t = ptraceErr l) by (unfold err; now rewrite F).
  set (m := lset (lwps s) t (mkLwp (stopCount l - 1) (ptraceErr l))).
  assert (Gen : forall tr, (forall u, u <> t -> history u (mkLive [] tr) = history u s) ->
     alternates (history t (mkLive [] tr)) ((0 <? cnt s t - 1) && (err s t =? 0)) ->
     let s1 := mkLive m tr in inv s1 /\ cnt s1 t = cnt s t - 1 /\ (forall u, u <> t -> lfind (lwps s1) u = lfind (lwps s) u) /\ err s1 t = err s t /\ (forall u, In u (keys s1) -> In u (keys s))).
  { intros tr Hu Ht s1. assert (Hct : cnt s1 t = cnt s t - 1) by (unfold cnt at 1, s1, m; cbn [lwps]; rewrite lfind_set_same; cbn; lia).
    assert (Het : err s1 t = err s t) by (unfold err at 1, s1, m; cbn [lwps]; rewrite lfind_set_same; cbn; lia).
    assert (Hoth : forall u, u <> t -> lfind (lwps s1) u = lfind (lwps s) u) by (intros u Hne; unfold s1, m; cbn [lwps]; now apply lfind_set_other).
    split; [split|]; auto.
    - unfold keys, s1, m. cbn [lwps]. now apply lset_sorted.
    - intros u. unfold s1 at 1. rewrite (history_map u _ []). destruct (Z.eq_dec u t) as [->|Hne].
      + unfold on. rewrite Hct, Het. exact Ht.
      + rewrite Hu by exact Hne. unfold on, cnt, err. rewrite Hoth by exact Hne. apply Ha.
    - repeat split; auto. intros u. unfold keys, s1, m. cbn [lwps]. intros Hi. apply lset_keys in Hi as [->|Hi]; assumption. }
  specialize (Ha t) as Hat. rewrite <- Hc, <- He. destruct (cnt s t - 1 =? 0) eqn:E0; cbn [negb].
  - destruct (err s t =? 0) eqn:Ee; cbn [negb].
    + apply Gen.
      * intros u Hne. rewrite history_cons. cbn [isAD]. replace (t =? u) with false by lia. now rewrite app_nil_r.
      * rewrite history_cons. cbn [isAD]. rewrite Z.eqb_refl. replace ((0 <? cnt s t - 1) && true) with false by lia. constructor.
        rewrite (history_eta t s []). replace (on s t) with true in Hat by (unfold on; lia). exact Hat.
    + apply Gen; auto. rewrite (history_eta t s []). rewrite andb_false_r. replace (on s t) with false in Hat by (unfold on; lia). exact Hat.
  - apply Gen; auto. rewrite (history_eta t s []). replace ((0 <? cnt s t - 1) && (err s t =? 0)) with (on s t) by (unfold on; lia). exact Hat.
Qed.

(** ** The process *)
Definition memb (t : Z) (l : list Z) : bool := existsb (Z.eqb t) l.
Lemma memb_in t l : memb t l = true <-> In t l.
Proof. unfold memb. rewrite existsb_exists. split; [intros (x & H & E); now replace t with x by lia|intros H; exists t; split; [exact H|lia]]. Qed.
Lemma memb_nin t l : memb t l = false <-> ~ In t l.
Proof. rewrite <- memb_in. destruct (memb t l); split; intros; congruence || tauto. Qed.

Lemma stopScan_spec es : forall s su s' su', inv s -> Forall (fun x => outOk (snd x)) es -> stopScan s su es = Ok (s', su') ->
  inv s' /\ (forall t, In t su' <-> In t su \/ In t (map fst es)) /\
  (forall t, cnt s' t = cnt s t + (if negb (memb t su) && memb t (map fst es) then 1 else 0)) /\
  (forall t, (forall o, In (t, o) es -> good o) -> err s t = 0 -> err s' t = 0) /\
  (forall t, In t (keys s') -> In t (keys s) \/ In t (map fst es)).
Proof.
  induction es as [|[t o] es IH]; intros s su s' su' Hi Hok H; cbn [stopScan] in H.
  - injection H as <- <-. split; [exact Hi|]. cbn. split; [tauto|]. split; [intros; rewrite andb_false_r; lia|]. split; [auto|]. tauto.
  - inversion Hok as [|? ? Ho Hok']; subst. cbn [snd] in Ho. change (existsb (Z.eqb t) su) with (memb t su) in H. destruct (memb t su) eqn:M.
    + destruct (IH _ _ _ _ Hi Hok' H) as (A & B & C & D & K). split; [exact A|]. cbn [map fst In]. apply memb_in in M. split; [|split; [|split]]. (*A*)
      * intros u. rewrite B. split; [intros [?|?]; auto|]. intros [?|[<-|?]]; auto.
      * intros u. rewrite C. destruct (memb u su) eqn:Mu; cbn [negb andb]; [reflexivity|]. cbn [memb existsb]. replace (u =? t) with false; [reflexivity|].
        symmetry. apply Z.eqb_neq. intros ->. apply memb_in in M. congruence.
      * intros u G E. apply D; [intros o' Hi'; apply G; now right|exact E].
      * intros u Hu. destruct (K u Hu); auto.
    + destruct (stop s t o) as [s1| | |] eqn:Es; try discriminate. cbn [bind] in H.
      destruct (stop_spec _ _ _ _ Hi Ho Es) as (A1 & C1 & O1 & D1 & K1 & K2).
      destruct (IH _ _ _ _ A1 Hok' H) as (A & B & C & D & K). split; [exact A|]. cbn [map fst In]. split; [|split; [|split]].
      * intros u. rewrite B. cbn [In]. split; [intros [[?|?]|?]; auto|intros [?|[?|?]]; auto].
      * intros u. rewrite C. destruct (Z.eq_dec u t) as [->|Hne].
        -- rewrite C1. rewrite M. cbn [negb andb memb existsb]. rewrite Z.eqb_refl. cbn [orb negb andb]. lia.
        -- rewrite (proj1 (O1 u Hne)). cbn [memb existsb]. replace (u =? t) with false by lia. reflexivity.
      * intros u G E. apply D; [intros o' Hi'; apply G; now right|]. destruct (Z.eq_dec u t) as [->|Hne]; [apply D1; auto; apply G; now left|]. now rewrite (proj2 (O1 u Hne)).
      * intros u Hu. destruct (K u Hu) as [Hk|Hk]; auto. destruct (K2 u Hk); auto.
Qed.
Lemma stopScans_spec scans : forall s su s', inv s -> Forall (fun x => outOk (snd x)) (concat scans) -> stopScans s su scans = Ok s' ->
  inv s' /\ (forall t, cnt s' t = cnt s t + (if negb (memb t su) && memb t (map fst (concat scans)) then 1 else 0)) /\
  (forall t, (forall o, In (t, o) (concat scans) -> good o) -> err s t = 0 -> err s' t = 0) /\
  (forall t, In t (keys s') -> In t (keys s) \/ In t (map fst (concat scans))) /\
  (exists l, last scans [] = l /\ forall t, In t (map fst l) -> In t su \/ In t (map fst (concat (removelast scans)))).
Proof.
  induction scans as [|es r IH]; intros s su s' Hi Hok H; cbn [stopScans] in H; [discriminate|].
  cbn [concat] in Hok. apply Forall_app in Hok as [Hok1 Hok2].
  destruct (stopScan s su es) as [[s1 su1]| | |] eqn:E; try discriminate. cbn [bind] in H.
  destruct (stopScan_spec _ _ _ _ _ Hi Hok1 E) as (A & B & C & D & K).
  assert (Hmem : forall t, memb t su1 = memb t su || memb t (map fst es)).
  { intros t. apply eq_true_iff_eq. rewrite orb_true_iff, !memb_in. apply B. }
  destruct (length su =? length su1)%nat eqn:El.
  - destruct r as [|es2 r]; [|discriminate]. injection H as <-. cbn [concat]. rewrite app_nil_r. repeat (split; [assumption|]).
    exists es. split; [reflexivity|]. intros t Ht. left.
    (* no new thread was listed: the set did not grow *)
    assert (Hlen : forall es s su s1 su1, stopScan s su es = Ok (s1, su1) -> (length su <= length su1)%nat /\ (length su = length su1 -> su1 = su)).
    { clear. induction es as [|[u o] es IH]; intros s su s1 su1 E; cbn [stopScan] in E; [injection E as <- <-; auto|].
      destruct (existsb (Z.eqb u) su); [eauto|]. destruct (stop s u o) as [s2| | |]; try discriminate. cbn [bind] in E. apply IH in E as [E1 E2]. cbn [length] in *. split; [lia|]. lia. }
    apply Nat.eqb_eq in El. destruct (Hlen _ _ _ _ _ E) as [_ Eq]. rewrite <- (Eq El). apply B. now right.
  - destruct (IH _ _ _ A Hok2 H) as (A2 & C2 & D2 & K2 & L2). split; [exact A2|]. cbn [concat]. rewrite map_app. split; [|split; [|split]].
    + intros t. rewrite C2, C, Hmem. assert (Hm : memb t (map fst es ++ map fst (concat r)) = memb t (map fst es) || memb t (map fst (concat r))) by (unfold memb; apply existsb_app).
      rewrite Hm. destruct (memb t su), (memb t (map fst es)), (memb t (map fst (concat r))); cbn [negb andb orb]; lia.
    + intros t G Et. apply D2; [intros o Hx; apply G, in_app_iff; now right|]. apply D; auto. intros o Hx. apply G, in_app_iff. now left.
    + intros t Ht. destruct (K2 t Ht) as [Hk|Hk]; [|right; apply in_app_iff; now right]. destruct (K t Hk); auto. right. apply in_app_iff. now left.
    + destruct r as [|es2 r]; [cbn in H; discriminate|]. destruct L2 as (l & Hl & Hc). exists l. split; [exact Hl|].
      intros t Ht. change (removelast (es :: es2 :: r)) with (es :: removelast (es2 :: r)). cbn [concat]. rewrite map_app, in_app_iff.
      destruct (Hc t Ht) as [Hx|Hx]; [apply B in Hx as [Hx|Hx]|]; auto.
Qed.
Lemma stopProcess_spec s pid o scans s' : inv s -> outOk o -> Forall (fun x => outOk (snd x)) (concat scans) -> stopProcess s pid o scans = Ok s' ->
  inv s' /\ (forall t, cnt s' t = cnt s t + (if memb t (covered pid scans) then 1 else 0)) /\
  (forall t, (pid = t -> good o) -> (forall o, In (t, o) (concat scans) -> good o) -> err s t = 0 -> err s' t = 0) /\
  (forall t, In t (keys s') -> In t (keys s) \/ In t (covered pid scans)).
Proof.
  intros Hi Ho Hs H. unfold stopProcess in H. destruct (stop s pid o) as [s1| | |] eqn:E; try discriminate. cbn [bind] in H.
  destruct (stop_spec _ _ _ _ Hi Ho E) as (A1 & C1 & O1 & D1 & K1 & K2). destruct (stopScans_spec _ _ _ _ A1 Hs H) as (A & C & D & K & _).
  split; [exact A|]. unfold covered. split; [|split].
  - intros t. rewrite C. cbn [memb existsb]. destruct (Z.eq_dec t pid) as [->|Hne].
    + rewrite Z.eqb_refl, C1. cbn [orb negb andb]. lia.
    + rewrite (proj1 (O1 t Hne)). replace (t =? pid) with false by lia. cbn [orb negb andb]. reflexivity.
  - intros t G1 G2 Et. apply D; auto. destruct (Z.eq_dec t pid) as [->|Hne]; [apply D1; auto|]. now rewrite (proj2 (O1 t Hne)).
  - intros t Ht. destruct (K t Ht) as [Hk|Hk]; [destruct (K2 t Hk) as [->|]; auto|]; cbn [In]; auto.
Qed.

Lemma resumeAll_spec l : forall s, inv s -> NoDup l -> (forall t, In t l -> In t (keys s)) ->
  let s' := fold_left resume l s in
  inv s' /\ (forall t, cnt s' t = cnt s t - (if memb t l then 1 else 0)) /\ (forall t, err s' t = err s t) /\ (forall t, In t (keys s') -> In t (keys s)).
Proof.
  induction l as [|x l IH]; intros s Hi Hn Hk; cbn [fold_left].
  - cbn. repeat split; auto; try apply Hi. intros. lia.
  - inversion Hn as [|? ? N1 N2]; subst. destruct (resume_spec s x Hi) as (A1 & C1 & O1 & E1 & K1).
    assert (Hx : memb x (keys s) = true) by (apply memb_in, Hk; now left). unfold memb in Hx. rewrite Hx in C1.
    destruct (IH (resume s x) A1 N2) as (A & C & E & K).
    { intros t Ht. assert (t <> x) by (intros ->; contradiction). destruct (lfind (lwps (resume s x)) t) eqn:F; [eapply lfind_in; eauto|].
      rewrite O1 in F by assumption. exfalso. apply (lfind_none _ _ F). apply Hk. now right. }
    split; [exact A|]. split; [|split].
    + intros t. rewrite C. cbn [memb existsb]. destruct (Z.eq_dec t x) as [->|Hne].
      * rewrite C1, Z.eqb_refl. replace (memb x l) with false by (symmetry; now apply memb_nin). cbn [orb]. lia.
      * unfold cnt at 1. rewrite O1 by exact Hne. fold (cnt s t). replace (t =? x) with false by lia. reflexivity.
    + intros t. rewrite E. destruct (Z.eq_dec t x) as [->|Hne]; [exact E1|]. unfold err. now rewrite O1.
    + intros t Ht. apply K1, K, Ht.
Qed.
Lemma resumeProcess_spec s : inv s ->
  inv (resumeProcess s) /\ (forall t, cnt (resumeProcess s) t = cnt s t - (if memb t (keys s) then 1 else 0)) /\
  (forall t, err s t = 0 -> err (resumeProcess s) t = 0) /\ (forall t, In t (keys (resumeProcess s)) -> In t (keys s)).
Proof.
  intros Hi. unfold resumeProcess. 
  assert (Hf : fold_left (fun s e => resume s (fst e)) (lwps s) s = fold_left resume (keys s) s).
  { unfold keys. generalize s at 2 4. clear. induction (lwps s) as [|e l IH]; intros s0; cbn [fold_left map]; [reflexivity|apply IH]. }
  rewrite Hf. clear Hf.
  assert (Hnd : NoDup (keys s)). { destruct Hi as [Hs _]. clear -Hs. induction Hs as [|x l Hl IH Hx]; constructor; auto. rewrite Forall_forall in Hx. intros Hin. specialize (Hx x Hin). lia. }
  destruct (resumeAll_spec (keys s) s Hi Hnd ltac:(auto)) as (A & C & E & K). set (s1 := fold_left resume (keys s) s) in *.
  set (P := fun e : Z * lwp => negb (stopCount (snd e) =? 0)).
  assert (Hfind : forall m t, StronglySorted Z.lt (map fst m) -> lfind (filter P m) t = match lfind m t with Some l => if stopCount l =? 0 then None else Some l | None => None end).
  { clear. induction m as [|[k w] r IH]; intros t Hs; [reflexivity|]. cbn [map fst] in Hs. inversion Hs as [|? ? H1 H2]; subst. cbn [filter]. unfold P at 1. cbn [snd lfind].
    destruct (stopCount w =? 0) eqn:E; cbn [negb].
    - rewrite IH by exact H1. destruct (k =? t) eqn:Ek; [|reflexivity]. rewrite E. destruct (lfind r t) eqn:F; [|reflexivity]. exfalso. apply lfind_in in F. rewrite Forall_forall in H2. specialize (H2 t F). lia.
    - cbn [lfind]. destruct (k =? t) eqn:Ek; [now rewrite E|]. now apply IH. }
  destruct A as [As Aa]. set (s2 := mkLive (filter P (lwps s1)) (trace s1)).
  assert (Hc : forall t, cnt s2 t = cnt s1 t). { intros t. unfold cnt, s2. cbn [lwps]. rewrite Hfind by exact As. destruct (lfind (lwps s1) t) as [l|]; [|reflexivity]. destruct (stopCount l =? 0) eqn:E0; lia. }
  assert (He : forall t, cnt s1 t = 0 \/ err s2 t = err s1 t). { intros t. unfold cnt, err, s2. cbn [lwps]. rewrite Hfind by exact As. destruct (lfind (lwps s1) t) as [l|]; [|now right]. destruct (stopCount l =? 0) eqn:E0; [left; lia|now right]. }
  split; [split|split; [|split]].
  - unfold keys, s2. cbn [lwps]. clear -As. unfold keys in As. induction (lwps s1) as [|[k w] r IH]; cbn [filter]; [constructor|]. cbn [map fst] in As. inversion As as [|? ? H1 H2]; subst.
    destruct (P (k, w)); [|now apply IH]. cbn [map fst]. constructor; [now apply IH|]. rewrite Forall_forall in *. intros x Hx. apply H2. rewrite in_map_iff in *. destruct Hx as (e & <- & Hx). apply filter_In in Hx as [Hx _]. eauto.
  - intros t. change (history t s2) with (history t s1). replace (on s2 t) with (on s1 t); [apply Aa|]. unfold on. rewrite Hc. destruct (He t) as [->| ->]; reflexivity.
  - intros t. rewrite Hc. apply C.
  - intros t Et. unfold err, s2. cbn [lwps]. rewrite Hfind by exact As. specialize (E t). rewrite Et in E. unfold err in E. destruct (lfind (lwps s1) t) as [l|]; [|reflexivity]. now destruct (stopCount l =? 0).
  - intros t Ht. apply K. unfold keys, s2 in *. cbn [lwps] in Ht. rewrite in_map_iff in *. destruct Ht as (e & <- & Hx). apply filter_In in Hx as [Hx _]. eauto.
Qed.

(** ** Runs *)
Lemma run_snoc pid es : forall s e, runEvents pid s (es ++ [e]) = let* s' := runEvents pid s es in step pid s' e.
Proof.
  induction es as [|x es IH]; intros s e; cbn [app runEvents].
  - cbn [bind]. destruct (step pid s e); reflexivity.
  - destruct (step pid s x); cbn [bind]; auto.
Qed.
Lemma frames_snoc pid es e : frames pid (es ++ [e]) = push pid (frames pid es) e.
Proof. unfold frames. now rewrite fold_left_app. Qed.
Lemma inv_new : inv newLive.
Proof. split; [constructor|]. intros t. cbn. constructor. Qed.
Lemma cnt_absent s t : ~ In t (keys s) -> cnt s t = 0.
Proof. unfold cnt. intros H. destruct (lfind (lwps s) t) eqn:E; [|reflexivity]. apply lfind_in in E. contradiction. Qed.

Lemma run_safe pid es s : nested pid es -> Forall evOk es -> runEvents pid newLive es = Ok s ->
  inv s /\ (forall t, cnt s t <= outstanding pid es t) /\ (forall t, In t (keys s) -> asked pid es t).
Proof.
  intros Hn. revert s. induction Hn as [|es t o Hn IH|es o sc Hn IH|es t fs Hn IH Hf|es ts fs Hn IH Hf]; intros s Hok H.
  - injection H as <-. split; [apply inv_new|]. split; [|intros t []]. intros t. reflexivity.
  - apply Forall_app in Hok as [Hok He]. inversion He as [|? ? Ho _]; subst. rewrite run_snoc in H. destruct (runEvents pid newLive es) as [s0| | |]; try discriminate. cbn [bind step] in H.
    destruct (IH s0 Hok eq_refl) as (I0 & B0 & K0). destruct (stop_spec _ _ _ _ I0 Ho H) as (A & C & O & _ & _ & K). split; [exact A|]. split.
    + intros u. unfold outstanding. rewrite frames_snoc. cbn [push filter inFrame]. specialize (B0 u). unfold outstanding in B0. destruct (Z.eq_dec u t) as [->|Hne].
      * rewrite Z.eqb_refl, zlen_cons. lia.
      * replace (u =? t) with false by lia. rewrite (proj1 (O u Hne)). exact B0.
    + intros u Hu. destruct (K u Hu) as [->|Hk].
      * exists (EStop t o). split; [apply in_app_iff; right; now left|reflexivity].
      * destruct (K0 u Hk) as (e & Hi & P). exists e. split; [apply in_app_iff; now left|exact P].
  - apply Forall_app in Hok as [Hok He]. inversion He as [|? ? Hev _]; subst. cbn [evOk] in Hev. destruct Hev as [Ho Hsc]. rewrite run_snoc in H. destruct (runEvents pid newLive es) as [s0| | |]; try discriminate. cbn [bind step] in H.
    destruct (IH s0 Hok eq_refl) as (I0 & B0 & K0). destruct (stopProcess_spec _ _ _ _ _ I0 Ho Hsc H) as (A & C & _ & K). split; [exact A|]. split.
    + intros u. unfold outstanding. rewrite frames_snoc. cbn [push filter inFrame]. specialize (B0 u). unfold outstanding in B0. rewrite C. change (existsb (Z.eqb u) (covered pid sc)) with (memb u (covered pid sc)).
      destruct (memb u (covered pid sc)); rewrite ?zlen_cons; lia.
    + intros u Hu. destruct (K u Hu) as [Hk|Hk].
      * destruct (K0 u Hk) as (e & Hi & P). exists e. split; [apply in_app_iff; now left|exact P].
      * exists (EStopProc o sc). split; [apply in_app_iff; right; now left|exact Hk].
  - apply Forall_app in Hok as [Hok _]. rewrite run_snoc in H. destruct (runEvents pid newLive es) as [s0| | |]; try discriminate. cbn [bind step] in H. injection H as <-.
    destruct (IH s0 Hok eq_refl) as (I0 & B0 & K0). destruct (resume_spec s0 t I0) as (A & C & O & _ & K). split; [exact A|]. split.
    + intros u. unfold outstanding. rewrite frames_snoc, Hf. cbn [push tl]. specialize (B0 u). unfold outstanding in B0. rewrite Hf in B0. cbn [filter inFrame] in B0.
      destruct (Z.eq_dec u t) as [->|Hne].
      * rewrite Z.eqb_refl, zlen_cons in B0. rewrite C. destruct (existsb (Z.eqb t) (keys s0)) eqn:E; [lia|]. rewrite cnt_absent; [apply zlen_nonneg|]. apply memb_nin. exact E.
      * replace (u =? t) with false in B0 by lia. unfold cnt. rewrite O by exact Hne. exact B0.
    + intros u Hu. destruct (K0 u (K u Hu)) as (e & Hi & P). exists e. split; [apply in_app_iff; now left|exact P].
  - apply Forall_app in Hok as [Hok _]. rewrite run_snoc in H. destruct (runEvents pid newLive es) as [s0| | |]; try discriminate. cbn [bind step] in H. injection H as <-.
    destruct (IH s0 Hok eq_refl) as (I0 & B0 & K0). destruct (resumeProcess_spec s0 I0) as (A & C & _ & K). split; [exact A|]. split.
    + intros u. unfold outstanding. rewrite frames_snoc, Hf. cbn [push tl]. specialize (B0 u). unfold outstanding in B0. rewrite Hf in B0. cbn [filter inFrame] in B0. rewrite C.
      destruct (memb u (keys s0)) eqn:M.
      * destruct (existsb (Z.eqb u) ts); rewrite ?zlen_cons in B0; lia.
      * rewrite cnt_absent by (now apply memb_nin). pose proof (zlen_nonneg (filter (inFrame u) fs)). lia.
    + intros u Hu. destruct (K0 u (K u Hu)) as (e & Hi & P). exists e. split; [apply in_app_iff; now left|exact P].
Qed.

Lemma run_exact pid t es s : nested pid es -> Forall evOk es -> Forall (goodFor pid t) es -> steady pid es t -> runEvents pid newLive es = Ok s ->
  cnt s t = outstanding pid es t /\ err s t = 0.
Proof.
  intros Hn. revert s. induction Hn as [|es u o Hn IH|es o sc Hn IH|es u fs Hn IH Hf|es ts fs Hn IH Hf]; intros s Hok Hg Hst H.
  - injection H as <-. now split.
  - apply Forall_app in Hok as [Hok He]. inversion He as [|? ? Ho _]; subst. apply Forall_app in Hg as [Hg Hge]. inversion Hge as [|? ? Go _]; subst.
    assert (Hst' : steady pid es t) by (intros e1 e2 ts fs E; apply (Hst e1 (e2 ++ [EStop u o])); rewrite E, <- app_assoc; reflexivity).
    rewrite run_snoc in H. destruct (runEvents pid newLive es) as [s0| | |] eqn:R; try discriminate. cbn [bind step] in H.
    destruct (IH s0 Hok Hg Hst' eq_refl) as (B0 & E0). destruct (run_safe _ _ _ Hn Hok R) as (I0 & _).
    destruct (stop_spec _ _ _ _ I0 Ho H) as (A & C & O & E & _). unfold outstanding in *. rewrite frames_snoc. cbn [push filter inFrame].
    destruct (Z.eq_dec t u) as [->|Hne].
    + rewrite Z.eqb_refl, zlen_cons. split; [lia|]. apply E; [now apply Go|exact E0].
    + replace (t =? u) with false by lia. destruct (O t Hne) as [-> ->]. now split.
  - apply Forall_app in Hok as [Hok He]. inversion He as [|? ? Hev _]; subst. cbn [evOk] in Hev. destruct Hev as [Ho Hsc]. apply Forall_app in Hg as [Hg Hge]. inversion Hge as [|? ? Hgv _]; subst. cbn [goodFor] in Hgv. destruct Hgv as [Go1 Go2].
    assert (Hst' : steady pid es t) by (intros e1 e2 ts fs E; apply (Hst e1 (e2 ++ [EStopProc o sc])); rewrite E, <- app_assoc; reflexivity).
    rewrite run_snoc in H. destruct (runEvents pid newLive es) as [s0| | |] eqn:R; try discriminate. cbn [bind step] in H.
    destruct (IH s0 Hok Hg Hst' eq_refl) as (B0 & E0). destruct (run_safe _ _ _ Hn Hok R) as (I0 & _).
    destruct (stopProcess_spec _ _ _ _ _ I0 Ho Hsc H) as (A & C & E & _). unfold outstanding in *. rewrite frames_snoc. cbn [push filter inFrame].
    split; [|now apply E]. rewrite C. change (existsb (Z.eqb t) (covered pid sc)) with (memb t (covered pid sc)). destruct (memb t (covered pid sc)); rewrite ?zlen_cons; lia.
  - apply Forall_app in Hok as [Hok _]. apply Forall_app in Hg as [Hg _].
    assert (Hst' : steady pid es t) by (intros e1 e2 ts fs' E; apply (Hst e1 (e2 ++ [EResume u])); rewrite E, <- app_assoc; reflexivity).
    rewrite run_snoc in H. destruct (runEvents pid newLive es) as [s0| | |] eqn:R; try discriminate. cbn [bind step] in H. injection H as <-.
    destruct (IH s0 Hok Hg Hst' eq_refl) as (B0 & E0). destruct (run_safe _ _ _ Hn Hok R) as (I0 & _).
    destruct (resume_spec s0 u I0) as (A & C & O & E & _). unfold outstanding in *. rewrite frames_snoc, Hf. cbn [push tl]. rewrite Hf in B0. cbn [filter inFrame] in B0.
    destruct (Z.eq_dec t u) as [->|Hne].
    + rewrite Z.eqb_refl, zlen_cons in B0. rewrite E. split; [|exact E0]. rewrite C. destruct (existsb (Z.eqb u) (keys s0)) eqn:M; [lia|].
      exfalso. rewrite cnt_absent in B0 by (now apply memb_nin). pose proof (zlen_nonneg (filter (inFrame u) fs)). lia.
    + replace (t =? u) with false in B0 by lia. unfold cnt, err in *. rewrite O by exact Hne. now split.
  - apply Forall_app in Hok as [Hok _]. apply Forall_app in Hg as [Hg _].
    assert (Hst' : steady pid es t) by (intros e1 e2 ts' fs' E; apply (Hst e1 (e2 ++ [EResumeProc])); rewrite E, <- app_assoc; reflexivity).
    rewrite run_snoc in H. destruct (runEvents pid newLive es) as [s0| | |] eqn:R; try discriminate. cbn [bind step] in H. injection H as <-.
    destruct (IH s0 Hok Hg Hst' eq_refl) as (B0 & E0). destruct (run_safe _ _ _ Hn Hok R) as (I0 & _ & K0).
    destruct (resumeProcess_spec s0 I0) as (A & C & E & _). unfold outstanding in *. rewrite frames_snoc, Hf. cbn [push tl]. rewrite Hf in B0. cbn [filter inFrame] in B0.
    split; [|now apply E]. rewrite C. change (existsb (Z.eqb t) ts) with (memb t ts) in B0. destruct (memb t (keys s0)) eqn:M.
    + assert (In t ts). { destruct (Hst es [] ts fs eq_refl Hf) as [Hi|Hno]; [exact Hi|]. exfalso. apply Hno, K0. now apply memb_in. }
      replace (memb t ts) with true in B0 by (symmetry; now apply memb_in). rewrite zlen_cons in B0. lia.
    + rewrite cnt_absent in * by (now apply memb_nin). pose proof (zlen_nonneg (filter (inFrame t) fs)). destruct (memb t ts); rewrite ?zlen_cons in B0; lia.
Qed.

(** ** Destruction *)
Lemma destroy_spec s : inv s -> inv (destroy s) /\ forall t, on (destroy s) t = false.
Proof.
  intros Hi. unfold destroy.
  set (dstep := fun (s : live) (e : Z * lwp) => match lfind (lwps s) (fst e) with
    | Some l => if stopCount l >? 0 then resume (mkLive (lset (lwps s) (fst e) (mkLwp 1 (ptraceErr l))) (trace s)) (fst e) else s
    | None => s end).
  assert (Hstep : forall s e, inv s -> inv (dstep s e) /\ on (dstep s e) (fst e) = false /\ forall u, u <> fst e -> lfind (lwps (dstep s e)) u = lfind (lwps s) u).
  { clear. intros s [t w] Hi. cbn [fst]. unfold dstep. cbn [fst]. destruct (lfind (lwps s) t) as [l|] eqn:F.
    2:{ split; [exact Hi|]. split; [|auto]. unfold on, cnt. now rewrite F. }
    destruct (stopCount l >? 0) eqn:G.
    2:{ split; [exact Hi|]. split; [|auto]. unfold on, cnt. rewrite F. lia. }
    set (s1 := mkLive (lset (lwps s) t (mkLwp 1 (ptraceErr l))) (trace s)). destruct Hi as [Hs Ha].
    assert (I1 : inv s1).
    { split; [unfold keys, s1; cbn [lwps]; now apply lset_sorted|]. intros u. change (history u s1) with (history u s). replace (on s1 u) with (on s u); [apply Ha|].
      unfold on, cnt, err, s1. cbn [lwps]. destruct (Z.eq_dec u t) as [->|Hne]; [|now rewrite lfind_set_other]. rewrite lfind_set_same, F. cbn [stopCount ptraceErr]. lia. }
    destruct (resume_spec s1 t I1) as (A & C & O & E & _). split; [exact A|]. split.
    - unfold on. rewrite C. replace (existsb (Z.eqb t) (keys s1)) with true.
      2:{ symmetry. apply memb_in. unfold keys, s1. cbn [lwps]. eapply lfind_in, lfind_set_same. }
      assert (cnt s1 t = 1) by (unfold cnt, s1; cbn [lwps]; now rewrite lfind_set_same). lia.
    - intros u Hne. rewrite O by exact Hne. unfold s1. cbn [lwps]. now apply lfind_set_other. }
  assert (G : forall l s0, inv s0 -> let s' := fold_left dstep l s0 in inv s' /\ (forall t, In t (map fst l) -> on s' t = false) /\ (forall t, ~ In t (map fst l) -> lfind (lwps s') t = lfind (lwps s0) t) /\
     (forall t, on s0 t = false -> on s' t = false)).
  { induction l as [|e l IH]; intros s0 I0; cbn [fold_left map In]; [repeat split; auto; try apply I0; tauto|].
    destruct (Hstep s0 e I0) as (I1 & N1 & O1). destruct (IH _ I1) as (A & B & C & D). split; [exact A|]. split; [|split].
    - intros t [<-|Ht]; [now apply D|now apply B].
    - intros t Hn. rewrite C by tauto. apply O1. intros ->. apply Hn. now left.
    - intros t H0. apply D. destruct (Z.eq_dec t (fst e)) as [->|Hne]; [exact N1|]. unfold on, cnt, err in *. now rewrite O1. }
  destruct (G (lwps s) s Hi) as (A & B & C & D). split; [exact A|]. intros t. destruct (in_dec Z.eq_dec t (map fst (lwps s))) as [Hin|Hn]; [now apply B|].
  unfold on, cnt. rewrite C by exact Hn. destruct (lfind (lwps s) t) eqn:F; [apply lfind_in in F; contradiction|reflexivity].
Qed.
