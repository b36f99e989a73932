(** Property C180: the memory entries own. *)
From Verif Require Import Base DwarfReader Die DieHeap.
From Coq Require Import Permutation.
Open Scope Z_scope.

(** ** Specification *)
(** the Blocks the values of an entry point to *)
Definition blocks (vs : list hval) : list Z := flat_map (fun v => match snd v with Some p => [p] | None => [] end) vs.
Definition owned (l : list hentry) : list Z := flat_map (fun e => blocks (heVals e)) l.

(** ** Proofs *)
Definition wfHeap (h : heap) : Prop := NoDup (hLive h) /\ Forall (fun p => p < hNext h) (hLive h).
(** values as the constructor leaves them: a Block exactly for the forms the destructor deletes one for *)
Definition shaped (attrs : list (Z * Z * Z)) (vs : list hval) : Prop :=
  Forall2 (fun a v => (deletesBlock (snd (fst a)) = true <-> snd v <> None)) attrs vs.
Lemma forms_agree form : newsBlock form = deletesBlock form.
Proof. unfold newsBlock, deletesBlock. lia. Qed.
Lemma newVal_ok data u h off form impl : wfHeap h ->
  let '(h', x) := newVal data u h off form impl in wfHeap h' /\ exists new, hLive h' = new ++ hLive h /\
  match x with Ok (v, _) => (deletesBlock form = true <-> snd v <> None) /\ new = match snd v with Some p => [p] | None => [] end | _ => True end.
Proof.
  intros [N F]. unfold newVal. rewrite forms_agree. destruct (deletesBlock form) eqn:D.
  - split; [split; cbn [hLive hNext]|].
    + constructor; [|exact N]. intros I. rewrite Forall_forall in F. specialize (F _ I). lia.
    + constructor; [lia|]. eapply Forall_impl; [|exact F]. cbv beta. lia.
    + exists [hNext h]. split; [reflexivity|]. destruct (readForm data u off form impl) as [[v o]| | |]; cbn [bind]; auto. cbn [snd]. split; [split; [discriminate|reflexivity]|reflexivity].
  - split; [split; assumption|]. exists []. split; [reflexivity|]. destruct (readForm data u off form impl) as [[v o]| | |]; cbn [bind]; auto. cbn [snd]. split; [split; [discriminate|congruence]|reflexivity].
Qed.
Lemma newVals_ok data u attrs : forall h off, wfHeap h ->
  let '(h', x) := newVals data u h attrs off in wfHeap h' /\ exists new, hLive h' = new ++ hLive h /\
  match x with Ok (vs, _) => shaped attrs vs /\ Permutation new (blocks vs) | _ => True end.
Proof.
  induction attrs as [|[[n form] impl] attrs IH]; intros h off W; cbn [newVals].
  - split; [exact W|]. exists []. split; [reflexivity|]. split; constructor.
  - pose proof (newVal_ok data u h off form impl W) as V. destruct (newVal data u h off form impl) as [h1 [[v o]| | |]]; destruct V as (W1 & new1 & E1 & X1); try (split; [exact W1|exists new1; auto]).
    specialize (IH h1 o W1). destruct (newVals data u h1 attrs o) as [h2 x]. destruct IH as (W2 & new2 & E2 & X2).
    split; [exact W2|]. exists (new2 ++ new1). split; [rewrite E2, E1; now rewrite app_assoc|]. destruct x as [[vs o']| | |]; cbn [bind]; auto.
    destruct X1 as [S1 ->]. destruct X2 as [S2 P2]. split; [constructor; [exact S1|exact S2]|]. cbn [blocks flat_map]. fold (blocks vs). rewrite P2. apply Permutation_app_comm.
Qed.
Lemma make_ok data u abbs h off : wfHeap h ->
  let '(h', x) := makeEntry data u abbs h off in wfHeap h' /\ exists new, hLive h' = new ++ hLive h /\
  match x with Ok (Some e) => shaped (heAttrs e) (heVals e) /\ Permutation new (blocks (heVals e)) | Ok None => new = [] | _ => True end.
Proof.
  intros W. unfold makeEntry. destruct (getuleb data off) as [[code o1]| | |]; try (split; [exact W|exists []; auto]).
  destruct (code =? 0); [split; [exact W|exists []; auto]|]. destruct (findAbbrev abbs code) as [a|]; [|split; [exact W|exists []; auto]].
  pose proof (newVals_ok data u (abAttrs a) h o1 W) as V. destruct (newVals data u h (abAttrs a) o1) as [h' x]. destruct V as (W' & new & E & X).
  split; [exact W'|]. exists new. split; [exact E|]. destruct x as [[vs o']| | |]; cbn [bind]; auto.
  destruct (sibIdx 0 (abAttrs a)) as [i|]; [destruct (nth_error vs i) as [[[w| |] q]|]; auto|exact X].
Qed.
Lemma filter_gone p l : NoDup (p :: l) -> filter (fun x => negb (x =? p)) (p :: l) = l.
Proof.
  intros N. inversion N as [|? ? I N']; subst. cbn [filter]. rewrite Z.eqb_refl. cbn [negb]. clear N N'.
  induction l as [|y l IH]; [reflexivity|]. cbn [filter]. destruct (y =? p) eqn:E; [exfalso; apply I; left; lia|]. cbn [negb]. f_equal. apply IH. intros H. apply I. now right.
Qed.
Lemma perm_filter {A} (f : A -> bool) l l' : Permutation l l' -> Permutation (filter f l) (filter f l').
Proof.
  intros P. induction P; cbn [filter]; [constructor|destruct (f x); [now constructor|exact IHP]| |etransitivity; eauto].
  destruct (f x), (f y); try reflexivity. apply perm_swap.
Qed.
Lemma delete_ok h p rest : wfHeap h -> Permutation (hLive h) (p :: rest) ->
  exists h', deleteBlock h p = Ok h' /\ wfHeap h' /\ Permutation (hLive h') rest.
Proof.
  intros [N F] P. unfold deleteBlock. assert (I : In p (hLive h)) by (eapply Permutation_in; [symmetry; exact P|now left]).
  replace (existsb (Z.eqb p) (hLive h)) with true by (symmetry; apply existsb_exists; exists p; split; [exact I|apply Z.eqb_refl]).
  eexists. split; [reflexivity|]. split.
  - split; cbn [hLive hNext]; [now apply NoDup_filter|]. apply Forall_forall. intros x Hx. apply filter_In in Hx as [Hx _]. rewrite Forall_forall in F. auto.
  - cbn [hLive]. rewrite (perm_filter _ _ _ P). rewrite filter_gone; [reflexivity|]. eapply Permutation_NoDup; eauto.
Qed.
Lemma drop_ok attrs vs : shaped attrs vs -> forall h rest, wfHeap h -> Permutation (hLive h) (blocks vs ++ rest) ->
  exists h', dropVals h attrs vs = Ok h' /\ wfHeap h' /\ Permutation (hLive h') rest.
Proof.
  intros S. induction S as [|[[n form] impl] [v q] attrs vs H S IH]; intros h rest W P; cbn [dropVals]; [exists h; auto|].
  cbn [fst snd] in H. cbn [blocks flat_map snd] in P. fold (blocks vs) in P. destruct (deletesBlock form).
  - destruct q as [p|]; [|exfalso; now apply H]. cbn [app] in P. destruct (delete_ok h p _ W P) as (h1 & -> & W1 & P1). cbn [bind]. now apply IH.
  - destruct q as [p|]; [exfalso; assert (X : false = true) by (apply H; discriminate); discriminate|]. cbn [tl]. now apply IH.
Qed.
(** the state between steps: [leaked] are Blocks no entry owns *)
Definition okState (s : heap * list hentry) (leaked : list Z) : Prop :=
  wfHeap (fst s) /\ Forall (fun e => shaped (heAttrs e) (heVals e)) (snd s) /\ Permutation (hLive (fst s)) (owned (snd s) ++ leaked).
Lemma owned_remove live : forall k e, nth_error live k = Some e -> Permutation (owned live) (blocks (heVals e) ++ owned (removeNth k live)).
Proof.
  induction live as [|x live IH]; intros [|k] e E; cbn [nth_error] in E; try discriminate E; unfold owned; cbn [flat_map removeNth].
  - injection E as ->. reflexivity.
  - specialize (IH k e E). unfold owned in IH. rewrite IH. rewrite !app_assoc. apply Permutation_app_tail. apply Permutation_app_comm.
Qed.
Lemma Forall_remove {A} (P : A -> Prop) l : forall k, Forall P l -> Forall P (removeNth k l).
Proof. induction l as [|x l IH]; intros [|k] F; cbn [removeNth]; auto; inversion F; subst; auto. Qed.
(** [clean]: the decoding neither throws nor is undefined *)
Definition cleanOp (data : list Z) (s : heap * list hentry) (o : hop) : Prop :=
  match o with Make u abbs off => exists x, snd (makeEntry data u abbs (fst s) off) = Ok x | Drop _ => True end.
Lemma hstep_ok data s o leaked : okState s leaked -> exists s' leaked', hstep data s o = Ok s' /\ okState s' leaked' /\ (cleanOp data s o -> leaked' = leaked).
Proof.
  destruct s as [h live]. intros (W & F & P). cbn [fst snd] in *. destruct o as [u abbs off|k]; cbn [hstep cleanOp fst].
  - pose proof (make_ok data u abbs h off W) as M. destruct (makeEntry data u abbs h off) as [h' x]. destruct M as (W' & new & E & X). cbn [snd].
    assert (P' : Permutation (hLive h') (owned live ++ new ++ leaked)).
    { rewrite E, P. rewrite !app_assoc. apply Permutation_app_tail. apply Permutation_app_comm. }
    destruct x as [[e|]| | |].
    + destruct X as [S N]. exists (h', e :: live), leaked. split; [reflexivity|]. split; [split; [exact W'|split; [constructor; assumption|]]|reflexivity].
      cbn [fst snd owned flat_map]. fold (owned live). rewrite P', N. rewrite !app_assoc. apply Permutation_app_tail. apply Permutation_app_comm.
    + subst new. exists (h', live), leaked. split; [reflexivity|]. split; [split; [exact W'|split; [exact F|exact P']]|reflexivity].
    + exists (h', live), (new ++ leaked). split; [reflexivity|]. split; [split; [exact W'|split; [exact F|exact P']]|intros [x X']; discriminate].
    + exists (h', live), (new ++ leaked). split; [reflexivity|]. split; [split; [exact W'|split; [exact F|exact P']]|intros [x X']; discriminate].
    + exists (h', live), (new ++ leaked). split; [reflexivity|]. split; [split; [exact W'|split; [exact F|exact P']]|intros [x X']; discriminate].
  - destruct (nth_error live k) as [e|] eqn:E; [|exists (h, live), leaked; split; [reflexivity|split; [split; [exact W|split; [exact F|exact P]]|reflexivity]]].
    assert (S : shaped (heAttrs e) (heVals e)) by (rewrite Forall_forall in F; apply F; eapply nth_error_In; eauto).
    pose proof (owned_remove live k e E) as O. rewrite O, <- app_assoc in P.
    destruct (drop_ok _ _ S h _ W P) as (h' & D & W' & P'). unfold dropEntry. rewrite D. cbn [bind]. exists (h', removeNth k live), leaked. split; [reflexivity|]. split; [|reflexivity].
    split; [exact W'|]. split; [now apply Forall_remove|exact P'].
Qed.

Lemma nodup_left {A} (l r : list A) : NoDup (l ++ r) -> NoDup l.
Proof. induction l as [|x l IH]; [constructor|]. cbn [app]. intros N. inversion N as [|? ? I N']; subst. constructor; [intros J; apply I; apply in_or_app; now left|auto]. Qed.

(** ** C180 *)
(** In any history of decoding entries - some of which may fail - and destroying them, no destructor deletes anything but a Block that exists and was
    not deleted before, and the Blocks of the entries that remain all exist and are distinct. *)
Theorem C180_no_double_free : forall data l, exists h live, hrun data (heap0, []) l = Ok (h, live) /\ NoDup (owned live) /\ incl (owned live) (hLive h).
Proof.
  intros data l. assert (G : forall s leaked, okState s leaked -> exists h live leaked', hrun data s l = Ok (h, live) /\ okState (h, live) leaked').
  { induction l as [|o l IH]; intros s leaked O; cbn [hrun]; [destruct s as [h live]; eauto|]. destruct (hstep_ok data s o leaked O) as (s' & leaked' & -> & O' & _). cbn [bind]. eapply IH; eauto. }
  destruct (G (heap0, []) []) as (h & live & leaked & R & [W F] & _ & P); [split; [split; constructor|split; [constructor|reflexivity]]|].
  exists h, live. split; [exact R|]. cbn [fst snd] in *. pose proof (Permutation_NoDup P W) as N. split; [now apply nodup_left in N|].
  intros x Hx. eapply Permutation_in; [symmetry; exact P|]. apply in_or_app. now left.
Qed.
Print Assumptions C180_no_double_free.
(** a history in which every decoding succeeds *)
Inductive clean (data : list Z) : heap * list hentry -> list hop -> Prop :=
| CleanNil s : clean data s []
| CleanMake s u abbs off l x s' : snd (makeEntry data u abbs (fst s) off) = Ok x -> hstep data s (Make u abbs off) = Ok s' -> clean data s' l -> clean data s (Make u abbs off :: l)
| CleanDrop s k l s' : hstep data s (Drop k) = Ok s' -> clean data s' l -> clean data s (Drop k :: l).
(** Then the Blocks that exist are those of the entries that remain: none once all are destroyed.
    Partial: histories without an exception; see the refutation. *)
Theorem C180_no_leak_partial : forall data l, clean data (heap0, []) l ->
  exists h live, hrun data (heap0, []) l = Ok (h, live) /\ Permutation (hLive h) (owned live) /\ (live = [] -> hLive h = []).
Proof.
  intros data l C. assert (O : okState (heap0, []) []) by (split; [split; constructor|split; [constructor|reflexivity]]). revert O. generalize (heap0, @nil hentry) C. clear C.
  intros s C. induction C as [s|s u abbs off l x s' Hx Hs C IH|s k l s' Hs C IH]; intros O; cbn [hrun].
  - destruct s as [h live]. exists h, live. destruct O as (_ & _ & P). cbn [fst snd] in P. rewrite app_nil_r in P. split; [reflexivity|]. split; [exact P|]. intros ->. apply Permutation_nil. now symmetry.
  - destruct (hstep_ok data s (Make u abbs off) [] O) as (s2 & lk & E & O' & Cl). rewrite Hs in E. injection E as <-. rewrite Hs. cbn [bind]. apply IH. rewrite Cl in O' by (cbn [cleanOp]; eauto). exact O'.
  - destruct (hstep_ok data s (Drop k) [] O) as (s2 & lk & E & O' & Cl). rewrite Hs in E. injection E as <-. rewrite Hs. cbn [bind]. apply IH. rewrite Cl in O' by exact I. exact O'.
Qed.
Print Assumptions C180_no_leak_partial.
(** The values are those of Die.v: what is decoded does not depend on the heap. *)
Theorem C180_same_values : forall data u attrs h off,
  (let* (vs, o) := snd (newVals data u h attrs off) in Ok (map fst vs, o)) = readVals data u attrs off.
Proof.
  intros data u attrs. induction attrs as [|[[n form] impl] attrs IH]; intros h off; [reflexivity|]. cbn [newVals readVals]. unfold newVal.
  destruct (newsBlock form); destruct (readForm data u off form impl) as [[v o]| | |]; cbn [bind]; try reflexivity;
  match goal with |- context [newVals data u ?h1 attrs o] => specialize (IH h1 o); destruct (newVals data u h1 attrs o) as [h2 [[vs o']| | |]] end; cbn [snd bind] in *; rewrite <- IH; reflexivity.
Qed.
Print Assumptions C180_same_values.

(** An abbreviation with a flag, two blocks and a number; and one whose second attribute has an unknown form. *)
Definition C180_unit : dunit := mkUnit 4 4 8 0 100 11.
Definition C180_abbs : list (Z * abbrev) :=
  [(1, mkAbbrev 0x34 false [(0x3f, 0x0c, 0); (0x02, 0x18, 0); (0x1c, 0x0a, 0); (0x3b, 0x0b, 0)]); (2, mkAbbrev 0x34 false [(0x02, 0x18, 0); (0x03, 0x99, 0)])].
Definition C180_data : list Z := [1; 1; 2; 0x91; 0x70; 3; 7; 8; 9; 42; 1; 0; 0; 0; 43; 0; 2; 1; 0x9c; 5].
Definition C180_mk (o : Z) : hop := Make C180_unit C180_abbs o.
Example C180_nonvacuous :
  clean C180_data (heap0, []) [C180_mk 0; C180_mk 10; C180_mk 15; Drop 1; C180_mk 0; Drop 0; Drop 0] /\
  (let* (h, live) := hrun C180_data (heap0, []) [C180_mk 0; C180_mk 10; C180_mk 15; Drop 1; C180_mk 0] in Ok (hLive h, map (fun e => map snd (heVals e)) live)) =
    Ok ([5; 4; 3; 2], [[None; Some 4; Some 5; None]; [None; Some 2; Some 3; None]]) /\
  (let* (h, live) := hrun C180_data (heap0, []) [C180_mk 0; C180_mk 10; C180_mk 15; Drop 1; C180_mk 0; Drop 0; Drop 0] in Ok (hLive h)) = Ok [].
Proof.
  split; [|split; vm_compute; reflexivity].
  repeat first [eapply CleanMake; [vm_compute; reflexivity|vm_compute; reflexivity|]|eapply CleanDrop; [vm_compute; reflexivity|]]. constructor.
Qed.
(** Refuted: when decoding an entry throws (here an attribute of a form the code does not know), the Blocks made for it before are never deleted:
    there is no entry to destroy. *)
Theorem C180_exception_refuted : exists data o, snd (makeEntry data C180_unit C180_abbs heap0 o) = Throw /\
  hrun data (heap0, []) [Make C180_unit C180_abbs o] = Ok (mkHeap 1 [0], []).
Proof. exists C180_data, 16. split; vm_compute; reflexivity. Qed.
Print Assumptions C180_exception_refuted.
