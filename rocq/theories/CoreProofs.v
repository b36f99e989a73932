From Coq Require Import Sorting.Sorted.
From Verif Require Import Base Reader ReaderSpec DwarfReader CfiSpec CfiProofs ElfHash ElfHashProofs Bound ElfObj ElfObjProofs Core CoreSpec.

(** ** Segment lookup on well-formed loads *)
Lemma loads_seg hs a : loadsOk hs -> 0 <= a < 2 ^ 64 ->
  match snd (getSegment hs None a) with Some h => In h hs /\ covers h a | None => forall h, In h hs -> ~ covers h a end.
Proof.
  intros [Hf Hs] Ha.
  assert (Hok : Forall segOk hs) by (eapply Forall_impl; [|exact Hf]; intros h (H & _); exact H).
  assert (Hpair : forall x y, In x hs -> In y hs -> x = y \/ segDisjoint x y).
  { clear -Hs. induction Hs as [|h l Hl IH Hh]; intros x y Hx Hy; [destruct Hx|].
    rewrite Forall_forall in Hh. destruct Hx as [->|Hx], Hy as [->|Hy].
    - now left.
    - right. left. now apply Hh.
    - right. right. now apply Hh.
    - now apply IH. }
  apply (getSegment_spec hs Hok); auto; try (intros x; discriminate).
  - clear -Hs Hok. induction Hs as [|h l Hl IH Hh]; constructor.
    + apply IH. now inversion Hok.
    + inversion Hok as [|? ? (? & ? & ?)]; subst. eapply Forall_impl; [|exact Hh]. cbn. intros; lia.
  - clear -Hs Hok. induction Hs as [|h l Hl IH Hh]; constructor.
    + rewrite Forall_forall in Hh. intros Hi. specialize (Hh h Hi). inversion Hok as [|? ? (? & ? & ?)]; subst. lia.
    + apply IH. now inversion Hok.
Qed.
Lemma segFor_spec o a : loadsOk (imLoads o) -> 0 <= a < 2 ^ 64 ->
  match segFor o a with Some h => In h (imLoads o) /\ covers h a | None => forall h, In h (imLoads o) -> ~ covers h a end.
Proof. intros H Ha. unfold segFor. now apply loads_seg. Qed.
Lemma loads_unique hs a x y : loadsOk hs -> In x hs -> In y hs -> covers x a -> covers y a -> x = y.
Proof.
  intros [Hf Hs]. induction Hs as [|h l Hl IH Hh]; intros Hx Hy Cx Cy; [destruct Hx|].
  rewrite Forall_forall in Hh. unfold covers in *. destruct Hx as [->|Hx], Hy as [->|Hy]; auto.
  - specialize (Hh y Hy). lia.
  - specialize (Hh x Hx). lia.
  - apply IH; auto. now inversion Hf.
Qed.
Lemma imageEnd_ge o h : In h (imLoads o) -> p_vaddr h + p_memsz h <= imageEnd o.
Proof. unfold imageEnd. induction (imLoads o) as [|x l IH]; intros Hi; [destruct Hi|]. cbn [fold_right]. destruct Hi as [->|Hi]; [lia|]. specialize (IH Hi). lia. Qed.
Lemma endVA_spec o : loadsOk (imLoads o) -> imLoads o <> [] -> imageEnd o <= 2 ^ 64 -> endVA o = Ok (u64 (imageEnd o)).
Proof.
  intros [Hf Hs] Hne He. unfold endVA, imageEnd in *. destruct (imLoads o) as [|h r]; [easy|]. clear Hne. do 2 f_equal.
  clear He. revert h Hf Hs. induction r as [|y r IH]; intros h Hf Hs.
  - cbn. inversion Hf as [|? ? [(? & ? & ?) _]]; subst. lia.
  - inversion Hf as [|? ? [(Ha & Hb & Hc) _] Hf']; subst. inversion Hs as [|? ? Hs' Hh]; subst. specialize (IH y Hf' Hs').
    replace (last (y :: r) h) with (last r y). 2:{ clear. revert y. induction r as [|z r IH]; intros y; [reflexivity|]. change (last (z :: r) y = last (z :: r) h). destruct r; [reflexivity|]. change (last (p :: r) y = last (p :: r) h). clear. revert p. induction r as [|q r IH]; intros p; [reflexivity|]. exact (IH q). }
    inversion Hf' as [|? ? [(Ha' & Hb' & Hc') _] _]; subst. rewrite IH. cbn [fold_right]. inversion Hh; subst. lia.
Qed.

(** ** findSegment *)
Lemma lastBelow_spec objs a : forall best, StronglySorted before objs ->
  match lastBelow objs a best with
  | Some (k, o) => (In (k, o) objs /\ k < a /\ forall k' o', In (k', o') objs -> k' < a -> k' = k /\ o' = o \/ before (k', o') (k, o)) \/
                   (best = Some (k, o) /\ forall k' o', In (k', o') objs -> a <= k')
  | None => best = None /\ forall k' o', In (k', o') objs -> a <= k'
  end.
Proof.
  induction objs as [|[k1 o1] r IH]; intros best Hs; cbn [lastBelow].
  - destruct best as [[k o]|]; [right|]; (split; [reflexivity|]; intros ? ? []).
  - inversion Hs as [|? ? Hs' Hh]; subst. rewrite Forall_forall in Hh. destruct (k1 <? a) eqn:E.
    + specialize (IH (Some (k1, o1)) Hs'). destruct (lastBelow r a (Some (k1, o1))) as [[k o]|].
      2:{ destruct IH as [IH _]. discriminate. }
      left. destruct IH as [(Hi & Hk & Hall)|(Hb & Hall)].
      * split; [now right|]. split; [exact Hk|]. intros k' o' [Heq|Hi'] Hlt; [|now apply Hall].
        injection Heq as <- <-. right. now apply Hh.
      * injection Hb as <- <-. split; [now left|]. split; [lia|]. intros k' o' [Heq|Hi'] Hlt.
        -- injection Heq as <- <-. now left.
        -- specialize (Hall k' o' Hi'). lia.
    + assert (Hge : forall k' o', In (k', o') ((k1, o1) :: r) -> a <= k').
      { intros k' o' [Heq|Hi]; [injection Heq as <- <-; lia|]. specialize (Hh _ Hi). destruct Hh as [Hl _]. cbn [fst] in Hl. lia. }
      destruct best as [[k o]|]; [right|]; (split; [reflexivity|exact Hge]).
Qed.
Lemma findSegment_spec objs a : objsOk objs -> 0 <= a < 2 ^ 64 ->
  match findSegment objs a with
  | Ok (Some (k, o, h)) => In (k, Some o) objs /\ In h (imLoads o) /\ maps k h a /\ k < a
  | Ok None => forall k o h, In (k, Some o) objs -> In h (imLoads o) -> maps k h a -> k = a
  | _ => False
  end.
Proof.
  intros [Hf Hs] Ha. rewrite Forall_forall in Hf. unfold findSegment. pose proof (lastBelow_spec objs a None Hs) as L.
  assert (Hkey : forall k o h, In (k, Some o) objs -> In h (imLoads o) -> maps k h a -> k <= a).
  { intros k o h Hi Hh [M1 M2]. specialize (Hf _ Hi). destruct Hf as [_ Hf]. destruct (Hf o eq_refl) as ([Hl _] & _). rewrite Forall_forall in Hl.
    specialize (Hl h Hh). destruct Hl as [(H1 & _) _]. lia. }
  destruct (lastBelow objs a None) as [[k [o|]]|].
  - destruct L as [(Hi & Hk & Hall)|(Hb & _)]; [|discriminate]. pose proof (Hf _ Hi) as [H0 H1]. cbn [fst snd] in *. destruct (H1 o eq_refl) as (Hl & Hne & He).
    assert (Hie : 0 < imageEnd o). { destruct (imLoads o) as [|h r] eqn:El; [easy|]. pose proof (imageEnd_ge o h). rewrite El in H. specialize (H (or_introl eq_refl)). destruct Hl as [Hl _]. inversion Hl as [|? ? [(? & ? & ?) _]]; subst. lia. }
    rewrite (endVA_spec o Hl Hne) by lia. cbn [bind]. change (2 ^ 64) with W64 in *.
    assert (Hother : forall k' o' h', In (k', Some o') objs -> In h' (imLoads o') -> maps k' h' a -> k' = a \/ k' = k /\ o' = o).
    { intros k' o' h' Hi' Hh' M. pose proof (Hkey _ _ _ Hi' Hh' M) as Hle. destruct (Z.eq_dec k' a) as [|Hn]; [now left|]. right.
      destruct (Hall k' (Some o') Hi' ltac:(lia)) as [[-> E]|[B1 B2]]; [split; congruence|]. cbn [fst snd] in *. specialize (B2 o' eq_refl).
      pose proof (imageEnd_ge o' h' Hh'). unfold maps, covers in M. lia. }
    rewrite (u64_id (a - k)) by (unfold isU64; lia).
    pose proof (segFor_spec o (a - k) Hl ltac:(change (2^64) with W64; lia)) as S.
    destruct (u64 (k + u64 (imageEnd o)) >=? a) eqn:Eg.
    + destruct (segFor o (a - k)) as [h|].
      * destruct S as [Sh Sc]. repeat split; auto; apply Sc.
      * intros k' o' h' Hi' Hh' M. destruct (Hother _ _ _ Hi' Hh' M) as [|[-> ->]]; [assumption|]. destruct (S h' Hh'). exact M.
    + intros k' o' h' Hi' Hh' M. destruct (Hother _ _ _ Hi' Hh' M) as [|[-> ->]]; [assumption|]. exfalso.
      pose proof (imageEnd_ge o h' Hh'). unfold maps, covers in M.
      assert (imageEnd o < W64) by lia. rewrite (u64_id (imageEnd o)) in Eg by (unfold isU64; lia).
      rewrite u64_id in Eg by (unfold isU64; lia). lia.
  - destruct L as [(Hi & Hk & Hall)|(Hb & _)]; [|discriminate]. intros k' o' h' Hi' Hh' M. pose proof (Hkey _ _ _ Hi' Hh' M) as Hle.
    destruct (Z.eq_dec k' a) as [|Hn]; [assumption|]. destruct (Hall k' (Some o') Hi' ltac:(lia)) as [[_ E]|[B1 B2]]; [congruence|].
    cbn [fst snd] in *. specialize (B2 o' eq_refl). pose proof (imageEnd_ge o' h' Hh'). unfold maps, covers in M. lia.
  - destruct L as [_ Hall]. intros k' o' h' Hi' Hh' M. pose proof (Hkey _ _ _ Hi' Hh' M). specialize (Hall _ _ Hi'). lia.
Qed.

(** ** Reading from one segment *)
Definition run (P : Z -> Z -> Prop) (a : Z) (bs : list Z) : Prop := forall i b, znth i bs = Some b -> P (a + i) b.
Lemma run_nil P a : run P a [].
Proof. intros i b H. discriminate. Qed.
Lemma run_app P a xs ys : run P a xs -> run P (a + zlen xs) ys -> run P a (xs ++ ys).
Proof.
  intros H1 H2 i b Hi. pose proof (znth_some _ _ _ Hi) as R. rewrite zlen_app in R. destruct (Z_lt_dec i (zlen xs)) as [L|L].
  - rewrite znth_app_l in Hi by lia. now apply H1.
  - rewrite znth_app_r in Hi by lia. specialize (H2 _ _ Hi). now replace (a + zlen xs + (i - zlen xs)) with (a + i) in H2 by lia.
Qed.
Lemma zeros_len n : 0 <= n -> zlen (zeros n) = n.
Proof. intros H. unfold zeros, zlen. rewrite repeat_length. lia. Qed.
Lemma zeros_nth i n b : znth i (zeros n) = Some b -> b = 0.
Proof. intros H. pose proof (znth_some _ _ _ H) as R. rewrite znth_nth_error in H by lia. apply nth_error_In in H. now apply repeat_spec in H. Qed.
Lemma run_zeros (P : Z -> Z -> Prop) a n : 0 <= n -> (forall x, a <= x < a + n -> P x 0) -> run P a (zeros n).
Proof. intros Hn H i b Hi. pose proof (znth_some _ _ _ Hi) as R. rewrite zeros_len in R by lia. rewrite (zeros_nth _ _ _ Hi). apply H. lia. Qed.

Lemma znth_zdrop' {A} n i (l : list A) : 0 <= n -> 0 <= i -> znth i (zdrop n l) = znth (n + i) l.
Proof.
  intros Hn Hi. rewrite !znth_nth_error, zdrop_skipn by lia. replace (Z.to_nat (n + i)) with (Z.to_nat n + Z.to_nat i)%nat by lia.
  generalize (Z.to_nat n) (Z.to_nat i). clear. intros n i. revert l. induction n as [|n IH]; intros l; [reflexivity|]. destruct l; [now destruct i|]. apply IH.
Qed.
Lemma znth_ztake' {A} n i (l : list A) b : znth i (ztake n l) = Some b -> znth i l = Some b.
Proof.
  revert n i. induction l as [|x r IH]; intros n i H; [discriminate|]. cbn [ztake] in H. destruct (n <=? 0); [discriminate|].
  cbn [znth] in *. destruct (i =? 0); [exact H|]. destruct (i <? 0); [discriminate|]. eapply IH, H.
Qed.
Lemma readFromHdr_spec o h k x size z0 : loadOk h -> maps k h x -> 0 < size -> 0 <= k -> x + size <= 2 ^ 64 -> 0 <= z0 <= size ->
  match readFromHdr o h (u64 (x - k)) size z0 with
  | Ok (d, z) => zlen d = Z.min (Z.max 0 (p_filesz h - (x - k - p_vaddr h))) size /\
                 run (fileByte k o h) x d /\
                 z = Z.max (Z.max 0 (z0 - zlen d)) (Z.min (size - zlen d) (p_memsz h - (x - k - p_vaddr h) - zlen d))
  | Throw => zlen (imFile o) < p_offset h + p_filesz h
  | _ => False
  end.
Proof.
  intros ((H1 & H2 & H3) & [F1 F2] & O1 & O2) [M1 M2] Hsz Hk Htop Hz. unfold readFromHdr. change (2 ^ 64) with W64 in *. change (2 ^ 63) with (W64 / 2) in O2.
  rewrite (u64_id (x - k)) by (unfold isU64; lia). rewrite u64_id by (unfold isU64; lia). set (off := x - k - p_vaddr h) in *.
  assert (Hoff : 0 <= off < p_memsz h) by (subst off; lia).
  destruct (off <? p_filesz h) eqn:Eo; cbn [bind].
  - cbn [rread]. assert (W64 / 2 < W64) by reflexivity. rewrite u64_id by (unfold isU64; lia). replace (_ >=? W64 / 2) with false by lia. cbn [bind].
    set (d := ztake _ _). assert (Hd : zlen d = Z.min (Z.min (p_filesz h - off) size) (Z.max 0 (zlen (imFile o) - (p_offset h + off)))).
    { subst d. rewrite zlen_ztake by lia. rewrite zlen_zdrop by lia. reflexivity. }
    pose proof (zlen_nonneg d). destruct (zlen d =? Z.min (p_filesz h - off) size) eqn:Ed; cbn [negb bind]; [|lia].
    rewrite u64_id by (unfold isU64; lia). split; [lia|]. split.
    + intros i b Hi. pose proof (znth_some _ _ _ Hi) as R. split; [unfold inFile; lia|].
      subst d. apply znth_ztake' in Hi. rewrite znth_zdrop' in Hi by lia. rewrite <- Hi. f_equal. lia.
    + destruct (z0 >? zlen d) eqn:?, (negb (size - zlen d =? 0) && (off + zlen d <? p_memsz h)) eqn:?; lia.
  - change (zlen (@nil Z)) with 0. split; [lia|]. split; [apply run_nil|].
    destruct (z0 >? 0) eqn:?, (negb (size =? 0) && (off <? p_memsz h)) eqn:?; lia.
Qed.

(** ** Reading across segments *)
Section Read.
Context (core : option image) (objs : objmap).
Context (Hcore : forall c, core = Some c -> loadsOk (imLoads c)) (Hobjs : objsOk objs).

Lemma loadsOk_in hs h : loadsOk hs -> In h hs -> loadOk h.
Proof using. clear. intros [H _] Hi. rewrite Forall_forall in H. now apply H. Qed.
Lemma inFile_maps k h x : loadOk h -> inFile k h x -> maps k h x.
Proof using. clear. intros (_ & [_ H] & _) [A B]. split; lia. Qed.
Lemma core_unique c g g' x : core = Some c -> In g (imLoads c) -> In g' (imLoads c) -> maps 0 g x -> maps 0 g' x -> g = g'.
Proof using Hcore. intros E H1 H2 M1 M2. eapply loads_unique; eauto. Qed.
Lemma objs_in k o : In (k, Some o) objs -> 0 <= k /\ loadsOk (imLoads o) /\ k + imageEnd o < 2 ^ 64.
Proof using Hobjs. clear Hcore. intros Hi. destruct Hobjs as [Hf _]. rewrite Forall_forall in Hf. destruct (Hf _ Hi) as [A B]. destruct (B o eq_refl) as (? & ? & ?). auto. Qed.
Lemma sorted_in_before : forall l (x y : Z * option image), StronglySorted before l -> In x l -> In y l -> x = y \/ before x y \/ before y x.
Proof using.
  clear. intros l x y Hs. induction Hs as [|h l Hl IH Hh]; intros Hx Hy; [destruct Hx|]. rewrite Forall_forall in Hh.
  destruct Hx as [->|Hx], Hy as [->|Hy]; auto.
Qed.
Lemma objs_unique k o h k' o' h' x : In (k, Some o) objs -> In (k', Some o') objs -> In h (imLoads o) -> In h' (imLoads o') ->
  maps k h x -> maps k' h' x -> k = k' /\ o = o' /\ h = h'.
Proof using Hobjs.
  clear Hcore. intros Hi Hi' Hh Hh' M M'. destruct (objs_in _ _ Hi) as (K & L & _). destruct (objs_in _ _ Hi') as (K' & L' & _).
  pose proof (loadsOk_in _ _ L Hh) as [(V & _) _]. pose proof (loadsOk_in _ _ L' Hh') as [(V' & _) _].
  pose proof (imageEnd_ge _ _ Hh). pose proof (imageEnd_ge _ _ Hh'). unfold maps, covers in *.
  destruct (sorted_in_before objs _ _ (proj2 Hobjs) Hi Hi') as [E|[[B1 B2]|[B1 B2]]]; cbn [fst snd] in *.
  - injection E as <- <-. split; [reflexivity|]. split; [reflexivity|]. eapply loads_unique; eauto.
  - specialize (B2 o eq_refl). lia.
  - specialize (B2 o' eq_refl). lia.
Qed.

Section Round.
Context (P : Z -> Z -> Prop).
Context (S1 : forall x b, dumpedByte core x b -> P x b)
  (S2 : forall k o h y x b, In (k, Some o) objs -> In h (imLoads o) -> maps k h y -> ~ dumped core y -> y <= x -> fileByte k o h x b -> P x b)
  (S3 : forall k o h y x, In (k, Some o) objs -> In h (imLoads o) -> maps k h y -> ~ dumped core y -> y <= x -> maps k h x -> ~ inFile k h x -> P x 0)
  (S4 : forall c g y x, core = Some c -> In g (imLoads c) -> maps 0 g y -> ~ inFile 0 g y -> y <= x -> maps 0 g x ->
     (forall k o h, In (k, Some o) objs -> In h (imLoads o) -> maps k h y -> k = y \/ ~ inFile k h x) -> P x 0).
Definition truncated : Prop := (exists c, core = Some c /\ ~ complete c) \/ exists k o, In (k, Some o) objs /\ ~ complete o.

(** the part of a round after the core has been consulted *)
Lemma round_tail a y size z d1 : 0 <= a -> y = a + zlen d1 -> 0 < size -> y + size <= 2 ^ 64 ->
  run P a d1 -> ~ dumped core y ->
  (z = 0 /\ ~ inCore core y /\ d1 = [] \/ exists c g, core = Some c /\ In g (imLoads c) /\ maps 0 g y /\ ~ inFile 0 g y /\ z = Z.min size (p_memsz g - (y - p_vaddr g)) /\ 0 < z) ->
  match (let* fs := findSegment objs y in
    match fs with
    | Some (k, o, h) =>
        let* (d2, z2) := readFromHdr o h (u64 (y - k)) size z in
        Ok (d1 ++ d2 ++ zeros z2, true)
    | None => Ok (d1 ++ zeros z, negb (z =? 0))
    end) with
  | Ok (bs, more) => run P a bs /\ zlen bs <= zlen d1 + size /\ (more = true -> 0 < zlen bs) /\
       (more = false -> bs = [] /\ ~ inCore core a /\ forall k o h, In (k, Some o) objs -> In h (imLoads o) -> maps k h a -> k = a)
  | Throw => truncated
  | _ => False
  end.
Proof using Hcore Hobjs S1 S2 S3 S4.
  intros Ha Hy Hs Htop Hr Hnd Hz. pose proof (zlen_nonneg d1) as Hd1.
  pose proof (findSegment_spec objs y Hobjs ltac:(lia)) as F. destruct (findSegment objs y) as [[[[k o] h]|]| | |]; try contradiction; cbn [bind].
  - destruct F as (Hi & Hh & M & Hky). destruct (objs_in _ _ Hi) as (K & L & Et). pose proof (loadsOk_in _ _ L Hh) as Hlo.
    assert (Hz0 : 0 <= z <= size). { destruct Hz as [(-> & _)|(c & g & _ & _ & _ & _ & -> & ?)]; lia. }
    pose proof (readFromHdr_spec o h k y size z Hlo M Hs K Htop Hz0) as R.
    destruct (readFromHdr o h (u64 (y - k)) size z) as [[d2 z2]| | |]; try contradiction; cbn [bind].
    + destruct R as (Rl & Rr & Rz). pose proof (zlen_nonneg d2). destruct M as [M1 M2]. unfold maps, covers in M1, M2.
      assert (Hz2 : 0 <= z2 <= size - zlen d2) by lia.
      split; [|split; [|split; [|discriminate]]].
      * apply run_app; [exact Hr|]. rewrite <- Hy. apply run_app.
        -- intros i b Hb. pose proof (znth_some _ _ _ Hb). eapply (S2 k o h y); eauto; [split; assumption|lia].
        -- apply run_zeros; [lia|]. intros x Hx. destruct (Z_lt_dec x (y + z)) as [Lx|Lx].
           ++ destruct Hz as [(-> & _)|(c & g & Ec & Hg & Mg & Ng & -> & Hpos)]; [lia|].
              apply (S4 c g y x); auto; [lia| |].
              ** destruct Mg as [Mg1 Mg2]. unfold maps, covers in *. lia.
              ** intros k' o' h' Hi' Hh' M'. right. destruct (objs_unique k o h k' o' h' y Hi Hi' Hh Hh' ltac:(split; assumption) M') as (<- & <- & <-).
                 unfold inFile. lia.
           ++ apply (S3 k o h y x); auto; [split; assumption|lia|unfold maps, covers; lia|unfold inFile; lia].
      * rewrite !zlen_app, zeros_len by lia. lia.
      * intros _. rewrite !zlen_app, zeros_len by lia. destruct Hlo as ((? & ? & ?) & [? ?] & _). lia.
    + right. exists k, o. split; [exact Hi|]. unfold complete. rewrite Forall_forall. intros C. specialize (C h Hh). lia.
  - destruct Hz as [(-> & Hnc & ->)|(c & g & Ec & Hg & Mg & Ng & Ez & Hpos)].
    + change (zeros 0) with (@nil Z). cbn [app Z.eqb negb]. change (zlen (@nil Z)) with 0 in *. split; [apply run_nil|]. split; [lia|]. split; [discriminate|].
      intros _. replace y with a in * by lia. auto.
    + replace (z =? 0) with false by lia. cbn [negb]. split; [|split; [|split; [|discriminate]]].
      * apply run_app; [exact Hr|]. rewrite <- Hy. apply run_zeros; [lia|]. intros x Hx. apply (S4 c g y x); auto; [lia| |].
        -- destruct Mg as [Mg1 Mg2]. unfold maps, covers in *. lia.
        -- intros k o h Hi Hh M. left. eapply F; eauto.
      * rewrite zlen_app, zeros_len by lia. lia.
      * intros _. rewrite zlen_app, zeros_len by lia. lia.
Qed.

Lemma round_spec a size : 0 <= a -> 0 < size < 2 ^ 64 -> a + size <= 2 ^ 64 ->
  match coreRound core objs a size with
  | Ok (bs, more) => run P a bs /\ zlen bs <= size /\ (more = true -> 0 < zlen bs) /\
       (more = false -> bs = [] /\ ~ inCore core a /\ forall k o h, In (k, Some o) objs -> In h (imLoads o) -> maps k h a -> k = a)
  | Throw => truncated
  | _ => False
  end.
Proof using Hcore Hobjs S1 S2 S3 S4.
  intros Ha Hs Htop. unfold coreRound.
  assert (Hnone : ~ inCore core a ->
    match (let* fs := findSegment objs (u64 (a + zlen (@nil Z))) in
    match fs with
    | Some (k, o, h) =>
        let* (d2, z2) := readFromHdr o h (u64 (u64 (a + zlen (@nil Z)) - k)) (u64 (size - zlen (@nil Z))) 0 in
        Ok ([] ++ d2 ++ zeros z2, true)
    | None => Ok ([] ++ zeros 0, negb (0 =? 0))
    end) with
  | Ok (bs, more) => run P a bs /\ zlen bs <= size /\ (more = true -> 0 < zlen bs) /\
       (more = false -> bs = [] /\ ~ inCore core a /\ forall k o h, In (k, Some o) objs -> In h (imLoads o) -> maps k h a -> k = a)
  | Throw => truncated
  | _ => False
  end).
  { intros Hnc. change (zlen (@nil Z)) with 0. rewrite Z.add_0_r, Z.sub_0_r. change (2 ^ 64) with W64 in *. rewrite (u64_id a), (u64_id size) by (unfold isU64; lia).
    apply (round_tail a a size 0 []); auto; try lia.
    - change (zlen (@nil Z)) with 0. lia.
    - apply run_nil.
    - intros (c & g & Ec & Hg & F). apply Hnc. exists c, g. split; [exact Ec|]. split; [exact Hg|]. apply inFile_maps; [|exact F]. eapply loadsOk_in; eauto. }
  assert (Hopt : core = None \/ exists c, core = Some c) by (destruct core; eauto). destruct Hopt as [Ec|[c Ec]].
  { assert (Es : coreStage core a size = Ok ([], 0)) by (unfold coreStage; now rewrite Ec). rewrite Es. cbn [bind]. change (zlen (@nil Z) =? 0) with true. cbn [negb andb]. apply Hnone. intros (? & ? & ? & _); congruence. }
  pose proof (Hcore c Ec) as Hl. assert (Es : coreStage core a size = match segFor c a with Some h => readFromHdr c h a size 0 | None => Ok ([], 0) end) by (unfold coreStage; now rewrite Ec). rewrite Es. clear Es. pose proof (segFor_spec c a Hl ltac:(lia)) as Sg. destruct (segFor c a) as [g|].
  2:{ cbn [bind]. change (zlen (@nil Z) =? 0) with true. cbn [negb andb]. apply Hnone. intros (c' & g & E & Hg & M). assert (c' = c) by congruence. subst c'. apply (Sg g Hg). unfold maps in M. now rewrite Z.sub_0_r in M. }
  clear Hnone. destruct Sg as [Hg Cg]. pose proof (loadsOk_in _ _ Hl Hg) as Hlo.
  pose proof (readFromHdr_spec c g 0 a size 0 Hlo ltac:(unfold maps; now rewrite Z.sub_0_r) (proj1 Hs) ltac:(lia) Htop ltac:(lia)) as R.
  rewrite Z.sub_0_r in R. change (2 ^ 64) with W64 in *. rewrite (u64_id a) in R by (unfold isU64; lia).
  destruct (readFromHdr c g a size 0) as [[d1 z]| | |]; try contradiction; cbn [bind].
  2:{ left. exists c. split; [exact Ec|]. unfold complete. rewrite Forall_forall. intros C. specialize (C g Hg). lia. }
  destruct R as (Rl & Rr & Rz). pose proof (zlen_nonneg d1). unfold covers in Cg. destruct Hlo as ((V1 & V2 & V3) & [F1 F2] & O1 & O2).
  assert (Hrun : run P a d1). { intros i b Hb. apply S1. exists c, g. split; [exact Ec|]. split; [exact Hg|]. now apply Rr. }
  destruct (negb (zlen d1 =? 0) && (z =? 0)) eqn:Eq.
  { split; [exact Hrun|]. split; [lia|]. split; [lia|discriminate]. }
  rewrite (u64_id (a + zlen d1)), (u64_id (size - zlen d1)) by (unfold isU64; lia).
  assert (Hpos : 0 < z) by lia.
  assert (Hm : maps 0 g (a + zlen d1)) by (unfold maps, covers; lia).
  assert (Hn : ~ inFile 0 g (a + zlen d1)) by (unfold inFile; lia).
  pose proof (round_tail a (a + zlen d1) (size - zlen d1) z d1 Ha eq_refl ltac:(lia) ltac:(change (2^64) with W64; lia) Hrun) as T.
  replace (zlen d1 + (size - zlen d1)) with size in T by lia. apply T.
  - intros (c' & g' & E & Hg' & F). assert (c' = c) by congruence. subst c'. assert (g = g'); [|congruence].
    eapply (core_unique c); eauto. apply inFile_maps; [|exact F]. eapply loadsOk_in; eauto.
  - right. exists c, g. repeat (split; [assumption || reflexivity|]). split; lia.
Qed.

Lemma coreRead_spec : forall fuel a size, 0 <= a -> 0 <= size < 2 ^ 64 -> a + size <= 2 ^ 64 -> (Z.to_nat size < fuel)%nat ->
  match coreRead fuel core objs a size with
  | Ok bs => run P a bs /\ zlen bs <= size /\
       (zlen bs < size -> ~ inCore core (a + zlen bs) /\ forall k o h, In (k, Some o) objs -> In h (imLoads o) -> maps k h (a + zlen bs) -> k = a + zlen bs)
  | Throw => truncated
  | _ => False
  end.
Proof using Hcore Hobjs S1 S2 S3 S4.
  induction fuel as [|f IH]; intros a size Ha Hs Htop Hf; [lia|]. cbn [coreRead]. destruct (size =? 0) eqn:E0.
  { split; [apply run_nil|]. change (zlen (@nil Z)) with 0. split; [lia|]. intros; lia. }
  pose proof (round_spec a size Ha ltac:(lia) Htop) as R. destruct (coreRound core objs a size) as [[bs more]| | |]; try contradiction; cbn [bind]; [|exact R].
  destruct R as (Rr & Rl & Rm & Rn). destruct more.
  - specialize (Rm eq_refl). clear Rn. assert (Hf' : (Z.to_nat (size - zlen bs) < f)%nat) by lia.
    pose proof (IH (a + zlen bs) (size - zlen bs) ltac:(lia) ltac:(lia) ltac:(lia) Hf') as I.
    change (2 ^ 64) with W64 in *.
    assert (Hu1 : u64 (size - zlen bs) = size - zlen bs) by (apply u64_id; unfold isU64; lia). rewrite Hu1.
    destruct (Z.eq_dec (a + zlen bs) W64) as [Ew|Ew].
    + replace (size - zlen bs) with 0 in * by lia. destruct f as [|f]; [lia|]. cbn [coreRead Z.eqb bind]. rewrite app_nil_r. split; [exact Rr|]. split; [lia|]. intros; lia.
    + rewrite (u64_id (a + zlen bs)) by (unfold isU64; lia). destruct (coreRead f core objs (a + zlen bs) (size - zlen bs)) as [r| | |]; try contradiction; cbn [bind]; [|exact I].
      destruct I as (I1 & I2 & I3). rewrite !zlen_app. split; [now apply run_app|]. split; [lia|]. intros Hlt. replace (a + (zlen bs + zlen r)) with (a + zlen bs + zlen r) by lia. apply I3. lia.
  - destruct (Rn eq_refl) as (-> & N1 & N2). change (zlen (@nil Z)) with 0. rewrite Z.add_0_r. split; [apply run_nil|]. split; [lia|]. auto.
Qed.
End Round.

(** the two readings of P *)
Lemma read_sourced fuel a size : 0 <= a -> 0 <= size < 2 ^ 64 -> a + size <= 2 ^ 64 -> (Z.to_nat size < fuel)%nat ->
  match coreRead fuel core objs a size with
  | Ok bs => run (sourced core objs) a bs /\ zlen bs <= size /\
       (zlen bs < size -> ~ inCore core (a + zlen bs) /\ forall k o h, In (k, Some o) objs -> In h (imLoads o) -> maps k h (a + zlen bs) -> k = a + zlen bs)
  | Throw => truncated
  | _ => False
  end.
Proof using Hcore Hobjs.
  apply coreRead_spec.
  - intros x b H. now left.
  - intros k o h y x b Hi Hh _ _ _ F. right. left. now exists k, o, h.
  - intros k o h y x Hi Hh _ _ _ M _. right. right. split; [|reflexivity]. right. now exists k, o, h.
  - intros c g y x E Hg _ _ _ M _. right. right. split; [|reflexivity]. left. now exists c, g.
Qed.
Lemma read_exact fuel a size : prefixDumped core objs -> prefixMapped core objs -> basesDumped core objs ->
  0 <= a -> 0 <= size < 2 ^ 64 -> a + size <= 2 ^ 64 -> (Z.to_nat size < fuel)%nat ->
  match coreRead fuel core objs a size with
  | Ok bs => run (holds core objs) a bs /\ zlen bs <= size /\ (zlen bs < size -> ~ inMem core objs (a + zlen bs))
  | Throw => truncated
  | _ => False
  end.
Proof using Hcore Hobjs.
  intros G1 G2 G3 Ha Hs Htop Hf. pose proof (coreRead_spec (holds core objs)) as C.
  assert (Hobjfile : forall k o h y, In (k, Some o) objs -> In h (imLoads o) -> inFile k h y -> maps k h y).
  { intros k o h y Hi Hh F. apply inFile_maps; [|exact F]. destruct (objs_in _ _ Hi) as (_ & L & _). eapply loadsOk_in; eauto. }
  assert (H : forall k o h y x, In (k, Some o) objs -> In h (imLoads o) -> maps k h y -> ~ dumped core y -> y <= x -> maps k h x -> ~ dumped core x).
  { intros k o h y x Hi Hh M Nd Hle Mx D. destruct (Z.eq_dec y x) as [->|]; [contradiction|]. apply Nd. eapply G1; eauto. lia. }
  specialize (C (fun x b D => HDump _ _ x b D)).
  assert (C2 : forall k o h y x b, In (k, Some o) objs -> In h (imLoads o) -> maps k h y -> ~ dumped core y -> y <= x -> fileByte k o h x b -> holds core objs x b).
  { intros k o h y x b Hi Hh M Nd Hle F. apply HObj; [|now exists k, o, h]. eapply H; eauto. destruct F as [F _]. eauto. }
  assert (C3 : forall k o h y x, In (k, Some o) objs -> In h (imLoads o) -> maps k h y -> ~ dumped core y -> y <= x -> maps k h x -> ~ inFile k h x -> holds core objs x 0).
  { intros k o h y x Hi Hh M Nd Hle Mx Nf. apply HZero; [eauto| |right; now exists k, o, h|reflexivity].
    intros (k' & o' & h' & Hi' & Hh' & F'). destruct (objs_unique k o h k' o' h' x) as (<- & <- & <-); auto. eauto. }
  assert (C4 : forall c g y x, core = Some c -> In g (imLoads c) -> maps 0 g y -> ~ inFile 0 g y -> y <= x -> maps 0 g x ->
     (forall k o h, In (k, Some o) objs -> In h (imLoads o) -> maps k h y -> k = y \/ ~ inFile k h x) -> holds core objs x 0).
  { intros c g y x E Hg M Nf Hle Mx Hno.
    assert (Hund : forall w, y <= w -> maps 0 g w -> ~ dumped core w).
    { intros w Hw Mw (c' & g' & E' & Hg' & F'). assert (c' = c) by congruence. subst c'. assert (g' = g). { eapply core_unique; eauto. apply inFile_maps; [|exact F']. eapply loadsOk_in; eauto. } subst g'.
      apply Nf. unfold maps, covers, inFile in *. lia. }
    apply HZero; auto; [|left; now exists c, g].
    intros (k & o & h & Hi & Hh & F). destruct (Z.eq_dec y x) as [->|Hne].
    - destruct (Hno k o h Hi Hh (Hobjfile _ _ _ _ Hi Hh F)) as [->|Hn]; [|contradiction]. apply (Hund x); auto. eapply G3; eauto.
    - assert (F2 : inFile k h y) by (eapply (G2 c g y x); eauto; lia). destruct (Hno k o h Hi Hh (Hobjfile _ _ _ _ Hi Hh F2)) as [->|Hn]; [|contradiction].
      apply (Hund y); auto; [lia|]. eapply G3; eauto. }
  specialize (C C2 C3 C4 fuel a size Ha Hs Htop Hf). destruct (coreRead fuel core objs a size) as [bs| | |]; auto.
  destruct C as (A & B & D). split; [exact A|]. split; [exact B|]. intros Hlt. destruct (D Hlt) as [D1 D2]. intros [M|(k & o & h & Hi & Hh & M)]; [contradiction|].
  apply D1. pose proof (D2 k o h Hi Hh M) as Ek. rewrite <- Ek in M |- *. destruct (G3 k o h Hi Hh M) as (c & g & E & Hg & F). exists c, g. split; [exact E|]. split; [exact Hg|].
  apply inFile_maps; [|exact F]. eapply loadsOk_in; eauto.
Qed.
End Read.

(** ** Registers *)
Lemma isPrstatus_spec n : isPrstatus n = true <-> isStatus n.
Proof.
  unfold isPrstatus, isStatus. rewrite andb_true_iff, beq_spec, Z.eqb_eq. reflexivity.
Qed.
Lemma isPrstatus_no n : ~ isStatus n -> isPrstatus n = false.
Proof. intros H. destruct (isPrstatus n) eqn:E; [|reflexivity]. apply isPrstatus_spec in E. contradiction. Qed.
Lemma lwpIndex_none ns : forall i m r, Forall (fun n => ~ isStatus n) ns -> lwpIndex (ns ++ r) i m = lwpIndex r (i + zlen ns) m.
Proof.
  induction ns as [|n ns IH]; intros i m r H; cbn [app lwpIndex]; [now rewrite Z.add_0_r|]. inversion H; subst.
  rewrite isPrstatus_no by assumption. rewrite IH by assumption. rewrite zlen_cons. f_equal. lia.
Qed.
Fixpoint idxOf (ts : list thread) (i : Z) : list (Z * Z) :=
  match ts with [] => [] | t :: r => (prPid (ndData (thStatus t)), i) :: idxOf r (i + zlen (threadNotes t)) end.
Lemma lwpIndex_ts ts : forall i m, Forall wfThread ts -> lwpIndex (flat_map threadNotes ts) i m = Ok (m ++ idxOf ts i).
Proof.
  induction ts as [|t ts IH]; intros i m H; cbn [flat_map idxOf]; [now rewrite app_nil_r|]. inversion H as [|? ? (A & B & C) Hr]; subst.
  unfold threadNotes at 1. cbn [app lwpIndex]. rewrite (proj2 (isPrstatus_spec _) A). replace (_ <? prSize) with false by (unfold prSize; lia).
  rewrite lwpIndex_none by exact C. rewrite IH by exact Hr. rewrite <- app_assoc. cbn [app]. replace (i + zlen (threadNotes t)) with (i + 1 + zlen (thNotes t)) by (unfold threadNotes; rewrite zlen_cons; lia). reflexivity.
Qed.
Lemma lwpFind_idx ts1 : forall t ts2 i, ~ In (prPid (ndData (thStatus t))) (map (fun t => prPid (ndData (thStatus t))) ts2) ->
  lwpFind (idxOf (ts1 ++ t :: ts2) i) (prPid (ndData (thStatus t))) = Some (i + zlen (flat_map threadNotes ts1)).
Proof.
  assert (Hno : forall ts p i, ~ In p (map (fun t => prPid (ndData (thStatus t))) ts) -> lwpFind (idxOf ts i) p = None).
  { induction ts as [|t ts IH]; intros p i H; [reflexivity|]. cbn [idxOf lwpFind map In] in *. rewrite IH by tauto. destruct (_ =? p) eqn:E; [|reflexivity]. exfalso. apply H. left. lia. }
  induction ts1 as [|t1 ts1 IH]; intros t ts2 i H.
  - cbn [app idxOf lwpFind flat_map]. rewrite Hno by exact H. rewrite Z.eqb_refl. now rewrite Z.add_0_r.
  - cbn [app idxOf lwpFind flat_map]. rewrite IH by exact H. rewrite zlen_app. f_equal. lia.
Qed.
Lemma lwpFind_absent ts : forall i p, ~ In p (map (fun t => prPid (ndData (thStatus t))) ts) -> lwpFind (idxOf ts i) p = None.
Proof.
  induction ts as [|t ts IH]; intros i p H; [reflexivity|]. cbn [idxOf lwpFind map In] in *. rewrite IH by tauto. destruct (_ =? p) eqn:E; [|reflexivity]. exfalso. apply H. left. lia.
Qed.
Lemma pid_value d p : pidIs d p -> prPid d = p.
Proof.
  intros (u & v & -> & Hu & Hp). unfold prPid. rewrite <- Hu, zdrop_app_zlen. 
  assert (E : ztake 4 (leBytes 4 p ++ v) = leBytes 4 p) by (change 4 with (zlen (leBytes 4 p)) at 1; apply ztake_app_zlen).
  rewrite E.
  cbn [leBytes fold_right]. unfold s32, sgn. change (W32 / 2) with (2 ^ 31). unfold W32.
  set (q := _ + 256 * _). assert (Hq : q = p). { subst q. change (2 ^ 31) with 2147483648 in Hp. clear -Hp. lia. }
  rewrite Hq. rewrite Z.mod_small by lia. destruct (p <? 2 ^ 31) eqn:Z; lia.
Qed.
Lemma regs_value d r : regsAre d r -> prReg d = r /\ zlen r = 216.
Proof.
  intros (u & v & -> & Hu & Hr). unfold prReg. split; [|exact Hr]. rewrite <- Hu, zdrop_app_zlen, <- Hr. apply ztake_app_zlen.
Qed.
Lemma regsFrom_type code size : code <> 1 -> forall ns n rest, firstOfType code ns n -> Forall (fun n => ~ isStatus n) (tl ns) ->
  regsFrom (ns ++ rest) code size = Ok (ztake (Z.min size (zlen (ndData n))) (ndData n)).
Proof.
  intros Hc ns n rest F. induction F as [n r E|n r x Ne F IH]; intros H; cbn [app regsFrom].
  - rewrite E, Z.eqb_refl. replace (code =? NT_PRSTATUS) with false by (unfold NT_PRSTATUS; lia). reflexivity.
  - replace (ndType n =? code) with false by lia. cbn [tl] in H. destruct r as [|n' r]; [inversion F|]. cbn [app]. inversion H; subst.
    rewrite isPrstatus_no by assumption. apply IH. assumption.
Qed.
Lemma regsFrom_none code size : forall ns rest, ns <> [] -> (forall n, ~ firstOfType code ns n) -> Forall (fun n => ~ isStatus n) (tl ns) ->
  (match rest with [] => True | n :: _ => isStatus n end) -> regsFrom (ns ++ rest) code size = Ok [].
Proof.
  induction ns as [|n ns IH]; intros rest Hne Hf H Hr; [easy|]. cbn [app regsFrom tl] in *.
  assert (ndType n <> code) by (intros E; apply (Hf n); now constructor). replace (ndType n =? code) with false by lia.
  destruct ns as [|n' ns].
  - cbn [app]. destruct rest as [|n' rest]; [reflexivity|]. now rewrite (proj2 (isPrstatus_spec _) Hr).
  - cbn [app]. inversion H; subst. rewrite isPrstatus_no by assumption. apply (IH rest); auto; [discriminate|].
    intros x F. apply (Hf x). now constructor.
Qed.
Lemma getRegs_start pre ts1 t ts2 p code size : Forall (fun n => ~ isStatus n) pre -> Forall wfThread (ts1 ++ t :: ts2) ->
  pidIs (ndData (thStatus t)) p -> (forall t', In t' ts2 -> ~ pidIs (ndData (thStatus t')) p) -> (forall t', In t' ts2 -> exists p', pidIs (ndData (thStatus t')) p') ->
  getRegs (coreNotes pre (ts1 ++ t :: ts2)) p code size = regsFrom (threadNotes t ++ flat_map threadNotes ts2) code size.
Proof.
  intros Hpre Hw Hp Hno Hpid. unfold getRegs, coreNotes. rewrite lwpIndex_none by exact Hpre. rewrite lwpIndex_ts by exact Hw. cbn [bind app].
  rewrite <- (pid_value _ _ Hp). rewrite lwpFind_idx.
  - rewrite flat_map_app. cbn [flat_map]. rewrite Z.add_0_l, <- zlen_app, app_assoc. now rewrite zdrop_app_zlen.
  - rewrite in_map_iff. intros (t' & E & Hi). rewrite (pid_value _ _ Hp) in E. destruct (Hpid t' Hi) as [p' Hp']. rewrite (pid_value _ _ Hp') in E. subst p'. exact (Hno t' Hi Hp').
Qed.
