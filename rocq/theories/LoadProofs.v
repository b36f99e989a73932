From Verif Require Import Base Leb LebSpec DwarfReader DwarfReaderProofs Reader ReaderSpec ReaderProofs ReaderArray ReaderArrayProofs CacheProofs Regs Cfi CfiSpec CfiProofs Core Args ArgsSpec ArgsProofs Load LoadSpec.

Lemma wordOk256 v : wordOk v -> 0 <= v < 256 ^ Z.of_nat 8.
Proof. intros H. exact H. Qed.
Lemma word_at pre v post o : zlen pre = o -> wordOk v -> word (pre ++ leBytes 8 v ++ post) o = v.
Proof.
  intros <- H. unfold word. rewrite zdrop_app_zlen. replace 8 with (zlen (leBytes 8 v)) at 1 by apply leBytes_len. rewrite ztake_app_zlen. now apply leValue_leBytes, wordOk256.
Qed.
Lemma word_at0 v post : wordOk v -> word (leBytes 8 v ++ post) 0 = v.
Proof. intros H. now apply (word_at [] v post 0). Qed.
Lemma half_at pre v post o : zlen pre = o -> 0 <= v < 2 ^ 32 -> half (pre ++ leBytes 4 v ++ post) o = v.
Proof.
  intros <- H. unfold half. rewrite zdrop_app_zlen. replace 4 with (zlen (leBytes 4 v)) at 1 by apply leBytes_len. rewrite ztake_app_zlen. apply leValue_leBytes. exact H.
Qed.
Lemma leBytes_length n v : length (leBytes n v) = n.
Proof. pose proof (leBytes_len n v). unfold zlen in *. lia. Qed.
Lemma obj_holds m a bs n : holds m a bs -> n = length bs -> obj m a n = Ok bs.
Proof.
  intros H ->. unfold obj. rewrite (proj2 (memread_some_iff m a (length bs) bs)); [reflexivity|]. split; [now apply holds_prefix|reflexivity].
Qed.
Lemma holds_app m a x y : holds m a (x ++ y) -> holds m a x /\ holds m (a + zlen x) y.
Proof.
  intros H. pose proof (zlen_nonneg x). pose proof (zlen_nonneg y). split; intros i Hi.
  - rewrite H by (rewrite zlen_app; lia). apply znth_app_l. lia.
  - rewrite <- Z.add_assoc, H by (rewrite zlen_app; lia). rewrite znth_app_r by lia. f_equal. lia.
Qed.
Lemma holds_prefixn m a bs n : holds m a bs -> n = zlen bs -> filled m a n = bs.
Proof.
  intros H ->. unfold filled, zlen. rewrite Nat2Z.id, (holds_prefix _ _ _ H), Nat.sub_diag. cbn [repeat]. apply app_nil_r.
Qed.

(** ** The auxiliary vector *)
Section Aux.
Context (str : Z -> res (list Z)) (vdsoOk : Z -> bool).
(** what an entry does *)
Definition auxStep (e : Z * Z) (x : pst * list Z * Z * Z) : pst * list Z * Z * Z :=
  let '(s, name, po, pn) := x in
  let v := snd e in
  if fst e =? 9 then (mkSt v (sInterp s) (sVdso s) (sDtDebug s) (sExecBase s) (sExec s) (sObjs s), name, po, pn)
  else if fst e =? 33 then (if vdsoOk v then mkSt (sEntry s) (sInterp s) v (sDtDebug s) (sExecBase s) (sExec s) (addObj (sObjs s) vdsoTxt v) else s, name, po, pn)
  else if fst e =? 7 then (mkSt (sEntry s) v (sVdso s) (sDtDebug s) (sExecBase s) (sExec s) (sObjs s), name, po, pn)
  else if fst e =? 31 then (s, match str v with Ok t => t | _ => name end, po, pn)
  else if fst e =? 3 then (s, name, v, pn)
  else if fst e =? 5 then (s, name, po, v)
  else x.
Lemma auxLoop_spec : forall l open rest fuel s name po pn z,
  Forall (fun e => fst e <> 0 /\ wordOk (fst e) /\ wordOk (snd e)) l -> (forall a, str a <> UB /\ str a <> OutOfFuel) -> wordOk z -> (length l < fuel)%nat ->
  auxLoop str vdsoOk fuel open (auxBytes l ++ auxBytes [(0, z)] ++ rest) s name po pn = Ok (fold_left (fun x e => auxStep e x) l (s, name, po, pn)).
Proof.
  induction l as [|[t v] l IH]; intros open rest fuel s name po pn z F ST Hz L; (destruct fuel as [|f]; [cbn in L; lia|]).
  - cbn [auxBytes flat_map app fst snd fold_left auxLoop]. rewrite app_nil_r, <- app_assoc. pose proof (zlen_nonneg rest). rewrite !zlen_app, !leBytes_len. replace (Z.of_nat 8 + (Z.of_nat 8 + zlen rest) =? 0) with false by lia.
    replace (Z.of_nat 8 + (Z.of_nat 8 + zlen rest) <? 16) with false by lia. cbn [andb]. cbv zeta. rewrite word_at0 by (unfold wordOk; lia). reflexivity.
  - apply Forall_cons_iff in F as [(N & Wt & Wv) F]. cbn [fst snd] in *. unfold auxBytes at 1. cbn [flat_map fst snd]. fold (auxBytes l). rewrite <- !app_assoc. cbn [auxLoop fold_left].
    set (tail := auxBytes l ++ auxBytes [(0, z)] ++ rest). assert (T : 0 <= zlen tail) by apply zlen_nonneg. rewrite !zlen_app, !leBytes_len. replace (Z.of_nat 8 + (Z.of_nat 8 + zlen tail) =? 0) with false by lia.
    replace (Z.of_nat 8 + (Z.of_nat 8 + zlen tail) <? 16) with false by lia. cbn [andb]. cbv zeta.
    rewrite word_at0 by assumption. rewrite (word_at (leBytes 8 t) v _ 8) by (try apply leBytes_len; assumption).
    assert (D : zdrop 16 (leBytes 8 t ++ leBytes 8 v ++ tail) = tail) by (rewrite app_assoc; replace 16 with (zlen (leBytes 8 t ++ leBytes 8 v)) by (rewrite zlen_app, !leBytes_len; lia); apply zdrop_app_zlen). rewrite D.
    replace (t =? 0) with false by lia. cbn [length] in L. unfold auxStep at 2. cbn [fst snd]. subst tail.
    assert (G : forall s1 name1 po1 pn1, auxLoop str vdsoOk f open (auxBytes l ++ auxBytes [(0, z)] ++ rest) s1 name1 po1 pn1 = Ok (fold_left (fun x e => auxStep e x) l (s1, name1, po1, pn1))) by (intros; apply IH; try assumption; lia).
    destruct (t =? 9); [apply G|]. destruct (t =? 33); [apply G|]. destruct (t =? 7); [apply G|]. destruct (t =? 31).
    { destruct (ST v) as [S1 S2]. destruct (str v); try congruence; apply G. }
    destruct (t =? 3); [apply G|]. destruct (t =? 5); apply G.
Qed.
(** the last EXECFN entry with a readable name; the last SYSINFO_EHDR entry with a readable image *)
Definition lastName (l : list (Z * Z)) (d : list Z) : list Z :=
  fold_left (fun n e => if fst e =? 31 then match str (snd e) with Ok t => t | _ => n end else n) l d.
Lemma auxFold : forall l s name po pn, exists s',
  fold_left (fun x e => auxStep e x) l (s, name, po, pn) = (s', lastName l name, lastOf 3 l po, lastOf 5 l pn) /\
  sEntry s' = lastOf 9 l (sEntry s) /\ sInterp s' = lastOf 7 l (sInterp s) /\ sVdso s' = lastOf 33 (filter (fun e => vdsoOk (snd e)) l) (sVdso s) /\
  sDtDebug s' = sDtDebug s /\ sExecBase s' = sExecBase s /\ sExec s' = sExec s /\
  sObjs s' = fold_left (fun o e => if (fst e =? 33) && vdsoOk (snd e) then addObj o vdsoTxt (snd e) else o) l (sObjs s).
Proof.
  induction l as [|[t v] l IH]; intros s name po pn; [exists s; repeat split; reflexivity|]. cbn [fold_left lastOf filter]. unfold auxStep at 2. unfold lastName. cbn [fold_left fst snd]. fold (lastName l).
  destruct (Z.eqb_spec t 9) as [->|N9].
  { destruct (IH (mkSt v (sInterp s) (sVdso s) (sDtDebug s) (sExecBase s) (sExec s) (sObjs s)) name po pn) as (s' & E & Q). exists s'. split; [exact E|]. cbn in Q |- *. destruct (vdsoOk v); exact Q. }
  destruct (Z.eqb_spec t 33) as [->|N33].
  { cbn [andb Z.eqb Pos.eqb]. destruct (vdsoOk v) eqn:V; cbn [lastOf fst snd Z.eqb Pos.eqb].
    - destruct (IH (mkSt (sEntry s) (sInterp s) v (sDtDebug s) (sExecBase s) (sExec s) (addObj (sObjs s) vdsoTxt v)) name po pn) as (s' & E & Q). exists s'. split; [exact E|exact Q].
    - destruct (IH s name po pn) as (s' & E & Q). exists s'. split; [exact E|exact Q]. }
  assert (VF : forall d, lastOf 33 (if vdsoOk v then (t, v) :: filter (fun e => vdsoOk (snd e)) l else filter (fun e => vdsoOk (snd e)) l) d = lastOf 33 (filter (fun e => vdsoOk (snd e)) l) d).
  { intros d. destruct (vdsoOk v); [|reflexivity]. cbn [lastOf fst]. replace (t =? 33) with false by lia. reflexivity. }
  rewrite VF. cbn [andb].
  destruct (Z.eqb_spec t 7) as [->|N7].
  { destruct (IH (mkSt (sEntry s) v (sVdso s) (sDtDebug s) (sExecBase s) (sExec s) (sObjs s)) name po pn) as (s' & E & Q). exists s'. split; [exact E|exact Q]. }
  destruct (Z.eqb_spec t 31) as [->|N31].
  { cbn [Z.eqb Pos.eqb]. destruct (IH s (match str v with Ok t => t | _ => name end) po pn) as (s' & E & Q). exists s'. split; [|exact Q]. destruct (str v); exact E. }
  destruct (Z.eqb_spec t 3) as [->|N3]; [cbn [Z.eqb Pos.eqb]; apply IH|]. destruct (Z.eqb_spec t 5) as [->|N5]; apply IH.
Qed.
End Aux.

(** ** Program headers *)
Lemma phBytes_len h : length (phBytes h) = 56%nat.
Proof. unfold phBytes. rewrite !app_length, !leBytes_length. reflexivity. Qed.
Lemma phLoop_spec m phOff : forall hs a base notes dyn, Forall phOk hs -> holds m a (flat_map phBytes hs) ->
  phLoop m (length hs) phOff a base notes dyn =
  (fold_left (fun b h => if hType h =? 6 then u64 (phOff - hVaddr h) else b) hs base,
   notes ++ map hVaddr (ofType 4 hs),
   fold_left (fun d h => if hType h =? 2 then Some (hVaddr h, hFilesz h) else d) hs dyn).
Proof.
  induction hs as [|h hs IH]; intros a base notes dyn F H; cbn [phLoop length fold_left ofType filter map]; [now rewrite app_nil_r|].
  apply Forall_cons_iff in F as [(T & V & S) F]. cbn [flat_map] in H. apply holds_app in H as [H1 H2]. rewrite (obj_holds m a (phBytes h) 56 H1) by (now rewrite phBytes_len).
  replace (zlen (phBytes h)) with 56 in H2 by (unfold zlen; now rewrite phBytes_len). cbv zeta.
  assert (E1 : half (phBytes h) 0 = hType h) by (apply (half_at [] (hType h)); [reflexivity|exact T]).
  assert (E2 : word (phBytes h) 16 = hVaddr h).
  { replace (phBytes h) with ((leBytes 4 (hType h) ++ leBytes 4 (hFlags h) ++ leBytes 8 (hOffset h)) ++ leBytes 8 (hVaddr h) ++ (leBytes 8 (hPaddr h) ++ leBytes 8 (hFilesz h) ++ leBytes 8 (hMemsz h) ++ leBytes 8 (hAlign h))) by (unfold phBytes; now rewrite <- !app_assoc).
    apply word_at; [rewrite !zlen_app, !leBytes_len; reflexivity|exact V]. }
  assert (E3 : word (phBytes h) 32 = hFilesz h).
  { replace (phBytes h) with ((leBytes 4 (hType h) ++ leBytes 4 (hFlags h) ++ leBytes 8 (hOffset h) ++ leBytes 8 (hVaddr h) ++ leBytes 8 (hPaddr h)) ++ leBytes 8 (hFilesz h) ++ (leBytes 8 (hMemsz h) ++ leBytes 8 (hAlign h))) by (unfold phBytes; now rewrite <- !app_assoc).
    apply word_at; [rewrite !zlen_app, !leBytes_len; reflexivity|exact S]. }
  rewrite E1, E2, E3.
  unfold ofType. cbn [filter]. fold (ofType 4 hs). destruct (hType h =? 6) eqn:N6.
  { replace (hType h =? 4) with false by lia. replace (hType h =? 2) with false by lia. now rewrite IH. }
  destruct (hType h =? 4) eqn:N4.
  { replace (hType h =? 2) with false by lia. rewrite IH by assumption. cbn [map]. now rewrite <- app_assoc. }
  destruct (hType h =? 2); now rewrite IH.
Qed.

Lemma fold_one {A B} (p : A -> bool) (f : A -> B) : forall l d h, filter p l = [h] -> fold_left (fun b x => if p x then f x else b) l d = f h.
Proof.
  induction l as [|x l IH]; intros d h H; cbn [filter] in H; [discriminate|]. cbn [fold_left]. destruct (p x) eqn:P; [|now apply IH]. injection H as -> N.
  assert (G : forall l d, filter p l = [] -> fold_left (fun b x => if p x then f x else b) l d = d).
  { clear. induction l as [|y l IH]; intros d H; [reflexivity|]. cbn [filter] in H. cbn [fold_left]. destruct (p y); [discriminate|]. now apply IH. }
  now apply G.
Qed.
Lemma fold_none {A B} (p : A -> bool) (f : A -> B) : forall l d, filter p l = [] -> fold_left (fun b x => if p x then f x else b) l d = d.
Proof. induction l as [|y l IH]; intros d H; [reflexivity|]. cbn [filter] in H. cbn [fold_left]. destruct (p y); [discriminate|]. now apply IH. Qed.

(** ** The dynamic segment *)
Lemma dynLoop_spec m : forall ds a, Forall (fun d => wordOk (fst d) /\ wordOk (snd d)) ds -> holds m a (auxBytes ds) -> dynLoop m (length ds) a = Ok (firstDebug ds).
Proof.
  induction ds as [|[t v] ds IH]; intros a F H; cbn [dynLoop length]; [reflexivity|]. apply Forall_cons_iff in F as [[Wt Wv] F]. cbn [fst snd] in *. unfold auxBytes in H. cbn [flat_map fst snd] in H. apply holds_app in H as [H1 H2].
  rewrite (obj_holds m a _ 16 H1) by (rewrite app_length, !leBytes_length; reflexivity). cbn [bind]. rewrite word_at0 by assumption.
  replace (word (leBytes 8 t ++ leBytes 8 v) 8) with v by (symmetry; rewrite <- (app_nil_r (leBytes 8 v)); apply word_at; [apply leBytes_len|assumption]).
  unfold firstDebug. cbn [find fst snd]. destruct ((t =? 21) && negb (v =? 0)); [reflexivity|]. apply IH; [exact F|]. rewrite zlen_app, !leBytes_len in H2. exact H2.
Qed.
Lemma dtDebug_spec m va fsz load ds : Forall (fun d => wordOk (fst d) /\ wordOk (snd d)) ds -> fsz = 16 * zlen ds -> holds m ((va + load) mod 2 ^ 64) (auxBytes ds) ->
  dtDebug m va fsz load = Ok (firstDebug ds).
Proof.
  intros F -> H. unfold dtDebug. replace (16 * zlen ds) with (zlen ds * 16) by lia. rewrite Z.mod_mul, Z.div_mul by lia. cbn [negb Z.eqb]. unfold zlen. rewrite Nat2Z.id. now apply dynLoop_spec.
Qed.

(** ** Notes *)
Lemma noteLoop_spec m base : forall ns offs, Forall noteOk ns -> Forall2 (fun off n => holds m ((off + base) mod 2 ^ 64) (noteBytes n) /\ (off + base) mod 2 ^ 64 + 16 < 2 ^ 64) offs ns ->
  noteLoop m offs base = Ok (buildId ns).
Proof.
  induction ns as [|n ns IH]; intros offs F H; inversion H as [|off x offs' l' [H1 HW] H2]; subst; [reflexivity|]. apply Forall_cons_iff in F as [(T & L1 & L2 & NE) F]. cbn [noteLoop].
  change (u64 (off + base)) with ((off + base) mod 2 ^ 64). set (va := (off + base) mod 2 ^ 64) in *. assert (VA : 0 <= va < 2 ^ 64) by (apply Z.mod_pos_bound; lia).
  pose proof (zlen_nonneg (nName n)) as ZN. pose proof (zlen_nonneg (nDesc n)) as ZD.
  assert (HB : noteBytes n = (leBytes 4 (zlen (nName n)) ++ leBytes 4 (zlen (nDesc n)) ++ leBytes 4 (nType n)) ++ (pad4 (nName n) ++ nDesc n)) by (unfold noteBytes; now rewrite <- !app_assoc).
  rewrite HB in H1. apply holds_app in H1 as [H1 H3]. rewrite (obj_holds m va _ 12 H1) by (rewrite !app_length, !leBytes_length; reflexivity). cbn [bind].
  set (hd12 := leBytes 4 _ ++ _) in *. assert (L12 : zlen hd12 = 12) by (unfold hd12; rewrite !zlen_app, !leBytes_len; reflexivity). rewrite L12 in H3.
  assert (E8 : half hd12 8 = nType n) by (unfold hd12; rewrite app_assoc, <- (app_nil_r (leBytes 4 (nType n))); apply half_at; [rewrite !zlen_app, !leBytes_len; reflexivity|exact T]).
  assert (E0 : half hd12 0 = zlen (nName n)) by (apply (half_at []); [reflexivity|lia]).
  assert (E4 : half hd12 4 = zlen (nDesc n)) by (unfold hd12; apply half_at; [apply leBytes_len|lia]).
  rewrite E8, E0, E4. unfold buildId, isBuildId. cbn [find]. destruct (Z.eqb_spec (nType n) 3) as [T3|T3]; cbn [negb andb]; [|now apply IH].
  destruct (NE T3) as [nm EN]. replace (zlen (nName n) =? 0) with false by (rewrite EN, zlen_app; pose proof (zlen_nonneg nm); symmetry; apply Z.eqb_neq; change (zlen [0]) with 1; lia).
  rewrite !u64_id by (unfold isU64, W64; lia). apply holds_app in H3 as [H3 H4]. unfold pad4 in H3. apply holds_app in H3 as [H3 _]. rewrite (holds_prefixn m (va + 12) (nName n) _ H3 eq_refl).
  rewrite EN. rewrite last_last, removelast_last. cbn [Z.eqb]. destruct (list_eq_dec Z.eq_dec nm [71; 78; 85]) as [->|N1].
  - destruct (list_eq_dec Z.eq_dec ([71; 78; 85] ++ [0]) [71; 78; 85; 0]) as [_|X]; [|now elim X]. cbn [option_map]. rewrite EN in H4. change (zlen (pad4 ([71; 78; 85] ++ [0]))) with 4 in H4.
      replace (va + 12 + 4) with (va + 16) in H4 by lia. now rewrite (holds_prefixn m (va + 16) (nDesc n) _ H4 eq_refl).
  - destruct (list_eq_dec Z.eq_dec (nm ++ [0]) [71; 78; 85; 0]) as [X|_]; [|now apply IH]. exfalso. apply N1. change [71; 78; 85; 0] with ([71; 78; 85] ++ [0]) in X. now apply app_inj_tail in X as [X _].
Qed.

(** ** Objects *)
Lemma keepFirst_ext : forall l s1 s2, (forall x, In x s1 <-> In x s2) -> keepFirst s1 l = keepFirst s2 l.
Proof.
  induction l as [|e l IH]; intros s1 s2 H; [reflexivity|]. cbn [keepFirst]. destruct (in_dec Z.eq_dec (fst e) s1) as [I|I], (in_dec Z.eq_dec (fst e) s2) as [J|J].
  - now apply IH.
  - exfalso. apply J, H, I.
  - exfalso. apply I, H, J.
  - f_equal. apply IH. intros x. cbn [In]. rewrite H. reflexivity.
Qed.
Lemma keepFirst_app : forall l1 os l2, (os ++ keepFirst (map fst os) l1) ++ keepFirst (map fst (os ++ keepFirst (map fst os) l1)) l2 = os ++ keepFirst (map fst os) (l1 ++ l2).
Proof.
  induction l1 as [|e l1 IH]; intros os l2; cbn [app keepFirst]; [now rewrite app_nil_r|]. destruct (in_dec Z.eq_dec (fst e) (map fst os)) as [I|I]; [apply IH|].
  specialize (IH (os ++ [e]) l2). rewrite map_app in IH. cbn [map] in IH. assert (X : forall l, keepFirst (map fst os ++ [fst e]) l = keepFirst (fst e :: map fst os) l) by (intros l; apply keepFirst_ext; intros x; rewrite in_app_iff; cbn [In]; tauto).
  rewrite !X in IH. rewrite <- !app_assoc in IH. cbn [app] in IH. rewrite <- app_assoc. cbn [app]. exact IH.
Qed.
Lemma addObj_keep os name a l : addObj os name a ++ keepFirst (map fst (addObj os name a)) l = os ++ keepFirst (map fst os) ((a, name) :: l).
Proof.
  unfold addObj. cbn [keepFirst fst]. destruct (existsb (fun e => fst e =? a) os) eqn:E.
  - apply existsb_exists in E as (e & I & X). destruct (in_dec Z.eq_dec a (map fst os)) as [_|N]; [reflexivity|]. exfalso. apply N. replace a with (fst e) by lia. now apply in_map.
  - destruct (in_dec Z.eq_dec a (map fst os)) as [I|N].
    + exfalso. apply in_map_iff in I as (e & <- & I). assert (X : existsb (fun x => fst x =? fst e) os = true) by (apply existsb_exists; exists e; split; [exact I|apply Z.eqb_refl]). congruence.
    + rewrite <- app_assoc. cbn [app]. do 2 f_equal. apply keepFirst_ext. intros x. rewrite map_app, in_app_iff. cbn [map fst In]. tauto.
Qed.
Lemma addFile_keep : forall es os, addFileEntries es os =
  os ++ keepFirst (map fst os) (map (fun e => (feStart e, feName e)) (filter (fun e => feOff e =? 0) es)).
Proof.
  induction es as [|e es IH]; intros os; cbn [addFileEntries filter]; [cbn; now rewrite app_nil_r|]. rewrite IH. destruct (feOff e =? 0); [|reflexivity]. cbn [map]. apply addObj_keep.
Qed.

(** ** The link map *)
Lemma entry_obj m a addr nm ld next prev : wordOk addr -> wordOk nm -> wordOk next ->
  holds m a (leBytes 8 addr ++ leBytes 8 nm ++ leBytes 8 ld ++ leBytes 8 next ++ leBytes 8 prev) ->
  exists lm, obj m a 40 = Ok lm /\ word lm 0 = addr /\ word lm 8 = nm /\ word lm 24 = next.
Proof.
  intros Wa Wn Wx H. eexists. split; [apply (obj_holds m a _ 40 H); rewrite !app_length, !leBytes_length; reflexivity|]. split; [now apply word_at0|]. split; [now apply word_at; [apply leBytes_len|]|].
  replace (leBytes 8 addr ++ leBytes 8 nm ++ leBytes 8 ld ++ leBytes 8 next ++ leBytes 8 prev) with ((leBytes 8 addr ++ leBytes 8 nm ++ leBytes 8 ld) ++ leBytes 8 next ++ leBytes 8 prev) by (now rewrite <- !app_assoc).
  apply word_at; [rewrite !zlen_app, !leBytes_len; reflexivity|assumption].
Qed.
Lemma memread_holds m : forall n a bs, memread m a n = Some bs -> zlen bs = Z.of_nat n /\ holds m a bs.
Proof.
  intros n a bs H. apply memread_some_iff in H as [P L]. split; [unfold zlen; lia|]. subst n. revert a P. induction bs as [|b bs IH]; intros a P i Hi; [cbn in Hi; change (zlen (@nil Z)) with 0 in Hi; lia|].
  cbn [length prefix] in P. destruct (m a) as [c|] eqn:E; [|discriminate]. injection P as -> P. rewrite zlen_cons in Hi. cbn [znth]. destruct (Z.eqb_spec i 0) as [->|N]; [now rewrite Z.add_0_r|]. replace (i <? 0) with false by lia.
  rewrite <- (IH (a + 1) P) by lia. f_equal. lia.
Qed.
Lemma unreadable_obj m a : unreadable m a 40 -> obj m a 40 = Throw.
Proof. intros H. unfold obj. destruct (memread m a 40) as [bs|] eqn:E; [|reflexivity]. apply memread_holds in E as [L E]. elim (H bs); [exact L|exact E]. Qed.
Definition final (m : memory) (b : Z) : Prop := b = 0 \/ obj m b 40 = Throw.
Lemma linkPath_det m str b : final m b -> forall a l1 b1, linkPath m str a l1 b1 -> b1 = b -> forall l2, linkPath m str a l2 b -> l1 = l2.
Proof.
  intros FB a l1 b1 H1. induction H1 as [b1|a addr nm ld next prev name l b1 N Wa Wn Wx H Nm L IH]; intros -> l2 H2; inversion H2 as [|a' addr' nm' ld' next' prev' name' l' b' N' Wa' Wn' Wx' H' Nm' L']; subst; [reflexivity| | |].
  - destruct (entry_obj m b addr' nm' ld' next' prev' Wa' Wn' Wx' H') as (lm & O1 & _). destruct FB; congruence.
  - destruct (entry_obj m b addr nm ld next prev Wa Wn Wx H) as (lm & O1 & _). destruct FB; congruence.
  - destruct (entry_obj m a addr nm ld next prev Wa Wn Wx H) as (lm & O1 & A1 & B1 & C1). destruct (entry_obj m a addr' nm' ld' next' prev' Wa' Wn' Wx' H') as (lm' & O2 & A2 & B2 & C2).
    rewrite O1 in O2. injection O2 as E. clear H H' H2 O1. rewrite <- E in A2, B2, C2. assert (addr = addr') by congruence. assert (nm = nm') by congruence. assert (next = next') by congruence. clear A1 B1 C1 A2 B2 C2 E.
    subst. f_equal; [|now apply IH]. f_equal. destruct Nm as [[-> ->]|[X Y]], Nm' as [[X' ->]|[X' Y']]; congruence.
Qed.
Lemma linkPath_suffix m str : forall a l b, linkPath m str a l b -> forall l1 x l2, l = l1 ++ x :: l2 -> linkPath m str (fst (fst x)) (x :: l2) b.
Proof.
  induction 1 as [b|a addr nm ld next prev name l b N Wa Wn Wx H Nm L IH]; intros l1 x l2 E; [destruct l1; discriminate|]. destruct l1 as [|y l1]; cbn [app] in E.
  - injection E as <- <-. exact (lpCons m str a addr nm ld next prev name l b N Wa Wn Wx H Nm L).
  - injection E as _ E. eapply IH. exact E.
Qed.
Lemma linkPath_once m str a x l b : final m b -> linkPath m str a (x :: l) b -> Forall (fun y => fst (fst y) <> a) l.
Proof.
  intros FB H. apply Forall_forall. intros y I E. apply in_split in I as (l1 & l2 & ->). pose proof (linkPath_suffix m str a _ b H (x :: l1) y l2 eq_refl) as H2. rewrite E in H2.
  pose proof (linkPath_det m str b FB a _ b H eq_refl _ H2) as X. apply (f_equal (@length _)) in X. cbn [length] in X. rewrite app_length in X. cbn [length] in X. lia.
Qed.
Section Link.
Context (m : memory) (str : Z -> res (list Z)) (eEntry : Z -> Z) (first : Z).
Definition endOf (b : Z) : res unit := if b =? 0 then Ok tt else Throw.
Lemma linkLoop_rest : forall a l b, linkPath m str a l b -> final m b -> Forall (fun y => fst (fst y) <> first) l -> forall fuel s, (length l < fuel)%nat ->
  linkLoop m str eEntry fuel first a s = (setObjs s (sObjs s ++ keepFirst (map fst (sObjs s)) (listed (sVdso s) l)), endOf b).
Proof.
  induction 1 as [b|a addr nm ld next prev name l b N Wa Wn Wx H Nm L IH]; intros FB F fuel s Hf; (destruct fuel as [|f]; [cbn in Hf; lia|]); cbn [linkLoop].
  - cbn [listed flat_map keepFirst]. rewrite app_nil_r. unfold endOf. destruct (Z.eqb_spec b 0) as [->|N]; [now destruct s|]. destruct FB as [->|FB]; [now elim N|]. rewrite FB. now destruct s.
  - replace (a =? 0) with false by lia. destruct (entry_obj m a addr nm ld next prev Wa Wn Wx H) as (lm & -> & -> & -> & ->). cbv zeta.
    apply Forall_cons_iff in F as [F1 F]. cbn [fst] in F1. replace (a =? first) with false by lia. cbn [length] in Hf. cbn [listed flat_map]. fold (listed (sVdso s) l).
    destruct (negb (sVdso s =? 0) && (addr =? sVdso s)) eqn:V.
    { rewrite IH by (assumption || lia). replace (match name with [] => [] | _ :: _ => [] end) with (@nil (Z * list Z)) by now destruct name. reflexivity. }
    destruct Nm as [[-> ->]|[Nn St]].
    { cbn [Z.eqb app]. now rewrite IH by (assumption || lia). }
    replace (nm =? 0) with false by lia. rewrite St. destruct name as [|c name]; cbn [app]; rewrite IH by (assumption || lia); [reflexivity|].
    cbn [sObjs sVdso setObjs]. now rewrite addObj_keep.
Qed.
End Link.

(** ** The NT_FILE note *)
Section File.
Context (m : memory).
Definition entBytes (e : mapping) : list Z := leBytes 8 (mStart e) ++ leBytes 8 (mEnd e) ++ leBytes 8 (mPgoff e).
Definition nameBytes (e : mapping) : list Z := mName e ++ [0].
Lemma entBytes_len e : zlen (entBytes e) = 24.
Proof. unfold entBytes. rewrite !zlen_app, !leBytes_len. reflexivity. Qed.
Lemma ents_len es : zlen (flat_map entBytes es) = 24 * zlen es.
Proof. induction es as [|e es IH]; [reflexivity|]. cbn [flat_map]. rewrite zlen_app, entBytes_len, zlen_cons, IH. lia. Qed.
Definition toFE (e : mapping) : fentry := mkFE (mName e) (mStart e) (mEnd e) (mPgoff e).

Context (pre hdr post : list Z) (es : list mapping) (c : list Z).
Context (Hc : c = pre ++ hdr ++ flat_map entBytes es ++ flat_map nameBytes es ++ post).
Context (Hhdr : zlen hdr = 16) (Hbig : zlen c <= W64 / 2) (Hes : Forall mappingOk es).
Notation o := (zlen pre).
Notation N := (zlen es).
Notation ents := (ROffset (RFile c) (o + 16) (24 * N)).
Notation names := (ROffset (RFile c) (o + 16 + 24 * N) (zlen c - (o + 16 + 24 * N))).
Notation src := (window (ofList c) (o + 16) (24 * N)).
Lemma c_len : zlen c = o + 16 + 24 * N + zlen (flat_map nameBytes es) + zlen post.
Proof. rewrite Hc, !zlen_app, Hhdr, ents_len. lia. Qed.
Lemma ents_serves : serves (rread m ents) src.
Proof.
  pose proof c_len. pose proof (zlen_nonneg pre). pose proof (zlen_nonneg es). pose proof (zlen_nonneg (flat_map nameBytes es)). pose proof (zlen_nonneg post).
  apply offset_serves; [now apply file_serves|lia|lia|unfold W64 in *; lia].
Qed.
Lemma zdrop_app_ge {A} n (a b : list A) : zlen a <= n -> zdrop n (a ++ b) = zdrop (n - zlen a) b.
Proof. intros H. replace n with ((n - zlen a) + zlen a) at 1 by lia. pose proof (zlen_nonneg a). rewrite <- zdrop_zdrop by lia. now rewrite zdrop_app_zlen. Qed.
Lemma item done e todo : es = done ++ e :: todo -> itemAt src 24 0 (zlen done) = Ok (entBytes e).
Proof.
  intros E. unfold itemAt. pose proof c_len. pose proof (zlen_nonneg pre). pose proof (zlen_nonneg done). pose proof (zlen_nonneg todo).
  assert (EN : N = zlen done + 1 + zlen todo) by (rewrite E, zlen_app, zlen_cons; lia).
  rewrite (proj2 (memread_some_iff src (0 + zlen done * 24) (Z.to_nat 24) (entBytes e))); [reflexivity|]. split; [|pose proof (entBytes_len e); unfold zlen in *; lia].
  rewrite prefix_window by lia. rewrite prefix_ofList by lia. replace (Z.of_nat (Z.to_nat (Z.min (Z.of_nat (Z.to_nat 24)) (Z.max 0 (24 * N - (0 + zlen done * 24)))))) with 24 by lia.
  rewrite Hc. rewrite zdrop_app_ge by lia. rewrite zdrop_app_ge by lia. rewrite Hhdr. replace (o + 16 + (0 + zlen done * 24) - o - 16) with (zlen (flat_map entBytes done)) by (rewrite ents_len; lia).
  rewrite E, !flat_map_app. cbn [flat_map]. rewrite <- !app_assoc, zdrop_app_zlen. rewrite <- (entBytes_len e) at 1. apply ztake_app_zlen.
Qed.
Lemma name_at fuel done e todo : es = done ++ e :: todo -> (length c < fuel)%nat -> rstring fuel m names (zlen (flat_map nameBytes done)) = Ok (mName e).
Proof.
  intros E Hf. change (rstring fuel m (RFile c) (u64 (zlen (flat_map nameBytes done) + (o + 16 + 24 * N))) = Ok (mName e)). pose proof c_len as CL. pose proof (zlen_nonneg pre). pose proof (zlen_nonneg es). pose proof (zlen_nonneg (flat_map nameBytes done)). pose proof (zlen_nonneg post).
  assert (EL : zlen (flat_map nameBytes es) = zlen (flat_map nameBytes done) + (zlen (nameBytes e) + zlen (flat_map nameBytes todo))) by (rewrite E, flat_map_app; cbn [flat_map]; now rewrite !zlen_app).
  pose proof (zlen_nonneg (nameBytes e)). pose proof (zlen_nonneg (flat_map nameBytes todo)).
  rewrite u64_id by (unfold isU64, W64 in *; lia). rewrite file_readString by (try assumption; unfold W64 in *; lia). f_equal.
  rewrite Hc. rewrite zdrop_app_ge by lia. rewrite zdrop_app_ge by lia. rewrite Hhdr. rewrite zdrop_app_ge by (rewrite ents_len; lia). rewrite ents_len.
  replace (zlen (flat_map nameBytes done) + (o + 16 + 24 * N) - o - 16 - 24 * N) with (zlen (flat_map nameBytes done)) by lia.
  rewrite E, flat_map_app. cbn [flat_map]. rewrite <- !app_assoc, zdrop_app_zlen. unfold nameBytes at 1. rewrite <- app_assoc. cbn [app].
  assert (NE : ~ In 0 (mName e)) by (rewrite Forall_forall in Hes; apply Hes; rewrite E; apply in_or_app; right; now left).
  rewrite untilNul_app_nonul by (intros x Hx ->; now apply NE). cbn [untilNul Z.eqb]. apply app_nil_r.
Qed.
Lemma entryLoop_spec fuel : (length c < fuel)%nat -> forall todo done s, es = done ++ todo -> AInv src 24 0 s ->
  entryLoop (length todo) fuel m ents names s (zlen done) (zlen (flat_map nameBytes done)) = Ok (map toFE todo).
Proof.
  intros Hf. induction todo as [|e todo IH]; intros done s E I; cbn [entryLoop length map]; [reflexivity|]. rewrite (name_at fuel done e todo E Hf). cbn [bind].
  pose proof c_len as CL. pose proof (zlen_nonneg pre). pose proof (zlen_nonneg done). pose proof (zlen_nonneg todo). pose proof (zlen_nonneg (flat_map nameBytes es)). pose proof (zlen_nonneg post).
  assert (EN : N = zlen done + 1 + zlen todo) by (rewrite E, zlen_app, zlen_cons; lia).
  destruct (getitem_spec (rread m ents) src 24 42 0 ents_serves ltac:(lia) ltac:(lia) ltac:(lia) s (zlen done) I ltac:(lia)) as [G1 G2]; [unfold W64 in *; lia|].
  destruct (getitem (rread m ents) 24 42 0 s (zlen done)) as [s' r]. cbn [fst snd] in *. rewrite G1, (item done e todo E).
  assert (E' : es = (done ++ [e]) ++ todo) by (rewrite <- app_assoc; exact E). specialize (IH (done ++ [e]) s' E' G2).
  rewrite zlen_app in IH. change (zlen [e]) with 1 in IH. rewrite flat_map_app, zlen_app in IH. cbn [flat_map] in IH. rewrite app_nil_r in IH. unfold nameBytes at 2 in IH. rewrite zlen_app in IH. change (zlen [0]) with 1 in IH.
  rewrite Z.add_assoc in IH. rewrite IH. cbn [bind]. do 2 f_equal. assert (M : mappingOk e) by (rewrite Forall_forall in Hes; apply Hes; rewrite E; apply in_or_app; right; now left). destruct M as (M1 & M2 & M3 & _).
  unfold toFE. f_equal.
  - exact (word_at0 (mStart e) (leBytes 8 (mEnd e) ++ leBytes 8 (mPgoff e)) M1).
  - exact (word_at (leBytes 8 (mStart e)) (mEnd e) (leBytes 8 (mPgoff e)) 8 (leBytes_len _ _) M2).
  - unfold entBytes. rewrite app_assoc. rewrite <- (app_nil_r (leBytes 8 (mPgoff e))). apply (word_at (leBytes 8 (mStart e) ++ leBytes 8 (mEnd e)) (mPgoff e) [] 16); [rewrite zlen_app, !leBytes_len; reflexivity|exact M3].
Qed.
End File.

Lemma fileEntries_spec m fuel pre pg es post c len : c = pre ++ fileNoteBytes pg es ++ post -> zlen c <= W64 / 2 -> Forall mappingOk es -> 16 <= len < W64 / 2 -> (length c < fuel)%nat ->
  fileEntries fuel m (rview (RFile c) (zlen pre) len) = Ok (map toFE es).
Proof.
  intros Hc Hbig F Hl Hf. set (hdr := leBytes 8 (zlen es) ++ leBytes 8 pg). assert (Hhdr : zlen hdr = 16) by (unfold hdr; rewrite zlen_app, !leBytes_len; reflexivity).
  assert (Hc' : c = pre ++ hdr ++ flat_map entBytes es ++ flat_map nameBytes es ++ post).
  { rewrite Hc. unfold fileNoteBytes, hdr. rewrite <- !app_assoc. reflexivity. }
  pose proof (c_len pre hdr post es c Hc' Hhdr) as CL. pose proof (zlen_nonneg pre). pose proof (zlen_nonneg es). pose proof (zlen_nonneg (flat_map nameBytes es)). pose proof (zlen_nonneg post).
  unfold fileEntries. cbn [rview]. unfold mkOffset at 1 2 3. replace (len =? offMax) with false by (unfold offMax, W64 in *; lia).
  rewrite (readObj_serves _ (window (ofList c) (zlen pre) len)) by (try lia; try (apply offset_serves; [now apply file_serves|..]; unfold W64 in *; lia); unfold W64 in *; lia).
  assert (R : memread (window (ofList c) (zlen pre) len) 0 (Z.to_nat (1 * 16)) = Some hdr).
  { apply memread_some_iff. split; [|unfold zlen in Hhdr; lia]. rewrite prefix_window by lia. rewrite prefix_ofList by lia. replace (Z.of_nat (Z.to_nat (Z.min (Z.of_nat (Z.to_nat (1 * 16))) (Z.max 0 (len - 0))))) with 16 by lia.
    rewrite Hc', Z.add_0_r, zdrop_app_zlen. rewrite <- Hhdr at 1. apply ztake_app_zlen. }
  rewrite R. cbn [bind]. cbv zeta. change (leValue (ztake 8 hdr)) with (word hdr 0). assert (W0 : word hdr 0 = zlen es) by (apply word_at0; unfold wordOk, W64 in *; lia). rewrite W0. clear R W0.
  assert (U : forall z, 0 <= z < W64 -> u64 z = z) by (intros z Hz; now apply u64_id). rewrite !U by (unfold W64 in *; lia). cbn [rview]. unfold mkOffset. replace (zlen es * 24 =? offMax) with false by (unfold offMax, W64 in *; lia). replace (len =? offMax) with false by (unfold offMax, W64 in *; lia). cbn [rview]. unfold mkOffset. replace (zlen es * 24 =? offMax) with false by (unfold offMax, W64 in *; lia). rewrite ?Z.eqb_refl. cbn [rsize].
  rewrite !U by (unfold W64 in *; lia). unfold arrayEof. replace (zlen es * 24 mod 24) with 0 by (symmetry; apply Z.mod_mul; lia). rewrite andb_false_r. cbn [bind]. rewrite Z.sub_0_r, !U by (unfold W64 in *; lia). rewrite Z.div_mul by lia. cbn [bind].
  replace (Z.to_nat (zlen es)) with (length es) by (unfold zlen; lia). replace (zlen es * 24) with (24 * zlen es) by lia. replace (zlen pre + (16 + 24 * zlen es)) with (zlen pre + 16 + 24 * zlen es) by lia.
  apply (entryLoop_spec m pre hdr post es c Hc' Hhdr Hbig F fuel Hf es [] ainit eq_refl). apply ainit_inv.
Qed.

(** ** All of processAUXV *)
Definition isSome {A} (o : option A) : bool := match o with Some _ => true | None => false end.
Lemma processAUXV_spec m str vdsoOk byName byId procExe open l rest z s hs p d ds ns fuel :
  Forall (fun e => fst e <> 0 /\ wordOk (fst e) /\ wordOk (snd e)) l -> (forall a, str a <> UB /\ str a <> OutOfFuel) -> wordOk z -> (length l < fuel)%nat ->
  lastOf 3 l 0 <> 0 -> lastOf 5 l 0 = zlen hs -> Forall phOk hs -> holds m (lastOf 3 l 0) (flat_map phBytes hs) -> ofType 6 hs = [p] -> ofType 2 hs = [d] ->
  let base := (lastOf 3 l 0 - hVaddr p) mod 2 ^ 64 in
  Forall (fun e => wordOk (fst e) /\ wordOk (snd e)) ds -> hFilesz d = 16 * zlen ds -> holds m ((hVaddr d + base) mod 2 ^ 64) (auxBytes ds) ->
  sDtDebug s = 0 ->
  Forall noteOk ns -> Forall2 (fun h n => holds m ((hVaddr h + base) mod 2 ^ 64) (noteBytes n) /\ (hVaddr h + base) mod 2 ^ 64 + 16 < 2 ^ 64) (ofType 4 hs) ns ->
  exists s', processAUXV m str vdsoOk byName byId procExe fuel open (auxBytes l ++ auxBytes [(0, z)] ++ rest) s = Ok s' /\
  sEntry s' = lastOf 9 l (sEntry s) /\ sInterp s' = lastOf 7 l (sInterp s) /\ sVdso s' = lastOf 33 (filter (fun e => vdsoOk (snd e)) l) (sVdso s) /\
  sObjs s' = fold_left (fun o e => if (fst e =? 33) && vdsoOk (snd e) then addObj o vdsoTxt (snd e) else o) l (sObjs s) /\
  sExecBase s' = base /\ sDtDebug s' = firstDebug ds /\
  sExec s' = orElse (orElse (orElse (sExec s) (match buildId ns with Some i => byId i | None => None end))
                            (if list_eq_dec Z.eq_dec (lastName str l []) [] then None else byName (lastName str l []))) procExe.
Proof.
  intros F ST Hz L P3 P5 Fh Hh H6 H2 base Fd Hsz Hd D0 Fn Hn. unfold processAUXV. rewrite (auxLoop_spec str vdsoOk l open rest fuel s [] 0 0 z F ST Hz L).
  destruct (auxFold str vdsoOk l s [] 0 0) as (s1 & -> & E1 & E2 & E3 & E4 & E5 & E6 & E7). cbn [bind].
  assert (NH : hs <> []) by (intros ->; discriminate H6). pose proof (zlen_nonneg hs). assert (zlen hs <> 0) by (intros X; apply NH; destruct hs; [reflexivity|rewrite zlen_cons in X; pose proof (zlen_nonneg hs); lia]).
  rewrite P5. replace (lastOf 3 l 0 =? 0) with false by lia. replace (zlen hs =? 0) with false by lia. cbn [orb]. replace (Z.to_nat (zlen hs)) with (length hs) by (unfold zlen; lia).
  rewrite (phLoop_spec m (lastOf 3 l 0) hs _ _ _ _ Fh Hh). unfold ofType in H6, H2.
  rewrite (fold_one (fun h => hType h =? 6) (fun h => u64 (lastOf 3 l 0 - hVaddr h)) hs _ p H6), (fold_one (fun h => hType h =? 2) (fun h => Some (hVaddr h, hFilesz h)) hs _ d H2).
  change (u64 (lastOf 3 l 0 - hVaddr p)) with base. cbv beta iota. cbn [sDtDebug setBase]. rewrite E4, D0. cbn [Z.eqb app]. rewrite (dtDebug_spec m _ _ base ds Fd Hsz Hd). cbn [bind sExec setDt setBase].
  assert (Hn' : Forall2 (fun off n => holds m ((off + base) mod 2 ^ 64) (noteBytes n) /\ (off + base) mod 2 ^ 64 + 16 < 2 ^ 64) (map hVaddr (ofType 4 hs)) ns).
  { clear -Hn. induction Hn; cbn [map]; constructor; assumption. }
  rewrite E6. destruct (sExec s) as [x|] eqn:X; cbn [bind].
  - eexists. split; [reflexivity|]. cbn [setExec sEntry sInterp sVdso sObjs sExecBase sDtDebug sExec setDt setBase]. rewrite E6. cbn [orElse]. repeat split; assumption.
  - rewrite (noteLoop_spec m base ns _ Fn Hn'). cbn [bind]. eexists. split; [reflexivity|]. cbn [setExec sEntry sInterp sVdso sObjs sExecBase sDtDebug sExec setDt setBase]. cbn [orElse]. repeat split; assumption.
Qed.

(** Only the first loop sets these. *)
Lemma processAUXV_keeps m str vdsoOk byName byId procExe fuel open bs s s' : processAUXV m str vdsoOk byName byId procExe fuel open bs s = Ok s' ->
  exists s1 n po pn, auxLoop str vdsoOk fuel open bs s [] 0 0 = Ok (s1, n, po, pn) /\ sEntry s' = sEntry s1 /\ sInterp s' = sInterp s1 /\ sVdso s' = sVdso s1 /\ sObjs s' = sObjs s1.
Proof.
  unfold processAUXV. destruct (auxLoop str vdsoOk fuel open bs s [] 0 0) as [[[[s1 n] po] pn]| | |]; cbn [bind]; try discriminate. intros H. exists s1, n, po, pn. split; [reflexivity|].
  assert (G : forall r, (exists s3, r = Ok s3 /\ sEntry s3 = sEntry s1 /\ sInterp s3 = sInterp s1 /\ sVdso s3 = sVdso s1 /\ sObjs s3 = sObjs s1) \/ (forall s3, r <> Ok s3) ->
    (let* s3 := r in Ok (setExec s3 (orElse (orElse (sExec s3) (if list_eq_dec Z.eq_dec n [] then None else byName n)) procExe))) = Ok s' -> sEntry s' = sEntry s1 /\ sInterp s' = sInterp s1 /\ sVdso s' = sVdso s1 /\ sObjs s' = sObjs s1).
  { intros r [(s3 & -> & Q)|N] E; [cbn [bind] in E; injection E as <-; exact Q|]. destruct r as [s3| | |]; try discriminate E. now elim (N s3). }
  eapply G; [|exact H]. clear G H. destruct ((po =? 0) || (pn =? 0)); [left; exists s1; repeat split|]. destruct (phLoop m (Z.to_nat pn) po po (sExecBase s1) [] None) as [[base notes] dyn].
  assert (K : forall s2, sEntry s2 = sEntry s1 /\ sInterp s2 = sInterp s1 /\ sVdso s2 = sVdso s1 /\ sObjs s2 = sObjs s1 ->
    (exists s3, match sExec s2 with Some _ => Ok s2 | None => let* id := noteLoop m notes base in Ok (setExec s2 (match id with Some i => byId i | None => None end)) end = Ok s3 /\ sEntry s3 = sEntry s1 /\ sInterp s3 = sInterp s1 /\ sVdso s3 = sVdso s1 /\ sObjs s3 = sObjs s1) \/
    (forall s3, match sExec s2 with Some _ => Ok s2 | None => let* id := noteLoop m notes base in Ok (setExec s2 (match id with Some i => byId i | None => None end)) end <> Ok s3)).
  { intros s2 Q. destruct (sExec s2); [left; exists s2; split; [reflexivity|exact Q]|]. destruct (noteLoop m notes base) as [id| | |]; cbn [bind]; [left; eexists; split; [reflexivity|exact Q]|right; discriminate..]. }
  destruct dyn as [[va fsz]|]; [|cbn [bind]; apply K; repeat split]. cbn [sDtDebug setBase]. destruct (sDtDebug s1 =? 0); [|cbn [bind]; apply K; repeat split].
  destruct (dtDebug m va fsz base); cbn [bind]; [apply K; repeat split|right; discriminate..].
Qed.

(** ** The link map from its start *)
Lemma loadShared_spec m str eEntry fuel rd first s fa addr0 name0 l b :
  rDebugAt m rd first -> linkPath m str first ((fa, addr0, name0) :: l) b -> final m b -> (1 + length l < fuel)%nat ->
  exists s', loadShared m str eEntry fuel rd s = (s', endOf b) /\
    sObjs s' = sObjs s ++ keepFirst (map fst (sObjs s)) ((match sExec s with Some _ => [(addr0, exeTxt)] | None => [] end) ++ listed (sVdso s) l) /\
    sExec s' = sExec s.
Proof.
  intros (Wf & v & brk & st & ld & HR) LM FB Hf. unfold loadShared.
  rewrite (obj_holds m rd _ 40 HR) by (rewrite !app_length, !leBytes_length; reflexivity). rewrite (word_at (leBytes 8 v) first _ 8 (leBytes_len _ _) Wf).
  pose proof (linkPath_once m str first _ l b FB LM) as ON. inversion LM as [|a addr nm ld' next prev name l' b' N Wa Wn Wx H Nm L' EA EB]; subst. destruct fuel as [|f]; [lia|]. cbn [linkLoop]. replace (fa =? 0) with false by lia.
  destruct (entry_obj m fa addr0 nm ld' next prev Wa Wn Wx H) as (lm & -> & -> & -> & ->). cbv zeta. rewrite Z.eqb_refl. destruct (sExec s) as [e|] eqn:X.
  - rewrite (linkLoop_rest m str eEntry fa next l b L' FB ON f) by lia. eexists. split; [reflexivity|]. split; [|destruct (sExecBase s =? 0); exact X]. cbn [sObjs setObjs app].
    rewrite addObj_keep. destruct (sExecBase s =? 0); reflexivity.
  - rewrite (linkLoop_rest m str eEntry fa next l b L' FB ON f) by lia. eexists. split; [reflexivity|]. split; [reflexivity|exact X].
Qed.
