From Verif Require Import Base Leb LebSpec LebProofs DwarfReader DwarfReaderProofs Cfi CfiSpec CfiProofs CfiProofs2 Cursor ElfHashProofs Units UnitsSpec.

Lemma zlen_rest_pos u : suOk u -> 0 < zlen (unitRest u).
Proof. intros _. unfold unitRest. rewrite zlen_app, leBytes_len. match goal with |- context [_ + zlen ?x] => pose proof (zlen_nonneg x) end. lia. Qed.
Lemma unitBytes_len u : zlen (unitBytes u) = (if suLong u then 12 else 4) + zlen (unitRest u).
Proof. unfold unitBytes. rewrite zlen_app. destruct (suLong u); rewrite ?zlen_app, ?leBytes_len; reflexivity. Qed.
Section R.
Context (data : list Z) (Hd : Forall isByte data) (Hw : zlen data < 2 ^ 63).
Lemma HW' : zlen data + 32 < W64. Proof. unfold W64. lia. Qed.
Notation H' := HW'.
Lemma readUnit_spec off u : suOk u -> at_ data off (unitBytes u) -> exists h, readUnit data off = Ok h /\ isUnit data h (off, u).
Proof.
  Ltac fin := match goal with o := ?e |- _ => unfold o end; repeat split; try reflexivity; try (cbn [uhDwarfLen fst snd]; first [replace (suVersion _ <=? 2) with false by lia; reflexivity | unfold offSize; destruct (suVersion _ <=? 2), (suLong _); reflexivity]); destruct (suLong _); lia.
  intros (V & V2 & AB & K & L & _) HA. pose proof (proj1 HA) as HO. pose proof (at_len _ _ _ HA) as AL. assert (LN : zlen (unitBytes u) = (if suLong u then 12 else 4) + zlen (unitRest u)) by apply unitBytes_len.
  pose proof (zlen_nonneg (unitRest u)) as LR. assert (NE : unitBytes u <> []) by (intros X; rewrite X in LN; change (zlen (@nil Z)) with 0 in LN; destruct (suLong u); lia). specialize (AL NE).
  assert (LB : zlen (unitRest u) < 2 ^ 63) by (destruct (suLong u); lia).
  unfold readUnit. destruct (getlength_at data off (suLong u) (zlen (unitRest u)) (unitRest u) Hd H') as [G HB]; [destruct (suLong u); cbv iota; [unfold W64; lia|specialize (L eq_refl); lia]|exact HA|]. cbv zeta in G, HB. rewrite G. cbn [bind].
  set (o1 := off + (if suLong u then 12 else 4)) in *. assert (O1 : o1 + zlen (unitRest u) = off + zlen (unitBytes u)) by (unfold o1; lia). pose proof (zlen_nonneg (unitBytes u)) as ZB. rewrite (u64_id (o1 + zlen (unitRest u))) by (rewrite O1; unfold isU64, W64; lia). rewrite O1.
  assert (TOT : zlen (unitRest u) = zlen (unitRest u)) by reflexivity. unfold unitRest in HB, TOT at 2. apply rd_u16 in HB as [E HB]; [|first [exact Hd|exact H'|unfold W16; lia]..]. rewrite E. cbn [bind].
  assert (OS : (0 < offSize u <= 8)%nat) by (unfold offSize; destruct (suLong u); lia).
  assert (DL : suVersion u <=? 2 = false -> (if suLong u then 8 else 4) = Z.of_nat (offSize u)) by (unfold offSize; destruct (suLong u); reflexivity).
  rewrite !zlen_app, leBytes_len in TOT. change (Z.of_nat 2) with 2 in TOT.
  destruct (suVersion u >=? 5) eqn:V5.
  - replace (suVersion u <=? 2) with false by lia. rewrite (DL ltac:(lia)). cbn [app] in HB. apply rd_u8 in HB as [E2 HB]; [|exact H']. rewrite E2. cbn [bind]. clear E E2 G.
    rewrite <- !app_assoc in HB. cbn [app] in HB. rewrite !zlen_app in TOT. change (zlen [kindCode (suKind u); suAddrLen u]) with 2 in TOT. rewrite leBytes_len in TOT.
    assert (COM : forall rest, at_ data (o1 + 2 + 1) (suAddrLen u :: leBytes (offSize u) (suAbbrev u) ++ rest) ->
              getu8 data (o1 + 2 + 1) = Ok (suAddrLen u, o1 + 4) /\ getuint data (o1 + 4) (Z.of_nat (offSize u)) = Ok (suAbbrev u, o1 + 4 + Z.of_nat (offSize u)) /\ at_ data (o1 + 4 + Z.of_nat (offSize u)) rest).
    { intros rest HC. apply rd_u8 in HC as [E3 HC]; [|exact H']. replace (o1 + 2 + 1 + 1) with (o1 + 4) in * by lia. split; [exact E3|]. apply rd_uint in HC as [E4 HC]; [|exact Hd|exact H'|exact OS|exact AB]. split; [exact E4|exact HC]. }
    destruct (COM _ HB) as (E3 & E4 & HC). clear COM HB. unfold kindBytes in HC, TOT. destruct (suKind u) as [| |i|i|sg to|sg to] eqn:EK; cbn [kindCode]; try contradiction.
    + change (1 =? 1) with true. cbn [orb]. rewrite E3. cbn [bind]. rewrite E4. cbn [bind]. cbn [app] in HC. change (zlen (@nil Z)) with 0 in TOT. eexists. split; [reflexivity|]. unfold isUnit. cbn [uhOff uhEnd uhVersion uhType uhAddrLen uhAbbrev uhRoot uhLength uhId fst snd].
      do 3 (split; [reflexivity|]). split; [now rewrite EK|]. do 2 (split; [reflexivity|]). split; [exact (proj2 HC)|]. rewrite EK. fin.
    + change (3 =? 1) with false. change (3 =? 2) with false. change (3 =? 3) with true. cbn [orb]. rewrite E3. cbn [bind]. rewrite E4. cbn [bind]. cbn [app] in HC. change (zlen (@nil Z)) with 0 in TOT. eexists. split; [reflexivity|]. unfold isUnit. cbn [uhOff uhEnd uhVersion uhType uhAddrLen uhAbbrev uhRoot uhLength uhId fst snd].
      do 3 (split; [reflexivity|]). split; [now rewrite EK|]. do 2 (split; [reflexivity|]). split; [exact (proj2 HC)|]. rewrite EK. fin.
    + destruct K as [_ KI]. change (4 =? 1) with false. change (4 =? 2) with false. change (4 =? 3) with false. change (4 =? 4) with true. cbn [orb]. rewrite E3. cbn [bind]. rewrite E4. cbn [bind].
      pose proof HC as E5. apply at_app in E5 as [E5 _]. apply (fun x => secBytes_at _ _ _ 8 x (leBytes_len 8 i) ltac:(lia) H') in E5. rewrite E5. cbn [bind]. apply at_app in HC as [_ HC]. rewrite leBytes_len in HC. change (Z.of_nat 8) with 8 in *. rewrite leBytes_len in TOT. eexists. split; [reflexivity|]. unfold isUnit. cbn [uhOff uhEnd uhVersion uhType uhAddrLen uhAbbrev uhRoot uhLength uhId fst snd].
      do 3 (split; [reflexivity|]). split; [now rewrite EK|]. do 2 (split; [reflexivity|]). split; [exact (proj2 HC)|]. rewrite EK. fin.
    + destruct K as [_ KI]. change (5 =? 1) with false. change (5 =? 2) with false. change (5 =? 3) with false. change (5 =? 4) with false. change (5 =? 5) with true. cbn [orb]. rewrite E3. cbn [bind]. rewrite E4. cbn [bind].
      pose proof HC as E5. apply at_app in E5 as [E5 _]. apply (fun x => secBytes_at _ _ _ 8 x (leBytes_len 8 i) ltac:(lia) H') in E5. rewrite E5. cbn [bind]. apply at_app in HC as [_ HC]. rewrite leBytes_len in HC. change (Z.of_nat 8) with 8 in *. rewrite leBytes_len in TOT. eexists. split; [reflexivity|]. unfold isUnit. cbn [uhOff uhEnd uhVersion uhType uhAddrLen uhAbbrev uhRoot uhLength uhId fst snd].
      do 3 (split; [reflexivity|]). split; [now rewrite EK|]. do 2 (split; [reflexivity|]). split; [exact (proj2 HC)|]. rewrite EK. fin.
  - assert (SZ : (if suVersion u <=? 2 then 4 else if suVersion u <=? 2 then 8 else if suLong u then 8 else 4) = Z.of_nat (offSize u)).
    { destruct (suVersion u <=? 2) eqn:E2; [unfold offSize; rewrite V2 by lia; reflexivity|now apply DL]. }
    cbv zeta. rewrite SZ. rewrite <- !app_assoc in HB. apply rd_uint in HB as [E3 HB]; [|exact Hd|exact H'|exact OS|exact AB]. rewrite E3. cbn [bind]. cbn [app] in HB. apply rd_u8 in HB as [E4 HB]; [|exact H']. rewrite E4. cbn [bind].
    assert (EK : suKind u = UCompile) by (destruct (suKind u); try contradiction; [reflexivity|lia|lia|lia]).
    eexists. split; [reflexivity|]. unfold isUnit. cbn [uhOff uhEnd uhVersion uhType uhAddrLen uhAbbrev uhRoot uhLength uhId fst snd]. rewrite EK. do 6 (split; [reflexivity|]). split; [exact (proj2 HB)|].
    rewrite !zlen_app, leBytes_len in TOT. change (zlen [suAddrLen u]) with 1 in TOT. fin.
Qed.
End R.

(** ** The sections *)
Section H.
Context (us : list sunit) (Hus : Forall suOk us) (Hne : us <> []) (Hw : zlen (sectionOf us) < 2 ^ 63).
Notation data := (sectionOf us).
Lemma data_bytes : Forall isByte data.
Proof. clear Hw Hne. unfold sectionOf. induction Hus as [|u l OK F IH]; [constructor|]. cbn [flat_map]. apply Forall_app. split; [apply OK|exact (IH F)]. Qed.
Lemma starts_app : forall l1 l2 off, starts off (l1 ++ l2) = starts off l1 ++ starts (off + zlen (sectionOf l1)) l2.
Proof. unfold sectionOf. induction l1 as [|u l IH]; intros l2 off; [cbn; now rewrite Z.add_0_r|]. cbn [app starts flat_map]. rewrite IH, zlen_app. do 3 f_equal. lia. Qed.
Lemma unit_len u : 4 <= zlen (unitBytes u).
Proof. rewrite unitBytes_len. pose proof (zlen_nonneg (unitRest u)). destruct (suLong u); lia. Qed.
Lemma section_app l1 l2 : sectionOf (l1 ++ l2) = sectionOf l1 ++ sectionOf l2.
Proof. apply flat_map_app. Qed.
Lemma in_starts : forall l off x, In x (starts off l) -> exists l1 l2, l = l1 ++ snd x :: l2 /\ fst x = off + zlen (sectionOf l1).
Proof.
  induction l as [|u l IH]; intros off x I; [destruct I|]. cbn [starts] in I. destruct I as [<-|I].
  - exists [], l. split; [reflexivity|]. cbn. lia.
  - destruct (IH _ _ I) as (l1 & l2 & -> & E). exists (u :: l1), l2. split; [reflexivity|]. rewrite E. unfold sectionOf. cbn [flat_map]. rewrite zlen_app. lia.
Qed.
Lemma starts_in l1 u l2 off : In (off + zlen (sectionOf l1), u) (starts off (l1 ++ u :: l2)).
Proof. rewrite starts_app. apply in_or_app. right. now left. Qed.
Lemma at_unit l1 u l2 : us = l1 ++ u :: l2 -> at_ data (zlen (sectionOf l1)) (unitBytes u).
Proof. intros E. split; [apply zlen_nonneg|]. exists (sectionOf l2). rewrite E, section_app. rewrite zdrop_app_zlen. reflexivity. Qed.
Lemma readUnit_at l1 u l2 : us = l1 ++ u :: l2 -> exists h, readUnit data (zlen (sectionOf l1)) = Ok h /\ isUnit data h (zlen (sectionOf l1), u).
Proof. intros E. apply readUnit_spec; [apply data_bytes|exact Hw| |now apply (at_unit l1 u l2)]. rewrite Forall_forall in Hus. apply Hus. rewrite E. apply in_elt. Qed.

(** the map holds units only *)
Definition UInv (m : umap) : Prop := forall o x, In (o, x) m -> exists h u, x = Some h /\ In (o, u) (starts 0 us) /\ isUnit data h (o, u).
Lemma uFind_in o m x : uFind o m = Some x -> In (o, x) m.
Proof. unfold uFind. destruct (find _ m) as [[k y]|] eqn:E; [|discriminate]. intros X. injection X as <-. apply find_some in E as [I Q]. cbn [fst] in Q. apply Z.eqb_eq in Q as ->. exact I. Qed.
Lemma uSet_in o x m e : In e (uSet o x m) -> e = (o, x) \/ In e m.
Proof. induction m as [|y m IH]; cbn [uSet]; intros I; [destruct I as [<-|[]]; now left|]. destruct (fst y =? o); destruct I as [<-|I]; [now left|right; now right|right; now left|]. destruct (IH I) as [->|J]; [now left|right; now right]. Qed.
Lemma starts_fun : forall l off o u u', In (o, u) (starts off l) -> In (o, u') (starts off l) -> u = u'.
Proof.
  assert (LB : forall l off x, In x (starts off l) -> off <= fst x) by (intros l off x I; destruct (in_starts l off x I) as (l1 & _ & _ & ->); pose proof (zlen_nonneg (sectionOf l1)); lia).
  induction l as [|w l IH]; intros off o u u' I J; [destruct I|]. cbn [starts In] in *. pose proof (unit_len w) as U. destruct I as [I|I], J as [J|J].
  - congruence.
  - apply LB in J. injection I as <- <-. cbn [fst] in J. lia.
  - apply LB in I. injection J as <- <-. cbn [fst] in I. lia.
  - exact (IH _ _ _ _ I J).
Qed.
Lemma getUnit_spec m l1 u l2 : UInv m -> us = l1 ++ u :: l2 -> exists m' h, getUnit data m (zlen (sectionOf l1)) = (m', Ok h) /\ UInv m' /\ isUnit data h (zlen (sectionOf l1), u).
Proof.
  intros UI E. set (o := zlen (sectionOf l1)). assert (IS : In (o, u) (starts 0 us)) by (rewrite E; exact (starts_in l1 u l2 0)). unfold getUnit. destruct (readUnit_at l1 u l2 E) as (h & R & Q). fold o in R, Q.
  destruct (uFind o m) as [[h'|]|] eqn:F.
  - apply uFind_in in F. destruct (UI _ _ F) as (h2 & u2 & X & I2 & Q2). injection X as <-. exists m, h'. split; [reflexivity|]. split; [exact UI|]. now rewrite (starts_fun _ _ _ _ _ IS I2).
  - apply uFind_in in F. destruct (UI _ _ F) as (h2 & u2 & X & _). discriminate.
  - rewrite R. eexists _, h. split; [reflexivity|]. split; [|exact Q]. intros o' x I. apply uSet_in in I as [I|I]; [injection I as -> ->; exists h, u; now split|now apply UI].
Qed.
Lemma end_of l1 u : zlen (sectionOf (l1 ++ [u])) = zlen (sectionOf l1) + zlen (unitBytes u).
Proof. rewrite section_app, zlen_app. unfold sectionOf at 2. cbn [flat_map]. rewrite app_nil_r. reflexivity. Qed.
Lemma last_end l1 u l2 : us = l1 ++ u :: l2 -> (zlen (sectionOf l1) + zlen (unitBytes u) = zlen data <-> l2 = []).
Proof.
  intros E. rewrite E, section_app, zlen_app. change (sectionOf (u :: l2)) with (unitBytes u ++ sectionOf l2). rewrite zlen_app. split; [|intros ->; cbn; lia]. intros X. destruct l2 as [|w l2]; [reflexivity|]. change (sectionOf (w :: l2)) with (unitBytes w ++ sectionOf l2) in X. rewrite zlen_app in X. pose proof (unit_len w). pose proof (zlen_nonneg (sectionOf l2)). lia.
Qed.
Lemma unitsFrom_spec fuel : forall l2 u l1 m, UInv m -> us = l1 ++ u :: l2 -> (length l2 < fuel)%nat ->
  exists m' l, unitsFrom data fuel m (zlen (sectionOf l1)) = (m', Ok l) /\ UInv m' /\ Forall2 (isUnit data) l (starts (zlen (sectionOf l1)) (u :: l2)).
Proof.
  induction fuel as [|f IH]; intros l2 u l1 m UI E Hf; [lia|]. cbn [unitsFrom]. destruct (getUnit_spec m l1 u l2 UI E) as (m1 & h & G & UI1 & Q). rewrite G. pose proof Q as (_ & QE & _). cbn [fst snd] in QE. rewrite QE. pose proof (last_end l1 u l2 E) as LE. destruct l2 as [|w l2].
  - replace (zlen (sectionOf l1) + zlen (unitBytes u) =? zlen data) with true by (symmetry; apply Z.eqb_eq; now apply LE). exists m1, [h]. split; [reflexivity|]. split; [exact UI1|]. constructor; [exact Q|constructor].
  - replace (zlen (sectionOf l1) + zlen (unitBytes u) =? zlen data) with false by (symmetry; apply Z.eqb_neq; intros X; apply LE in X; discriminate).
    destruct (IH l2 w (l1 ++ [u]) m1 UI1) as (m2 & l & G2 & UI2 & F2); [rewrite <- app_assoc; exact E|cbn in Hf; lia|]. rewrite end_of in *. rewrite G2. exists m2, (h :: l). split; [reflexivity|]. split; [exact UI2|]. constructor; [exact Q|exact F2].
Qed.
Context (entry : unitH -> Z -> res bool).
Lemma dieLoop_spec fuel off : forall l2 u l1 m, UInv m -> us = l1 ++ u :: l2 -> (length l2 < fuel)%nat -> zlen (sectionOf l1) <= off ->
  exists m' r, dieLoop data entry fuel m (zlen (sectionOf l1)) off = (m', r) /\ UInv m' /\ rightU data entry us (UDie off) (RUnit r).
Proof.
  induction fuel as [|f IH]; intros l2 u l1 m UI E Hf HO; [lia|]. cbn [dieLoop]. destruct (getUnit_spec m l1 u l2 UI E) as (m1 & h & G & UI1 & Q). rewrite G. pose proof Q as (QO & QE & _). cbn [fst snd] in QE, QO. rewrite QE, QO. pose proof (last_end l1 u l2 E) as LE.
  destruct (zlen (sectionOf l1) + zlen (unitBytes u) >? off) eqn:C.
  - replace (zlen (sectionOf l1) <=? off) with true by lia. eexists _, _. split; [reflexivity|]. split; [exact UI1|]. cbn [rightU]. right. exists (zlen (sectionOf l1), u), h. split; [rewrite E; exact (starts_in l1 u l2 0)|]. split; [exact Q|]. cbn [fst snd]. split; [lia|]. destruct (entry h off) as [[|]| | |]; reflexivity.
  - destruct l2 as [|w l2].
    + pose proof (proj2 LE eq_refl) as LEq. replace (zlen (sectionOf l1) + zlen (unitBytes u) =? zlen data) with true by lia. eexists _, _. split; [reflexivity|]. split; [exact UI1|]. cbn [rightU]. left. split; [lia|reflexivity].
    + replace (zlen (sectionOf l1) + zlen (unitBytes u) =? zlen data) with false by (symmetry; apply Z.eqb_neq; intros X; apply LE in X; discriminate).
      destruct (IH l2 w (l1 ++ [u]) m1 UI1) as (m2 & r & G2 & UI2 & F2); [rewrite <- app_assoc; exact E|cbn in Hf; lia|rewrite end_of; lia|]. rewrite end_of in *. exists m2, r. split; [exact G2|]. split; [exact UI2|exact F2].
Qed.
Lemma lastKey_spec off m k : lastKey off m = Some k -> k <= off /\ exists x, In (k, x) m.
Proof.
  unfold lastKey. assert (G : forall l a, (forall j, a = Some j -> j <= off /\ exists x, In (j, x) m) -> (forall e, In e l -> In e m) ->
    fold_left (fun a e => if fst e <=? off then match a with Some k => Some (Z.max k (fst e)) | None => Some (fst e) end else a) l a = Some k -> k <= off /\ exists x, In (k, x) m).
  { induction l as [|[j x] l IH]; intros a Ha S E; cbn [fold_left fst] in E; [now apply Ha|]. assert (S' : forall e, In e l -> In e m) by (intros e I; apply S; now right). pose proof (S _ (or_introl eq_refl)) as I0. destruct (j <=? off) eqn:C; [|exact (IH a Ha S' E)].
    refine (IH _ _ S' E). intros j' X. destruct a as [k0|]; injection X as <-; [|split; [lia|now exists x]]. destruct (Ha k0 eq_refl) as (L & y & I1). destruct (Z.max_spec k0 j) as [[_ ->]|[_ ->]]; [split; [lia|now exists x]|split; [exact L|now exists y]]. }
  apply G; [discriminate|auto].
Qed.
Lemma infoDie_spec fuel m off : UInv m -> 0 <= off -> (length us <= fuel)%nat -> exists m' r, infoDie data entry fuel m off = (m', r) /\ UInv m' /\ rightU data entry us (UDie off) (RUnit r).
Proof.
  intros UI HO Hf. unfold infoDie. destruct (lastKey off m) as [k|] eqn:E.
  - apply lastKey_spec in E as (L & x & I). destruct (UI _ _ I) as (h & u & _ & IS & _). destruct (in_starts _ _ _ IS) as (l1 & l2 & EU & EK). cbn [fst snd] in *. rewrite Z.add_0_l in EK. subst k. apply (dieLoop_spec fuel off l2 u l1 m UI EU); [|exact L]. rewrite EU, app_length in Hf. cbn [length] in Hf. lia.
  - destruct us as [|u l2] eqn:EU; [congruence|]. rewrite <- EU in *. apply (dieLoop_spec fuel off l2 u [] m UI EU); [|exact HO]. rewrite EU in Hf. cbn [length] in Hf. lia.
Qed.
Lemma ureplies_right fuel : (length us <= fuel)%nat -> forall ops m, UInv m -> Forall (askableU us) ops -> Forall2 (rightU data entry us) ops (ureplies data entry fuel m ops).
Proof.
  intros Hf. induction ops as [|o ops IH]; intros m UI F; [constructor|]. apply Forall_cons_iff in F as [A0 F]. destruct o as [a| |a]; cbn [ureplies askableU] in *.
  - apply in_map_iff in A0 as ((a' & u) & X & I). cbn [fst] in X. subst a'. destruct (in_starts _ _ _ I) as (l1 & l2 & EU & EK). cbn [fst snd] in *. rewrite Z.add_0_l in EK. subst a. destruct (getUnit_spec m l1 u l2 UI EU) as (m' & h & G & UI' & Q). rewrite G. constructor; [|now apply IH]. cbn [rightU]. exists u. split; assumption.
  - assert (G : exists m' l, unitsFrom data fuel m 0 = (m', Ok l) /\ UInv m' /\ Forall2 (isUnit data) l (starts 0 us)).
    { destruct us as [|u l2] eqn:EU; [congruence|]. rewrite <- EU in *. destruct (unitsFrom_spec fuel l2 u [] m UI EU) as (m' & l & G & UI' & F2); [rewrite EU in Hf; cbn [length] in Hf; lia|]. exists m', l. split; [exact G|]. split; [exact UI'|]. rewrite EU at 2. exact F2. }
    destruct G as (m' & l & G & UI' & F2). rewrite G. constructor; [exact F2|now apply IH].
  - destruct (infoDie_spec fuel m a UI A0 Hf) as (m' & r & G & UI' & Q). rewrite G. constructor; [exact Q|now apply IH].
Qed.
End H.
