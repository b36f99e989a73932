From Coq Require Import Permutation.
From Verif Require Import Base Leb LebSpec LebProofs DwarfReader DwarfReaderProofs Cfi CfiSpec CfiProofs CfiProofs2 Cursor Frames FramesSpec.

Lemma lies_at data off l : lies data off l <-> at_ data off l.
Proof. reflexivity. Qed.
Lemma at_nil data off : 0 <= off -> at_ data off [].
Proof. intros H. split; [exact H|]. now exists (zdrop off data). Qed.

Section F.
Context (data : list Z) (eh : bool) (sa : Z).
Context (Hd : Forall isByte data) (Hw : zlen data < 2 ^ 63).
Lemma Hw' : zlen data + 32 < W64.
Proof. unfold W64. lia. Qed.
Notation H' := Hw'.

Lemma rd_enc off e (ind : bool) v rest sv : encOk e v -> at_ data off (fmtBytes (fst e) v ++ rest) ->
  decodeAddress data off (encCode e + (if ind then 128 else 0)) sa sv = Ok (target e (sa + off) sv v, ind, off + zlen (fmtBytes (fst e) v)) /\ at_ data (off + zlen (fmtBytes (fst e) v)) rest.
Proof.
  intros [NA R] H. apply at_app in H as [H1 H2]. split; [|exact H2]. destruct e as [f a]. unfold encCode, target. cbn [fst snd] in *. exact (decodeAddress_spec data off f v a ind sa sv Hd H' NA R H1).
Qed.
Lemma rd_enc0 off e v rest sv : encOk e v -> at_ data off (fmtBytes (fst e) v ++ rest) ->
  decodeAddress data off (encCode e) sa sv = Ok (target e (sa + off) sv v, false, off + zlen (fmtBytes (fst e) v)) /\ at_ data (off + zlen (fmtBytes (fst e) v)) rest.
Proof. intros E H. pose proof (rd_enc off e false v rest sv E H) as G. cbv iota in G. rewrite Z.add_0_r in G. exact G. Qed.

(** ** Augmentations *)
Definition encAfter (l : list aug) (e : efmt * eapp) : efmt * eapp := fold_left (fun e a => match a with AugR e' => e' | _ => e end) l e.
Definition lsdaAfter (l : list aug) (k : Z) : Z := fold_left (fun k a => match a with AugL k' => k' | _ => k end) l k.
Lemma augLoop_spec : forall l letters s e rest, Forall augOk l -> unknownText letters -> aEnc s = encCode e -> at_ data (aOff s) (flat_map augBytes l ++ rest) ->
  exists s', augLoop data sa (map augLetter l ++ letters) s = Ok s' /\ aEnc s' = encCode (encAfter l e) /\
    aSig s' = aSig s || existsb (fun a => match a with AugS => true | _ => false end) l /\ aLsda s' = lsdaAfter l (aLsda s) /\ aEnd s' = aEnd s /\ aOff s' = aOff s + zlen (flat_map augBytes l).
Proof.
  induction l as [|a l IH]; intros letters s e rest F U E HA; cbn [map app flat_map encAfter lsdaAfter fold_left existsb].
  - exists s. rewrite orb_false_r. change (zlen (@nil Z)) with 0. rewrite Z.add_0_r. split; [|repeat split; assumption]. destruct letters as [|b letters]; [reflexivity|]. destruct U as [UB NI]. apply Forall_cons_iff in UB as [UB _]. cbn [augLoop].
    assert (Q : forall k, In k [122; 80; 76; 82; 83] -> (b =? k) = false) by (intros k Hk; apply Z.eqb_neq; intros X; apply NI; now rewrite X).
    rewrite !Q by (cbn; tauto). replace (b =? 0) with false by lia. reflexivity.
  - apply Forall_cons_iff in F as [Fa F]. cbn [flat_map] in HA. rewrite <- app_assoc in HA. destruct a as [e'|c|pe ind v|]; cbn [augLetter augLoop Z.eqb Pos.eqb augBytes app] in *.
    + apply rd_u8 in HA as [R HA]; [|exact H']. rewrite R. cbn [bind]. destruct (IH letters (mkAug (encCode e') (aLsda s) (aSig s) (aEnd s) (aOff s + 1)) e' rest F U eq_refl HA) as (s' & E1 & E2 & E3 & EL & E4 & E5).
      exists s'. split; [exact E1|]. split; [exact E2|]. split; [exact E3|]. split; [exact EL|]. split; [exact E4|]. cbn [aOff] in E5. rewrite E5, zlen_cons. lia.
    + apply rd_u8 in HA as [R HA]; [|exact H']. rewrite R. cbn [bind]. destruct (IH letters (mkAug (aEnc s) c (aSig s) (aEnd s) (aOff s + 1)) e rest F U E HA) as (s' & E1 & E2 & E3 & EL & E4 & E5).
      exists s'. split; [exact E1|]. split; [exact E2|]. split; [exact E3|]. split; [exact EL|]. split; [exact E4|]. cbn [aOff] in E5. rewrite E5, zlen_cons. lia.
    + apply rd_u8 in HA as [R HA]; [|exact H']. rewrite R. cbn [bind]. apply rd_enc with (ind := ind) (sv := sa) in HA as [R2 HA]; [|exact Fa]. rewrite R2. cbn [bind].
      destruct (IH letters (mkAug (aEnc s) (aLsda s) (aSig s) (aEnd s) (aOff s + 1 + zlen (fmtBytes (fst pe) v))) e rest F U E HA) as (s' & E1 & E2 & E3 & EL & E4 & E5).
      exists s'. split; [exact E1|]. split; [exact E2|]. split; [exact E3|]. split; [exact EL|]. split; [exact E4|]. cbn [aOff] in E5. rewrite E5, zlen_cons, zlen_app. lia.
    + destruct (IH letters (mkAug (aEnc s) (aLsda s) true (aEnd s) (aOff s)) e rest F U E HA) as (s' & E1 & E2 & E3 & EL & E4 & E5).
      exists s'. split; [exact E1|]. split; [exact E2|]. split; [rewrite E3; cbn [aSig]; now rewrite orb_true_l, orb_true_r|]. split; [exact EL|]. split; [exact E4|exact E5].
Qed.

Lemma bytes_ne1 c : cieBytes eh c <> [].
Proof. unfold cieBytes. destruct (scBig c); discriminate. Qed.
Lemma lenBytes_len big n : zlen (lenBytes big n) = headLen big - Z.of_nat (idWidth big).
Proof. unfold lenBytes, headLen, idWidth. destruct big; [rewrite zlen_app|]; rewrite ?leBytes_len; reflexivity. Qed.
Lemma lenBytes_ge big n : 4 <= zlen (lenBytes big n).
Proof. rewrite lenBytes_len. destruct big; cbn; lia. Qed.
Lemma getlength_big off big n rest : (big = false -> n < 4294967280) -> n = zlen rest -> at_ data off (lenBytes big n ++ rest) ->
  getlength data off = Ok (n, Z.of_nat (idWidth big), off + (headLen big - Z.of_nat (idWidth big))) /\ at_ data (off + (headLen big - Z.of_nat (idWidth big))) rest.
Proof.
  intros Hn En HA. pose proof (zlen_nonneg rest) as N0. assert (AL : off + zlen (lenBytes big n ++ rest) <= zlen data) by (apply at_len; [exact HA|destruct big; discriminate]). rewrite zlen_app, lenBytes_len in AL. pose proof (proj1 HA) as HO.
  destruct (getlength_at data off big n rest Hd H') as [G HA2]; [destruct big; cbn [headLen idWidth] in AL; unfold W64; [lia|specialize (Hn eq_refl); lia]|exact HA|]. cbv zeta in G, HA2. destruct big; cbn in G, HA2 |- *; split; assumption.
Qed.
Lemma decodeHdr_cie off c : scOk eh c -> at_ data off (cieBytes eh c) ->
  decodeHdr data eh off = Ok (off + zlen (cieBytes eh c), W64 - 1, off + headLen (scBig c)) /\
  at_ data (off + headLen (scBig c)) ([scVersion c] ++ augText c ++ [0] ++ (if scVersion c >=? 4 then [8; 0] else []) ++ uleb (scCode c) ++ sleb (scData c) ++ [scRar c] ++ augData c ++ scInsns c).
Proof.
  intros (_ & _ & _ & _ & L & _) HA. pose proof (at_len _ _ _ HA) as AL. pose proof (zlen_nonneg (cieBody eh c)) as ZN. pose proof (proj1 HA) as HO. unfold decodeHdr.
  destruct (getlength_big off (scBig c) (zlen (cieBody eh c)) (cieBody eh c)) as [G HA2]; [intros Q; rewrite Q in L; exact L|reflexivity|exact HA|]. rewrite G. cbn [bind].
  assert (BL : 4 <= zlen (cieBody eh c)) by (unfold cieBody; rewrite zlen_app, leBytes_len; match goal with |- _ <= _ + ?x => pose proof (zlen_nonneg ltac:(match x with zlen ?y => exact y end)) end; destruct (scBig c); cbn [idWidth]; lia).
  replace (zlen (cieBody eh c) =? 0) with false by lia. unfold cieBody in HA2.
  destruct (rd_uint data Hd H' (idWidth (scBig c)) (off + (headLen (scBig c) - Z.of_nat (idWidth (scBig c)))) (if eh then 0 else if scBig c then 2 ^ 64 - 1 else 4294967295) _ ltac:(destruct (scBig c); cbn [idWidth]; lia) ltac:(destruct eh, (scBig c); cbn; lia) HA2) as [R HA3]. rewrite R. cbn [bind].
  assert (BN : cieBytes eh c <> []) by (intros X; apply (f_equal zlen) in X; unfold cieBytes in X; rewrite zlen_app in X; pose proof (lenBytes_ge (scBig c) (zlen (cieBody eh c))); change (zlen (@nil Z)) with 0 in X; lia). specialize (AL BN).
  assert (CB : zlen (cieBytes eh c) = headLen (scBig c) - Z.of_nat (idWidth (scBig c)) + zlen (cieBody eh c)) by (unfold cieBytes; rewrite zlen_app, lenBytes_len; reflexivity).
  assert (H8 : off + (headLen (scBig c) - Z.of_nat (idWidth (scBig c))) + Z.of_nat (idWidth (scBig c)) = off + headLen (scBig c)) by lia. rewrite H8 in *.
  split; [|exact HA3]. rewrite u64_id by (unfold isU64, W64; destruct (scBig c); cbn [headLen idWidth] in *; lia). rewrite CB, Z.add_assoc. do 3 f_equal. unfold isCIE. destruct eh; [reflexivity|]. destruct (scBig c); reflexivity.
Qed.
Lemma readCIE_spec off c : scOk eh c -> at_ data off (cieBytes eh c) -> exists c', readCIE data sa (off + headLen (scBig c)) (off + zlen (cieBytes eh c)) = Ok c' /\ isCie data c' c.
Proof.
  intros OK HA. destruct (decodeHdr_cie off c OK HA) as [_ HB]. destruct OK as (V & C & D & R & L & AU). unfold readCIE.
  assert (TXT : Forall (fun b => 0 < b < 256) (augText c)).
  { unfold augText. destruct (scAugs c) as [[[l letters] bs]|]; [|constructor]. constructor; [lia|]. apply Forall_app. split; [|apply AU]. apply Forall_forall. intros b Hb. apply in_map_iff in Hb as (a & <- & _). destruct a; cbn; lia. }
  cbn [app] in HB. apply rd_u8 in HB as [E HB]; [|exact H']. rewrite E. cbn [bind]. apply rd_str in HB as [E2 HB]; [|exact TXT]. rewrite E2. cbn [bind].
  set (o2 := off + headLen (scBig c) + 1 + zlen (augText c) + 1) in *.
  set (o3 := o2 + zlen (if scVersion c >=? 4 then [8; 0] else [])).
  assert (E3 : (if scVersion c >=? 4 then let* (_, o) := getu8 data o2 in let* (_, o') := getu8 data o in Ok o' else Ok o2) = Ok o3 /\ at_ data o3 (uleb (scCode c) ++ sleb (scData c) ++ [scRar c] ++ augData c ++ scInsns c)).
  { subst o3. destruct (scVersion c >=? 4); [|change (zlen (@nil Z)) with 0; rewrite Z.add_0_r; split; [reflexivity|exact HB]]. cbn [app] in HB. apply rd_u8 in HB as [E3 HB]; [|exact H']. rewrite E3. cbn [bind]. apply rd_u8 in HB as [E4 HB]; [|exact H']. rewrite E4. cbn [bind].
    change (zlen [8; 0]) with 2. replace (o2 + 1 + 1) with (o2 + 2) in * by lia. split; [reflexivity|exact HB]. }
  destruct E3 as (E3 & HB3). rewrite E3. cbn [bind]. clear HB. apply rd_uleb in HB3 as [E4 HB]; [|unfold W64; lia]. rewrite E4. cbn [bind]. apply rd_sleb in HB as [E5 HB]; [|lia]. rewrite E5. cbn [bind]. cbn [app] in HB. apply rd_u8 in HB as [E6 HB]; [|exact H']. rewrite E6. cbn [bind].
  set (o6 := o3 + zlen (uleb (scCode c)) + zlen (sleb (scData c)) + 1) in *. clear E E2 E3 E4 E5 E6.
  assert (END : o6 + zlen (augData c) + zlen (scInsns c) = off + zlen (cieBytes eh c)).
  { unfold cieBytes. rewrite zlen_app, lenBytes_len. unfold cieBody, o6, o3, o2. rewrite !zlen_app, !leBytes_len. change (zlen [scVersion c]) with 1. change (zlen [scRar c]) with 1. change (zlen [0]) with 1. lia. }
  pose proof (at_len _ _ _ HA (bytes_ne1 c)) as AL. pose proof (zlen_nonneg (scInsns c)) as ZI. pose proof (zlen_nonneg (augData c)) as ZA. assert (P6 : 0 <= o6) by (apply HB).
  pose proof (at_app _ _ _ _ HB) as [HBA HBI].
  assert (G : exists s, augLoop data sa (augText c) (mkAug 4 0 false o6 o6) = Ok s /\ aEnc s = encCode (scEnc c) /\ aSig s = scSignal c /\ aLsda s = scLsda c /\ (if aOff s =? aEnd s then aOff s else aEnd s) = o6 + zlen (augData c)).
  { unfold augText, scEnc, scSignal, scLsda, augData in *. destruct (scAugs c) as [[[l letters] bs]|].
    - cbv zeta in *. destruct AU as (F & U & NB). cbn [augLoop Z.eqb Pos.eqb]. rewrite <- app_assoc in HB. set (dd := flat_map augBytes l ++ bs) in *. pose proof (zlen_nonneg dd) as ZD. pose proof (zlen_nonneg (uleb (zlen dd))) as ZU. rewrite zlen_app in *.
      apply rd_uleb in HB as [R1 HB]; [|unfold W64; lia]. cbn [aOff]. rewrite R1. cbn [bind aEnc aLsda aSig]. unfold dd in HB. rewrite <- app_assoc in HB.
      destruct (augLoop_spec l letters (mkAug 4 0 false (u64 (zlen dd + (o6 + zlen (uleb (zlen dd))))) (o6 + zlen (uleb (zlen dd)))) (FUdata8, AAbs) (bs ++ scInsns c) F U eq_refl HB) as (s & E1 & E2 & E3 & EL & E4 & E5). cbn [aEnc aSig aEnd aOff aLsda] in *. exists s. split; [exact E1|]. split; [exact E2|]. split; [exact E3|]. split; [exact EL|].
      rewrite E4, u64_id by (unfold isU64, W64; lia). destruct (Z.eqb_spec (aOff s) (zlen dd + (o6 + zlen (uleb (zlen dd))))); lia.
    - eexists. split; [reflexivity|]. cbn [aEnc aSig aOff aEnd aLsda]. rewrite Z.eqb_refl. split; [reflexivity|]. split; [reflexivity|]. split; [reflexivity|]. change (zlen (@nil Z)) with 0. lia. }
  destruct G as (s & G1 & G2 & G3 & GL & G4). rewrite G1. cbn [bind]. eexists. split; [reflexivity|]. unfold isCie. cbn [cVersion cAug cEnc cCode cData cRar cSignal cLsda cInsns cEnd]. rewrite G4.
  do 2 (split; [reflexivity|]). split; [exact G2|]. split; [unfold u32, W32; apply Z.mod_small; lia|]. split; [unfold s32, sgn, W32; change (4294967296 / 2) with 2147483648; destruct (Z.ltb_spec (scData c mod 4294967296) 2147483648); lia|]. split; [reflexivity|]. split; [exact G3|]. split; [exact GL|]. split; [exact HBI|]. symmetry. exact END.
Qed.

(** ** FDEs *)
Lemma bytesLoop_spec : forall l off rest, at_ data off (l ++ rest) -> bytesLoop data (length l) off = Ok (l, off + zlen l) /\ at_ data (off + zlen l) rest.
Proof.
  induction l as [|b l IH]; intros off rest HA; cbn [bytesLoop length app] in *; [change (zlen (@nil Z)) with 0; rewrite Z.add_0_r; split; [reflexivity|exact HA]|].
  apply rd_u8 in HA as [E HA]; [|exact H']. rewrite E. cbn [bind]. destruct (IH _ _ HA) as [E2 HA2]. rewrite E2. cbn [bind]. rewrite zlen_cons. replace (off + (zlen l + 1)) with (off + 1 + zlen l) by lia. split; [reflexivity|exact HA2].
Qed.
Lemma fdeBody_len off c f : 4 <= zlen (fdeBody eh off c f).
Proof. unfold fdeBody. rewrite zlen_app, leBytes_len. match goal with |- _ <= _ + zlen ?y => pose proof (zlen_nonneg y) end. destruct (sfBig f); cbn [idWidth]; lia. Qed.
Lemma bytes_ne2 off c f : fdeBytes eh off c f <> [].
Proof. unfold fdeBytes. destruct (sfBig f); discriminate. Qed.
Lemma decodeHdr_fde off c f : 0 <= sfCie f < 2 ^ 63 -> sfOk eh off c f -> at_ data off (fdeBytes eh off c f) ->
  decodeHdr data eh off = Ok (off + zlen (fdeBytes eh off c f), sfCie f, off + headLen (sfBig f)) /\
  at_ data (off + headLen (sfBig f)) (fmtBytes (fst (scEnc c)) (sfLoc f) ++ fmtBytes (fst (scEnc c)) (sfRange f) ++ (if scHasZ c then uleb (zlen (sfAug f)) ++ sfAug f else []) ++ sfInsns f) /\
  sfCie f <> W64 - 1.
Proof.
  intros C0 (_ & _ & _ & L & _ & P) HA. pose proof (at_len _ _ _ HA (bytes_ne2 off c f)) as AL. pose proof (fdeBody_len off c f) as BL. pose proof (proj1 HA) as HO. unfold decodeHdr.
  destruct (getlength_big off (sfBig f) (zlen (fdeBody eh off c f)) (fdeBody eh off c f)) as [G HA2]; [intros Q; rewrite Q in L; exact L|reflexivity|exact HA|]. rewrite G. cbn [bind].
  replace (zlen (fdeBody eh off c f) =? 0) with false by lia. unfold fdeBody in HA2. set (id := if eh then off + 4 - sfCie f else sfCie f) in *.
  assert (ID : 0 <= id < 256 ^ Z.of_nat (idWidth (sfBig f)) /\ isCIE eh id = false).
  { unfold id, isCIE. destruct (sfBig f) eqn:B.
    - cbn [idWidth]. change (256 ^ Z.of_nat 8) with 18446744073709551616. subst eh. cbn [negb andb orb]. rewrite orb_false_r. split; [change (2 ^ 63) with 9223372036854775808 in C0; lia|]. apply Z.eqb_neq. exact P.
    - cbn [idWidth]. change (256 ^ Z.of_nat 4) with 4294967296. change (2 ^ 32) with 4294967296 in P. destruct eh; cbn [negb andb orb]; [split; lia|split; [lia|]]; rewrite orb_false_r; lia. }
  destruct (rd_uint data Hd H' (idWidth (sfBig f)) (off + (headLen (sfBig f) - Z.of_nat (idWidth (sfBig f)))) id _ ltac:(destruct (sfBig f); cbn [idWidth]; lia) (proj1 ID) HA2) as [R HA3]. rewrite R. cbn [bind].
  assert (CB : zlen (fdeBytes eh off c f) = headLen (sfBig f) - Z.of_nat (idWidth (sfBig f)) + zlen (fdeBody eh off c f)) by (unfold fdeBytes; rewrite zlen_app, lenBytes_len; reflexivity).
  assert (H8 : off + (headLen (sfBig f) - Z.of_nat (idWidth (sfBig f))) + Z.of_nat (idWidth (sfBig f)) = off + headLen (sfBig f)) by lia. rewrite H8 in *.
  split; [|split; [exact HA3|]].
  - rewrite (proj2 ID). cbn [negb]. rewrite u64_id by (unfold isU64, W64; destruct (sfBig f); cbn [headLen idWidth] in *; lia). rewrite CB, Z.add_assoc.
    unfold id. destruct eh; [|reflexivity]. destruct (sfBig f); [discriminate L|]. cbn [headLen idWidth]. change (8 - Z.of_nat 4) with 4. replace (off + 4 - (off + 4 - sfCie f)) with (sfCie f) by lia. rewrite (u64_id (sfCie f)) by (unfold isU64, W64; lia). reflexivity.
  - unfold W64. change (2 ^ 63) with 9223372036854775808 in C0. lia.
Qed.
Lemma readFDE_spec off c c' f : 0 <= sfCie f < 2 ^ 63 -> isCie data c' c -> sfOk eh off c f -> at_ data off (fdeBytes eh off c f) ->
  exists f', readFDE data sa c' (off + headLen (sfBig f)) (sfCie f) (off + zlen (fdeBytes eh off c f)) = Ok f' /\
    fLoc f' = fdeStart sa off c f /\ fRange f' = sfRange f /\ fAug f' = sfAug f /\ fCie f' = sfCie f /\ lies data (fInsns f') (sfInsns f) /\ fEnd f' = fInsns f' + zlen (sfInsns f) /\
    fInsns f' = off + headLen (sfBig f) + zlen (fmtBytes (fst (scEnc c)) (sfLoc f)) + zlen (fmtBytes (fst (scEnc c)) (sfRange f)) + zlen (if scHasZ c then uleb (zlen (sfAug f)) ++ sfAug f else []).
Proof.
  intros C0 (_ & A1 & A2 & _) OK HA. destruct (decodeHdr_fde off c f C0 OK HA) as (_ & HB & _). destruct OK as (E1 & E2 & R0 & L & NZ & P). pose proof (at_len _ _ _ HA (bytes_ne2 off c f)) as AL.
  unfold readFDE. rewrite A2. destruct (rd_enc0 (off + headLen (sfBig f)) (scEnc c) (sfLoc f) _ sa E1 HB) as [D1 HB1]. rewrite D1. cbn [bind]. clear D1 HB.
  assert (EL : Z.land (encCode (scEnc c)) 15 = encCode (fst (scEnc c), AAbs)).
  { destruct (enc_decompose (fst (scEnc c)) (snd (scEnc c)) false) as (X & _ & _). cbv zeta iota in X. rewrite Z.add_0_r in X. unfold encCode. cbn [fst snd appCode]. rewrite X. lia. }
  rewrite EL. destruct (rd_enc0 _ (fst (scEnc c), AAbs) (sfRange f) _ sa E2 HB1) as [D2 HB2]. cbn [fst] in *. rewrite D2. cbn [bind]. clear D2 HB1. unfold target at 2. cbn [snd]. rewrite Z.add_0_r.
  assert (RB : sfRange f mod 2 ^ 64 = sfRange f) by (apply Z.mod_small; split; [exact R0|]; destruct E2 as [N E2]; destruct (fst (scEnc c)); cbn [fmtRange] in E2; lia). rewrite RB.
  set (o2 := off + headLen (sfBig f) + zlen (fmtBytes (fst (scEnc c)) (sfLoc f)) + zlen (fmtBytes (fst (scEnc c)) (sfRange f))) in *.
  assert (ZZ : match cAug c' with z :: _ => if z =? 122 then let* (n, o) := getuleb data o2 in bytesLoop data (Z.to_nat n) o else Ok ([], o2) | [] => Ok ([], o2) end = Ok (sfAug f, o2 + zlen (if scHasZ c then uleb (zlen (sfAug f)) ++ sfAug f else []))
     /\ at_ data (o2 + zlen (if scHasZ c then uleb (zlen (sfAug f)) ++ sfAug f else [])) (sfInsns f)).
  { split; [|apply at_app in HB2 as [_ HB2]; exact HB2]. rewrite A1. unfold augText, scHasZ in *. destruct (scAugs c) as [[[l letters] bs]|]; [|rewrite NZ by reflexivity; change (zlen (@nil Z)) with 0; now rewrite Z.add_0_r].
    cbn [Z.eqb Pos.eqb]. rewrite <- app_assoc in HB2. pose proof (zlen_nonneg (sfAug f)) as ZA. assert (ZB : zlen (sfAug f) < W64).
    { pose proof (at_app _ _ _ _ HB2) as [_ X]. pose proof (at_app _ _ _ _ X) as [Y _]. destruct (sfAug f) as [|b r] eqn:Q; [change (zlen (@nil Z)) with 0; unfold W64; lia|]. pose proof (at_len _ _ _ Y ltac:(discriminate)). pose proof (proj1 Y). unfold W64. lia. }
    apply rd_uleb in HB2 as [D3 HB3]; [|lia]. rewrite D3. cbn [bind]. unfold zlen at 1. rewrite Nat2Z.id. destruct (bytesLoop_spec _ _ _ HB3) as [D4 _]. rewrite D4. rewrite zlen_app, Z.add_assoc. reflexivity. }
  destruct ZZ as [-> HB3]. cbn [bind]. eexists. split; [reflexivity|]. cbn [fLoc fRange fAug fCie fInsns fEnd]. do 4 (split; [reflexivity|]). split; [exact HB3|]. split; [|reflexivity].
  unfold fdeBytes. rewrite zlen_app, lenBytes_len. unfold fdeBody, o2. rewrite !zlen_app, !leBytes_len. lia.
Qed.

(** ** The section *)
Context (es : list (Z * entry)).
Definition placed (o : Z) (e : entry) : Prop := find (fun x => fst x =? o) es = Some (o, e) /\ entryOk eh es o e /\ at_ data o (entryBytes eh es o e).
Context (Hes : forall o e, In (o, e) es -> placed o e).
Definition CInv (cs : cies) : Prop := forall o c', cieFind o cs = Some c' -> exists c, cieOf es o = Some c /\ isCie data c' c.
Lemma cieOf_placed o c : cieOf es o = Some c -> placed o (ECie c).
Proof.
  unfold cieOf. destruct (find (fun x => fst x =? o) es) as [[o' [c'|f]]|] eqn:E; try discriminate. intros X. injection X as ->. pose proof (find_some _ _ E) as [I Q]. cbn [fst] in Q. apply Z.eqb_eq in Q as ->. now apply Hes.
Qed.
Lemma cieFind_snoc o cs o' c' : cieFind o (cs ++ [(o', c')]) = match cieFind o cs with Some c => Some c | None => if o' =? o then Some c' else None end.
Proof.
  unfold cieFind. induction cs as [|[a b] cs IH]; cbn [app find fst]; [destruct (o' =? o); reflexivity|]. destruct (a =? o); [reflexivity|exact IH].
Qed.
Lemma putEntry_cie fuel cs o c : placed o (ECie c) -> CInv cs ->
  exists cs', putEntry data eh sa (S fuel) cs o = (cs', Ok (PCie (o + zlen (cieBytes eh c)))) /\ CInv cs' /\ cieFind o cs' <> None /\ (forall o', cieFind o' cs <> None -> cieFind o' cs' <> None).
Proof.
  intros (FI & OK & HA) CI. cbn [entryOk entryBytes] in *. cbn [putEntry]. destruct (decodeHdr_cie o c OK HA) as [D _]. rewrite D. pose proof (at_len _ _ _ HA (bytes_ne1 c)) as AL. pose proof (proj1 HA) as HO.
  assert (LB : 4 <= zlen (cieBytes eh c)) by (unfold cieBytes; rewrite zlen_app; pose proof (lenBytes_ge (scBig c) (zlen (cieBody eh c))); pose proof (zlen_nonneg (cieBody eh c)); lia).
  replace (o + zlen (cieBytes eh c) =? 0) with false by lia. rewrite Z.eqb_refl. destruct (readCIE_spec o c OK HA) as (c' & R & IC). rewrite R. destruct (cieFind o cs) as [c0|] eqn:CF.
  - exists cs. split; [reflexivity|]. split; [exact CI|]. split; [congruence|]. intros o' X. exact X.
  - exists (cs ++ [(o, c')]). split; [reflexivity|]. split; [|split].
    + intros o1 c1 X. rewrite cieFind_snoc in X. destruct (cieFind o1 cs) as [c2|] eqn:E; [injection X as <-; now apply CI|]. destruct (Z.eqb_spec o o1) as [<-|]; [|discriminate]. injection X as <-. exists c. split; [|exact IC]. unfold cieOf. now rewrite FI.
    + rewrite cieFind_snoc, CF, Z.eqb_refl. discriminate.
    + intros o' X. rewrite cieFind_snoc. destruct (cieFind o' cs); congruence.
Qed.
Lemma putEntry_fde fuel cs o f : placed o (EFde f) -> CInv cs ->
  exists cs' f', putEntry data eh sa (S (S fuel)) cs o = (cs', Ok (PFde f' (o + zlen (entryBytes eh es o (EFde f))))) /\ CInv cs' /\ isFde data sa es f' (o, f) /\ (forall o', cieFind o' cs <> None -> cieFind o' cs' <> None).
Proof.
  intros (FI & (c & CO & OK) & HA) CI. cbn [entryBytes] in *. rewrite CO in *. pose proof (cieOf_placed _ _ CO) as PC. assert (C0 : 0 <= sfCie f < 2 ^ 63) by (destruct PC as (_ & _ & X); cbn [entryBytes] in X; pose proof (at_len _ _ _ X (bytes_ne1 c)); pose proof (zlen_nonneg (cieBytes eh c)); pose proof (proj1 X); lia).
  remember (S fuel) as fl eqn:EF. cbn [putEntry]. destruct (decodeHdr_fde o c f C0 OK HA) as (D & _ & NW). rewrite D. pose proof (at_len _ _ _ HA (bytes_ne2 o c f)) as AL. pose proof (proj1 HA) as HO.
  assert (LB : 4 <= zlen (fdeBytes eh o c f)) by (unfold fdeBytes; rewrite zlen_app; pose proof (lenBytes_ge (sfBig f) (zlen (fdeBody eh o c f))); pose proof (zlen_nonneg (fdeBody eh o c f)); lia).
  replace (o + zlen (fdeBytes eh o c f) =? 0) with false by lia. replace (sfCie f =? W64 - 1) with false by lia.
  assert (G : forall cs1 c', cieFind (sfCie f) cs1 = Some c' -> CInv cs1 -> exists f', readFDE data sa c' (o + headLen (sfBig f)) (sfCie f) (o + zlen (fdeBytes eh o c f)) = Ok f' /\ isFde data sa es f' (o, f)).
  { intros cs1 c' X CI1. destruct (CI1 _ _ X) as (c1 & CO1 & IC). rewrite CO in CO1. injection CO1 as <-. destruct (readFDE_spec o c c' f C0 IC OK HA) as (f' & R & Q). exists f'. split; [exact R|]. exists c. split; [exact CO|]. exact Q. }
  destruct (cieFind (sfCie f) cs) as [c'|] eqn:CF.
  - rewrite CF. destruct (G cs c' CF CI) as (f' & R & Q). rewrite R. exists cs, f'. cbn [bind]. split; [reflexivity|]. split; [exact CI|]. split; [exact Q|]. intros o' X. exact X.
  - subst fl. destruct (putEntry_cie fuel cs (sfCie f) c PC CI) as (cs' & E & CI' & FN & MO). rewrite E. destruct (cieFind (sfCie f) cs') as [c'|] eqn:CF'; [|now elim FN]. destruct (G cs' c' CF' CI') as (f' & R & Q). rewrite R. exists cs', f'. cbn [bind].
    split; [reflexivity|]. split; [exact CI'|]. split; [exact Q|]. exact MO.
Qed.
Lemma allLoop_spec : forall l off cs fuel, layout eh es data off l -> (forall x, In x l -> In x es) -> 0 <= off <= zlen data -> CInv cs -> (S (length l) < fuel)%nat ->
  exists cs' fs, allLoop data eh sa fuel cs off = Ok (cs', fs) /\ Forall2 (isFde data sa es) fs (fdesOf l) /\ CInv cs' /\ (forall o, cieFind o cs <> None -> cieFind o cs' <> None) /\ (forall o c, In (o, ECie c) l -> cieFind o cs' <> None).
Proof.
  induction l as [|[o e] l IH]; intros off cs fuel LY SUB HO CI Hf; (destruct fuel as [|fl]; [lia|]); cbn [layout] in LY.
  - exists cs, []. split; [|split; [constructor|split; [exact CI|split; [intros o X; exact X|intros o c []]]]]. cbn [allLoop]. destruct (Z.eqb_spec off (zlen data)) as [|N]; [reflexivity|]. destruct LY as [X|[rest X]]; [contradiction|].
    assert (D : decodeHdr data eh off = Ok (0, 0, off + 4)).
    { unfold decodeHdr. destruct (getlength_at data off false 0 rest Hd H') as [G _]; [lia|split; [lia|]; exists []; rewrite app_nil_r; exact X|]. cbv zeta iota in G. rewrite G. reflexivity. }
    cbn [putEntry]. rewrite D. reflexivity.
  - destruct LY as (-> & [rest X] & LY). destruct fl as [|fl]; [cbn in Hf; lia|]. pose proof (Hes off e (SUB _ (or_introl eq_refl))) as PL.
    assert (NE : 4 <= zlen (entryBytes eh es off e)).
    { destruct PL as (_ & OK & _). destruct e as [c|f]; cbn [entryBytes entryOk] in *; [unfold cieBytes; rewrite zlen_app; pose proof (lenBytes_ge (scBig c) (zlen (cieBody eh c))); pose proof (zlen_nonneg (cieBody eh c)); lia|]. destruct OK as (c & -> & _). unfold fdeBytes. rewrite zlen_app. pose proof (lenBytes_ge (sfBig f) (zlen (fdeBody eh off c f))). pose proof (zlen_nonneg (fdeBody eh off c f)). lia. }
    assert (AL : off + zlen (entryBytes eh es off e) <= zlen data) by (apply at_len; [apply PL|intros Y; rewrite Y in NE; change (zlen (@nil Z)) with 0 in NE; lia]).
    remember (S fl) as f1 eqn:EF1. cbn [allLoop]. replace (off =? zlen data) with false by lia. subst f1. destruct e as [c|f].
    + destruct (putEntry_cie (S fl) cs off c PL CI) as (cs' & E & CI' & FN & MO). rewrite E. cbn [entryBytes] in *.
      destruct (IH (off + zlen (cieBytes eh c)) cs' (S fl) LY (fun x Hx => SUB x (or_intror Hx)) ltac:(lia) CI' ltac:(cbn in Hf; lia)) as (cs2 & fs & E2 & F2 & CI2 & MO2 & AL2). exists cs2, fs. split; [exact E2|]. split; [exact F2|]. split; [exact CI2|]. split; [intros o Ho; apply MO2, MO, Ho|].
      intros o c0 [Y|Y]; [injection Y as <- _; now apply MO2|now apply (AL2 o c0)].
    + destruct (putEntry_fde fl cs off f PL CI) as (cs' & f' & E & CI' & Q & MO). rewrite E.
      destruct (IH _ cs' (S fl) LY (fun x Hx => SUB x (or_intror Hx)) ltac:(lia) CI' ltac:(cbn in Hf; lia)) as (cs2 & fs & E2 & F2 & CI2 & MO2 & AL2). rewrite E2. exists cs2, (f' :: fs). cbn [bind]. split; [reflexivity|]. split; [constructor; assumption|]. split; [exact CI2|]. split; [intros o Ho; apply MO2, MO, Ho|].
      intros o c0 [Y|Y]; [discriminate Y|now apply (AL2 o c0)].
Qed.
End F.
