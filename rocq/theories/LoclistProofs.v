From Verif Require Import Base Leb LebSpec LebProofs DwarfReader DwarfReaderProofs Cfi CfiSpec CfiProofs CfiProofs2 Loclist LoclistSpec.

(** the answer of the code designates the block the standard picks *)
Definition designates (data : list Z) (r : option (Z * Z)) (b : option (list Z)) : Prop :=
  match r, b with
  | None, None => True
  | Some (o, e), Some blk => at_ data o blk /\ e = o + zlen blk
  | _, _ => False
  end.

Lemma at_le data off l : at_ data off l -> zlen data < W64 -> off + zlen l <= zlen data \/ l = [].
Proof. intros H _. destruct l; [now right|left]. eapply at_len; [eassumption|discriminate]. Qed.

Lemma in_range base reloc bias s e ip pc :
  base = u64 (reloc + bias) -> 0 <= reloc + (bias + s) < 2 ^ 64 -> 0 <= reloc + (bias + e) < 2 ^ 64 -> ip = reloc + pc ->
  (u64 (base + s) <=? ip) && (ip <? u64 (base + e)) = (bias + s <=? pc) && (pc <? bias + e).
Proof.
  intros -> Hs He ->.
  assert (E : forall x, 0 <= reloc + (bias + x) < 2 ^ 64 -> u64 (u64 (reloc + bias) + x) = reloc + (bias + x)).
  { intros x Hx. unfold u64. change (2 ^ 64) with W64 in Hx. rewrite Zplus_mod_idemp_l.
    rewrite Z.mod_small by lia. lia. }
  rewrite (E s Hs), (E e He). lia.
Qed.

Lemma sel5_pick data asec reloc pc : Forall isByte data -> zlen data + 32 < W64 ->
  forall l base off fuel,
  Forall wfL l -> agrees base l -> noWrap reloc (bounded base l) ->
  at_ data off (encodeList l) -> (length l < fuel)%nat ->
  exists r, sel5 fuel data asec reloc (reloc + pc) (u64 (reloc + base)) off = Ok r /\ designates data r (pick pc (bounded base l)).
Proof.
  intros Hd Hw. assert (Hw' : zlen data < W64) by lia.
  induction l as [|x l IH]; intros base off fuel Hwf Hag Hnw Hat Hf; (destruct fuel as [|f]; [cbn in Hf; lia|]); cbn [sel5].
  - cbn in Hat. rewrite (getu8_at _ _ _ Hat Hw'). cbn. eauto.
  - cbn [encodeList flat_map] in Hat. unfold encodeList in Hat. cbn [flat_map] in Hat. rewrite <- app_assoc in Hat.
    apply at_app in Hat. destruct Hat as [Hx Hr]. fold (encodeList l) in Hr.
    inversion Hwf as [|? ? Hwx Hwl]; subst. cbn [length] in Hf.
    destruct x as [s e blk|a|s n blk|s e blk|blk]; cbn [agrees encodeL wfL bounded] in *; try contradiction.
    + destruct Hwx as (Hs & He & Hb). inversion Hnw as [|? ? Hn1 Hn2]; subst. cbn [fst snd] in Hn1.
      change (4 :: uleb s ++ uleb e ++ uleb (zlen blk) ++ blk) with ([4] ++ uleb s ++ uleb e ++ uleb (zlen blk) ++ blk) in *.
      rewrite !zlen_app in Hr.
      apply at_app in Hx as [H0 Hx]. apply at_app in Hx as [H1 Hx]. apply at_app in Hx as [H2 Hx]. apply at_app in Hx as [H3 H4].
      rewrite (getu8_at _ _ _ H0 Hw'). cbn [bind Z.eqb Pos.eqb]. change (zlen [4]) with 1 in *.
      rewrite (getuleb_at _ _ _ H1 Hs). cbn [bind]. rewrite (getuleb_at _ _ _ H2 He). cbn [bind].
      rewrite (getuleb_at _ _ _ H3 Hb). cbn [bind]. set (o4 := off + 1 + zlen (uleb s) + zlen (uleb e) + zlen (uleb (zlen blk))) in *.
      rewrite (in_range _ reloc base s e _ pc eq_refl) by (try reflexivity; apply Hn1).
      assert (Ho : u64 (o4 + zlen blk) = o4 + zlen blk).
      { apply u64_id. pose proof (proj1 H4). pose proof (zlen_nonneg blk).
        assert (Hr' : at_ data (o4 + zlen blk) (encodeList l)). { replace (o4 + zlen blk) with (off + (1 + (zlen (uleb s) + (zlen (uleb e) + (zlen (uleb (zlen blk)) + zlen blk))))) by (unfold o4; lia). exact Hr. }
        apply at_len in Hr'; [|unfold encodeList; destruct (flat_map encodeL l); discriminate].
        pose proof (zlen_nonneg (encodeList l)). unfold isU64. lia. }
      cbn [pick]. destruct ((base + s <=? pc) && (pc <? base + e)) eqn:E.
      * eexists. split; [reflexivity|]. cbn. split; [exact H4|exact Ho].
      * unfold skip. rewrite Ho. destruct (IH base (o4 + zlen blk) f) as (r & Er & Hd'); try assumption; [|lia|].
        { replace (o4 + zlen blk) with (off + (1 + (zlen (uleb s) + (zlen (uleb e) + (zlen (uleb (zlen blk)) + zlen blk))))) by (unfold o4; lia). exact Hr. }
        eauto.
    + change (6 :: leBytes 8 a) with ([6] ++ leBytes 8 a) in *. rewrite zlen_app in Hr. apply at_app in Hx as [H0 H1].
      rewrite (getu8_at _ _ _ H0 Hw'). cbn [bind Z.eqb Pos.eqb]. change (zlen [6]) with 1 in *.
      rewrite (getuint8_at data (off + 1) a) by assumption. cbn [bind].
      destruct (IH a (off + 1 + 8) f) as (r & Er & Hd'); try assumption; [|lia|eauto].
      rewrite leBytes_len in Hr. replace (off + 1 + 8) with (off + (1 + Z.of_nat 8)) by lia. exact Hr.
    + destruct Hwx as (Hs & Hn & Hsn & Hb). destruct Hag as [-> Hag]. inversion Hnw as [|? ? Hn1 Hn2]; subst. cbn [fst snd] in Hn1.
      change (8 :: leBytes 8 s ++ uleb n ++ uleb (zlen blk) ++ blk) with ([8] ++ leBytes 8 s ++ uleb n ++ uleb (zlen blk) ++ blk) in *.
      rewrite !zlen_app in Hr.
      apply at_app in Hx as [H0 Hx]. apply at_app in Hx as [H1 Hx]. apply at_app in Hx as [H2 Hx]. apply at_app in Hx as [H3 H4].
      rewrite (getu8_at _ _ _ H0 Hw'). cbn [bind Z.eqb Pos.eqb]. change (zlen [8]) with 1 in *.
      rewrite (getuint8_at data (off + 1) s) by assumption. cbn [bind].
      rewrite leBytes_len in *. change (Z.of_nat 8) with 8 in *.
      rewrite (getuleb_at _ _ _ H2 Hn). cbn [bind].
      rewrite (getuleb_at _ _ _ H3 Hb). cbn [bind]. set (o4 := off + 1 + 8 + zlen (uleb n) + zlen (uleb (zlen blk))) in *.
      rewrite (u64_id (s + n)) by exact Hsn.
      rewrite (in_range _ reloc 0 s (s + n) _ pc eq_refl) by (try reflexivity; apply Hn1).
      rewrite !Z.add_0_l.
      assert (Hr' : at_ data (o4 + zlen blk) (encodeList l)).
      { replace (o4 + zlen blk) with (off + (1 + (8 + (zlen (uleb n) + (zlen (uleb (zlen blk)) + zlen blk))))) by (unfold o4; lia). exact Hr. }
      assert (Ho : u64 (o4 + zlen blk) = o4 + zlen blk).
      { apply u64_id. pose proof (proj1 H4). pose proof (zlen_nonneg blk). pose proof Hr' as H7.
        apply at_len in H7; [|unfold encodeList; destruct (flat_map encodeL l); discriminate].
        pose proof (zlen_nonneg (encodeList l)). unfold isU64. lia. }
      cbn [pick]. destruct ((s <=? pc) && (pc <? s + n)) eqn:E.
      * eexists. split; [reflexivity|]. cbn. split; [exact H4|exact Ho].
      * unfold skip. rewrite Ho. destruct (IH 0 (o4 + zlen blk) f) as (r & Er & Hd'); try assumption; [lia|]. eauto.
Qed.

Lemma getint8_u64 data off v : Forall isByte data -> zlen data + 32 < W64 -> at_ data off (leBytes 8 v) -> 0 <= v < 2 ^ 64 ->
  exists w, getint data off 8 = Ok (w, off + 8) /\ u64 w = v.
Proof.
  intros Hd Hw Hat Hv.
  set (sv := if v <? 2 ^ 63 then v else v - 2 ^ 64).
  assert (E : v = sv mod 2 ^ 64).
  { unfold sv. change (2 ^ 63) with 9223372036854775808 in *. change (2 ^ 64) with 18446744073709551616 in *. destruct (v <? 9223372036854775808) eqn:?; lia. }
  exists sv. split; [|symmetry; exact E].
  apply (getint_at 8 data off sv Hd Hw); [lia| | |reflexivity].
  - change (256 ^ Z.of_nat 8) with (2 ^ 64). rewrite <- E. exact Hat.
  - change (256 ^ Z.of_nat 8 / 2) with 9223372036854775808. change (- 256 ^ Z.of_nat 8 / 2) with (-9223372036854775808).
    unfold sv. change (2 ^ 63) with 9223372036854775808 in *. change (2 ^ 64) with 18446744073709551616 in *. destruct (v <? 9223372036854775808) eqn:?; lia.
Qed.

Lemma getuint2_at data off v : Forall isByte data -> zlen data + 32 < W64 -> at_ data off (leBytes 2 v) -> 0 <= v < 2 ^ 16 ->
  getuint data off 2 = Ok (v, off + 2).
Proof. intros Hd Hw Hat Hv. apply (getuint_at 2 data off v); [assumption|assumption|lia|assumption|exact Hv]. Qed.

Lemma sel4_pick data reloc base pc : Forall isByte data -> zlen data + 32 < W64 ->
  forall l off fuel,
  Forall wfL4 l -> (forall a, ~ In (L4Base a) l) -> noWrap reloc (bounded4 base l) ->
  at_ data off (encodeList4 l) -> (length l < fuel)%nat ->
  exists r, sel4 fuel data (reloc + pc) (u64 (reloc + base)) off = Ok r /\ designates data r (pick pc (bounded4 base l)).
Proof.
  intros Hd Hw.
  induction l as [|x l IH]; intros off fuel Hwf Hnb Hnw Hat Hf; (destruct fuel as [|f]; [cbn in Hf; lia|]); cbn [sel4].
  - unfold encodeList4 in Hat. cbn [flat_map app] in Hat. apply at_app in Hat as [H1 H2]. rewrite leBytes_len in H2.
    destruct (getint8_u64 data off 0 Hd Hw H1 ltac:(lia)) as (w1 & -> & E1). cbn [bind].
    change (Z.of_nat 8) with 8 in H2.
    destruct (getint8_u64 data (off + 8) 0 Hd Hw H2 ltac:(lia)) as (w2 & -> & E2). cbn [bind].
    rewrite E1, E2. exists None. split; [reflexivity|exact I].
  - unfold encodeList4 in Hat. cbn [flat_map] in Hat. rewrite <- app_assoc in Hat.
    apply at_app in Hat. destruct Hat as [Hx Hr]. fold (encodeList4 l) in Hr.
    inversion Hwf as [|? ? Hwx Hwl]; subst. cbn [length] in Hf.
    destruct x as [s e blk|a]; [|exfalso; apply (Hnb a); now left].
    cbn [encodeL4 wfL4 bounded4] in *. destruct Hwx as (Hs & He & Hb & Hz & _).
    inversion Hnw as [|? ? Hn1 Hn2]; subst. cbn [fst snd] in Hn1.
    rewrite !zlen_app, !leBytes_len in Hr. change (Z.of_nat 8) with 8 in Hr. change (Z.of_nat 2) with 2 in Hr.
    apply at_app in Hx as [H1 Hx]. apply at_app in Hx as [H2 Hx]. apply at_app in Hx as [H3 H4].
    rewrite !leBytes_len in *. change (Z.of_nat 8) with 8 in *. change (Z.of_nat 2) with 2 in *.
    destruct (getint8_u64 data off s Hd Hw H1 Hs) as (w1 & -> & E1). cbn [bind].
    destruct (getint8_u64 data (off + 8) e Hd Hw H2 He) as (w2 & -> & E2). cbn [bind]. rewrite E1, E2.
    replace ((s =? 0) && (e =? 0)) with false by lia.
    pose proof (zlen_nonneg blk). rewrite (getuint2_at data _ (zlen blk)) by (try assumption; lia). cbn [bind].
    rewrite Z.geb_leb. rewrite (in_range _ reloc base s e _ pc eq_refl) by (try reflexivity; apply Hn1).
    set (o3 := off + 8 + 8 + 2) in *.
    assert (Hr' : at_ data (o3 + zlen blk) (encodeList4 l)).
    { replace (o3 + zlen blk) with (off + (8 + (8 + (2 + zlen blk)))) by (unfold o3; lia). exact Hr. }
    assert (Ho : u64 (o3 + zlen blk) = o3 + zlen blk).
    { apply u64_id. pose proof (proj1 H4). pose proof Hr' as H7.
      apply at_len in H7; [|unfold encodeList4; destruct (flat_map encodeL4 l); discriminate].
      pose proof (zlen_nonneg (encodeList4 l)). unfold isU64. lia. }
    change (2 ^ 16) with 65536 in Hb.
    rewrite (u32_id (zlen blk)) by (unfold isU32, W32; lia).
    cbn [pick]. destruct ((base + s <=? pc) && (pc <? base + e)) eqn:E.
    + eexists. split; [reflexivity|]. cbn. split; [exact H4|exact Ho].
    + unfold skip. rewrite Ho. destruct (IH (o3 + zlen blk) f) as (r & Er & Hd'); try assumption; [|lia|eauto].
      intros a Ha. apply (Hnb a). now right.
Qed.
