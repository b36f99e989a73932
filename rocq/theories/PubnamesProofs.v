From Verif Require Import Base Leb LebSpec LebProofs DwarfReader DwarfReaderProofs ReaderSpec CfiSpec CfiProofs CfiProofs2 Cursor Pubnames PubnamesSpec.

Definition unitOf (len : Z) (u : sPubUnit) : pubUnit := mkPU len (spVersion u) (spInfoOffset u) (spInfoLength u) (spNames u).
Lemma leBytes_app_len n v l : zlen (leBytes n v ++ l) = Z.of_nat n + zlen l.
Proof. now rewrite zlen_app, leBytes_len. Qed.
Lemma body_len u : zlen (pubBody u) = 14 + zlen (flat_map encodeName (spNames u)).
Proof. unfold pubBody. rewrite !zlen_app, !leBytes_len. lia. Qed.
Lemma names_short ns : (length ns <= length (flat_map encodeName ns))%nat.
Proof. induction ns as [|n ns IH]; cbn [flat_map length]; [lia|]. unfold encodeName at 1. rewrite !app_length. cbn [length leBytes]. lia. Qed.
Section P.
Context (data : list Z) (Hd : Forall isByte data) (Hw : zlen data + 32 < W64).
Lemma loop_ok ns : forall fuel off next acc rest, Forall wfName ns -> (length ns < fuel)%nat ->
  at_ data off (flat_map encodeName ns ++ leBytes 4 0 ++ rest) -> off + zlen (flat_map encodeName ns) < next ->
  pubLoop fuel data off next acc = Ok (rev acc ++ ns, off + zlen (flat_map encodeName ns) + 4).
Proof.
  induction ns as [|[v s] ns IH]; intros fuel off next acc rest W F H N; (destruct fuel as [|f]; [cbn in F; lia|]); cbn [pubLoop flat_map].
  - cbn [flat_map] in *. change (zlen (@nil Z)) with 0 in *. replace (off <? next) with true by lia. cbn [app] in H.
    apply rd_u32 in H as [E H]; [|assumption|assumption|unfold W32; lia]. rewrite E. cbn [bind]. change (0 =? 0) with true. cbv iota.
    rewrite app_nil_r. now rewrite Z.add_0_r.
  - inversion W as [|? ? W1 W2]; subst. destruct W1 as [W1 W3]. cbn [fst snd] in *. cbn [flat_map] in H, N. unfold encodeName at 1 in H. unfold encodeName at 1 in N. cbn [fst snd] in H, N.
    rewrite !zlen_app, leBytes_len in N. pose proof (zlen_nonneg s). pose proof (zlen_nonneg (flat_map encodeName ns)). change (zlen [0]) with 1 in N.
    replace (off <? next) with true by lia.
    rewrite <- !app_assoc in H. apply rd_u32 in H as [E H]; [|assumption|assumption|lia]. rewrite E. cbn [bind]. replace (v =? 0) with false by lia.
    cbn [app] in H. apply rd_str in H as [E2 H]; [|assumption]. rewrite E2. rewrite (IH f _ next _ rest W2); [|cbn [length] in F; lia|exact H|lia].
    cbn [rev]. rewrite <- app_assoc. cbn [app]. unfold encodeName at 2. cbn [fst snd]. rewrite !zlen_app, leBytes_len. change (zlen [0]) with 1. do 2 f_equal. lia.
Qed.
Lemma unit_ok u fuel off rest : wfPub u -> zlen (pubBody u) < W16 -> (length (spNames u) < fuel)%nat -> at_ data off (encodePub u ++ rest) ->
  readPubUnit fuel data off = Ok (unitOf (zlen (pubBody u)) u, off + zlen (encodePub u)) /\ at_ data (off + zlen (encodePub u)) rest.
Proof.
  intros (W1 & W2 & W3 & W4 & W5) L F H. split; [|now apply at_app in H as [_ H]].
  pose proof (zlen_nonneg (pubBody u)). pose proof (zlen_nonneg (flat_map encodeName (spNames u))).
  unfold readPubUnit. unfold encodePub in H. rewrite <- app_assoc in H. apply rd_u32 in H as [E H]; [|assumption|assumption|unfold W32; lia]. rewrite E. cbn [bind].
  unfold u16. rewrite Z.mod_small by lia. cbv zeta. unfold pubBody in H. rewrite <- !app_assoc in H.
  apply rd_u16 in H as [E2 H]; [|assumption..]. rewrite E2. cbn [bind].
  apply rd_u32 in H as [E3 H]; [|assumption..]. rewrite E3. cbn [bind].
  apply rd_u32 in H as [E4 H]; [|assumption..]. rewrite E4. cbn [bind].
  rewrite (loop_ok _ _ _ _ [] rest W4 F H); [|rewrite body_len; lia]. cbn [bind rev app]. unfold unitOf, encodePub. rewrite leBytes_app_len, body_len. do 2 f_equal. lia.
Qed.
Lemma section_ok us : forall fuel off acc, Forall wfPub us -> Forall (fun u => zlen (pubBody u) < W16) us ->
  (length (flat_map encodePub us) < fuel)%nat -> at_ data off (flat_map encodePub us) -> zlen data = off + zlen (flat_map encodePub us) ->
  pubSection fuel data off acc = (acc ++ map (fun u => unitOf (zlen (pubBody u)) u) us, Ok tt).
Proof.
  induction us as [|u us IH]; intros fuel off acc W L F H Z0; (destruct fuel as [|f]; [lia|]); cbn [pubSection flat_map map] in *.
  - change (zlen (@nil Z)) with 0 in *. replace (off =? zlen data) with true by lia. now rewrite app_nil_r.
  - inversion W as [|? ? W1 W2]; subst. inversion L as [|? ? L1 L2]; subst. rewrite app_length in F. rewrite zlen_app in Z0.
    pose proof (zlen_nonneg (flat_map encodePub us)). assert (X : zlen (encodePub u) = 4 + zlen (pubBody u)) by (unfold encodePub; apply leBytes_app_len).
    pose proof (body_len u). pose proof (zlen_nonneg (flat_map encodeName (spNames u))). replace (off =? zlen data) with false by lia.
    pose proof (names_short (spNames u)) as Q. assert (Q2 : (length (flat_map encodeName (spNames u)) < S f)%nat) by (unfold zlen in *; lia).
    destruct (unit_ok u (S f) off (flat_map encodePub us) W1 L1 ltac:(lia) H) as [E H']. rewrite E.
    rewrite IH; [|assumption|assumption|unfold zlen in *; lia|exact H'|lia]. rewrite <- app_assoc. reflexivity.
Qed.
Lemma getu32_pos off : 0 <= off -> off + 8 < W64 -> (exists v, getu32 data off = Ok (v, off + 4) /\ off + 4 <= zlen data) \/ getu32 data off = Throw.
Proof.
  intros H H2. unfold getu32. rewrite secBytes_ok by lia. replace (4 =? 0) with false by lia. cbn [orb]. destruct (off + 4 <=? zlen data) eqn:X; [left|now right].
  cbn [bind]. eexists. split; [reflexivity|lia].
Qed.
Lemma getu16_pos off : 0 <= off -> off + 8 < W64 -> (exists v, getu16 data off = Ok (v, off + 2) /\ off + 2 <= zlen data) \/ getu16 data off = Throw.
Proof.
  intros H H2. unfold getu16. rewrite secBytes_ok by lia. replace (2 =? 0) with false by lia. cbn [orb]. destruct (off + 2 <=? zlen data) eqn:X; [left|now right].
  cbn [bind]. eexists. split; [reflexivity|lia].
Qed.
Lemma getstring_pos off : 0 <= off <= zlen data -> exists s o, getstring data off = (s, o) /\ off < o <= zlen data + 1.
Proof.
  intros H. unfold getstring. eexists _, _. split; [reflexivity|]. assert (X : forall l, zlen (untilNul l) <= zlen l).
  { induction l as [|c l IH]; cbn [untilNul]; [lia|]. destruct (c =? 0); [pose proof (zlen_nonneg (c :: l)); change (zlen (@nil Z)) with 0; lia|]. rewrite !zlen_cons. lia. }
  pose proof (X (zdrop off data)) as Q. rewrite zlen_zdrop in Q by lia. pose proof (zlen_nonneg (untilNul (zdrop off data))). lia.
Qed.
Lemma loop_total : forall fuel off next acc, 0 <= off <= zlen data + 1 -> zlen data + 1 - off < Z.of_nat fuel ->
  (exists l o, pubLoop fuel data off next acc = Ok (l, o) /\ off <= o <= zlen data + 1) \/ pubLoop fuel data off next acc = Throw.
Proof.
  induction fuel as [|f IH]; intros off next acc H F; [lia|]. cbn [pubLoop]. destruct (off <? next); [|left; eauto with zarith].
  destruct (getu32_pos off) as [(v & E & B)|E]; [lia|lia| |rewrite E; now right]. rewrite E. cbn [bind].
  destruct (v =? 0); [left; eauto with zarith|]. destruct (getstring_pos (off + 4)) as (s & o & G & B2); [lia|]. rewrite G.
  destruct (IH o next ((v, s) :: acc)) as [(l & o' & A & B3)|A]; [lia|lia| |now right]. left. exists l, o'. split; [exact A|lia].
Qed.
Lemma unit_total fuel off : 0 <= off <= zlen data + 1 -> zlen data + 1 - off < Z.of_nat fuel ->
  (exists u o, readPubUnit fuel data off = Ok (u, o) /\ off < o <= zlen data + 1) \/ readPubUnit fuel data off = Throw.
Proof.
  intros H F. unfold readPubUnit.
  destruct (getu32_pos off) as [(v & E & B)|E]; [lia|lia| |rewrite E; now right]. rewrite E. cbn [bind]. cbv zeta.
  destruct (getu16_pos (off + 4)) as [(v2 & E2 & B2)|E2]; [lia|lia| |rewrite E2; now right]. rewrite E2. cbn [bind].
  destruct (getu32_pos (off + 4 + 2)) as [(v3 & E3 & B3)|E3]; [lia|lia| |rewrite E3; now right]. rewrite E3. cbn [bind].
  destruct (getu32_pos (off + 4 + 2 + 4)) as [(v4 & E4 & B4)|E4]; [lia|lia| |rewrite E4; now right]. rewrite E4. cbn [bind].
  destruct (loop_total fuel (off + 4 + 2 + 4 + 4) (off + 4 + u16 v) []) as [(l & o & A & B5)|A]; [lia|lia| |rewrite A; now right]. rewrite A. left.
  eexists _, _. split; [reflexivity|lia].
Qed.
Lemma section_total : forall fuel off acc, 0 <= off <= zlen data + 1 -> zlen data + 2 - off < Z.of_nat fuel ->
  exists us r, pubSection fuel data off acc = (acc ++ us, r) /\ (r = Ok tt \/ r = Throw).
Proof.
  induction fuel as [|f IH]; intros off acc H F; [lia|]. cbn [pubSection]. destruct (off =? zlen data); [exists [], (Ok tt); rewrite app_nil_r; auto|].
  destruct (unit_total (S f) off) as [(u & o & E & B)|E]; [lia|lia| |rewrite E; exists [], Throw; rewrite app_nil_r; auto].
  rewrite E. destruct (IH o (acc ++ [u])) as (us & r & E2 & R); [lia|lia|]. rewrite E2, <- app_assoc. eexists _, _. split; [reflexivity|exact R].
Qed.
(** A unit whose length is a multiple of 65536 plus 10: no entry is read. *)
Lemma unit_truncated u fuel off rest : wfPub u -> zlen (pubBody u) mod W16 <= 10 -> (0 < fuel)%nat -> at_ data off (encodePub u ++ rest) ->
  readPubUnit fuel data off = Ok (mkPU (zlen (pubBody u) mod W16) (spVersion u) (spInfoOffset u) (spInfoLength u) [], off + 14).
Proof.
  intros (W1 & W2 & W3 & W4 & W5) L F H. pose proof (zlen_nonneg (pubBody u)). pose proof (zlen_nonneg (flat_map encodeName (spNames u))).
  unfold readPubUnit. unfold encodePub in H. rewrite <- app_assoc in H. apply rd_u32 in H as [E H]; [|assumption|assumption|unfold W32; lia]. rewrite E. cbn [bind].
  unfold u16. cbv zeta. unfold pubBody in H. rewrite <- !app_assoc in H.
  apply rd_u16 in H as [E2 H]; [|assumption..]. rewrite E2. cbn [bind].
  apply rd_u32 in H as [E3 H]; [|assumption..]. rewrite E3. cbn [bind].
  apply rd_u32 in H as [E4 H]; [|assumption..]. rewrite E4. cbn [bind]. destruct fuel as [|f]; [lia|]. cbn [pubLoop].
  replace (_ <? _) with false by lia. cbn [bind rev]. do 2 f_equal. lia.
Qed.
End P.
