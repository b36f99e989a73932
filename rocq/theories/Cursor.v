(** Cursor lemmas: each reader consumes exactly the encoding of a value and leaves the rest. *)
From Verif Require Import Base Leb LebSpec LebProofs DwarfReader DwarfReaderProofs ReaderSpec Cfi CfiSpec CfiProofs CfiProofs2.

Section Cursor.
Context (data : list Z) (Hd : Forall isByte data) (Hw : zlen data + 32 < W64).

Lemma rd_u8 off b rest : at_ data off (b :: rest) -> getu8 data off = Ok (b, off + 1) /\ at_ data (off + 1) rest.
Proof.
  intros H. change (b :: rest) with ([b] ++ rest) in H. apply at_app in H as [H1 H2]. split; [|exact H2].
  apply getu8_at; [exact H1|lia].
Qed.
Lemma rd_byte off b rest : at_ data off (b :: rest) -> isByte b.
Proof. intros H. apply at_cons in H as [H _]. rewrite Forall_forall in Hd. apply Hd.
  pose proof (znth_some _ _ _ H). rewrite znth_nth_error in H by lia. eapply nth_error_In; exact H. Qed.
Lemma rd_s8 off v rest : -128 <= v < 128 -> at_ data off (v mod 256 :: rest) -> gets8 data off = Ok (v, off + 1) /\ at_ data (off + 1) rest.
Proof.
  intros Hv H. apply rd_u8 in H as [H1 H2]. split; [|exact H2]. unfold getu8 in H1. unfold gets8.
  destruct (secBytes data off 1) as [q| | |]; cbn [bind] in *; try discriminate. inversion H1 as [E]. rewrite E.
  unfold s8, sgn, W8. rewrite Z.mod_mod by lia. change (256 / 2) with 128. do 2 f_equal. destruct (v mod 256 <? 128) eqn:?; lia.
Qed.
Lemma rd_u16 off v rest : 0 <= v < W16 -> at_ data off (leBytes 2 v ++ rest) -> getu16 data off = Ok (v, off + 2) /\ at_ data (off + 2) rest.
Proof. intros Hv H. apply at_app in H as [H1 H2]. rewrite leBytes_len in H2. split; [now apply getu16_at|exact H2]. Qed.
Lemma rd_u32 off v rest : 0 <= v < W32 -> at_ data off (leBytes 4 v ++ rest) -> getu32 data off = Ok (v, off + 4) /\ at_ data (off + 4) rest.
Proof. intros Hv H. apply at_app in H as [H1 H2]. rewrite leBytes_len in H2. split; [now apply getu32_at|exact H2]. Qed.
Lemma rd_uint n off v rest : (0 < n <= 8)%nat -> 0 <= v < 256 ^ Z.of_nat n -> at_ data off (leBytes n v ++ rest) ->
  getuint data off (Z.of_nat n) = Ok (v, off + Z.of_nat n) /\ at_ data (off + Z.of_nat n) rest.
Proof. intros Hn Hv H. apply at_app in H as [H1 H2]. rewrite leBytes_len in H2. split; [now apply getuint_at|exact H2]. Qed.
Lemma rd_u64 off v rest : 0 <= v < W64 -> at_ data off (leBytes 8 v ++ rest) ->
  getuint data off 8 = Ok (v, off + 8) /\ at_ data (off + 8) rest.
Proof. intros Hv H. apply at_app in H as [H1 H2]. rewrite leBytes_len in H2. split; [now apply getuint8_at|exact H2]. Qed.
Lemma rd_uleb off v rest : 0 <= v < W64 -> at_ data off (uleb v ++ rest) ->
  getuleb data off = Ok (v, off + zlen (uleb v)) /\ at_ data (off + zlen (uleb v)) rest.
Proof. intros Hv H. apply at_app in H as [H1 H2]. split; [now apply getuleb_at|exact H2]. Qed.
Lemma rd_sleb off v rest : - 2 ^ 63 <= v < 2 ^ 63 -> at_ data off (sleb v ++ rest) ->
  getsleb data off = Ok (v, off + zlen (sleb v)) /\ at_ data (off + zlen (sleb v)) rest.
Proof. intros Hv H. apply at_app in H as [H1 H2]. split; [now apply getsleb_at|exact H2]. Qed.
Lemma untilNul_text s rest : Forall (fun b => 0 < b < 256) s -> untilNul (s ++ 0 :: rest) = s.
Proof.
  induction s as [|c s IH]; intros H; cbn [app untilNul]; [reflexivity|]. inversion H; subst.
  replace (c =? 0) with false by lia. now rewrite IH.
Qed.
Lemma rd_str off s rest : Forall (fun b => 0 < b < 256) s -> at_ data off (s ++ 0 :: rest) ->
  getstring data off = (s, off + zlen s + 1) /\ at_ data (off + zlen s + 1) rest.
Proof.
  intros Hs H. pose proof H as [_ [t E]]. unfold getstring. rewrite E, <- app_assoc. cbn [app].
  rewrite untilNul_text by exact Hs. split; [reflexivity|].
  apply at_app in H as [_ H]. now apply at_cons in H as [_ H].
Qed.
End Cursor.
Lemma getlength_at data off long n rest : Forall isByte data -> zlen data + 32 < W64 ->
  (if (long : bool) then 0 <= n < W64 else 0 <= n < 4294967280) ->
  at_ data off ((if long then leBytes 4 4294967295 ++ leBytes 8 n else leBytes 4 n) ++ rest) ->
  let o := off + (if long then 12 else 4) in
  getlength data off = Ok (n, if long then 8 else 4, o) /\ at_ data o rest.
Proof.
  intros Hd Hw Hn H. unfold getlength. destruct long; cbn zeta.
  - rewrite <- app_assoc in H. apply rd_u32 in H as [E H]; [|assumption|assumption|unfold W32; lia]. rewrite E. cbn [bind Z.eqb Pos.eqb].
    apply rd_u64 in H as [E2 H]; [|assumption..]. rewrite E2. cbn [bind]. replace (off + 12) with (off + 4 + 8) by lia. auto.
  - apply rd_u32 in H as [E H]; [|assumption|assumption|unfold W32; lia]. rewrite E. cbn [bind].
    replace (n =? 4294967295) with false by lia. replace (n >=? 4294967280) with false by lia. auto.
Qed.
