(** Proofs about the dump of call frame instructions. *)
From Coq Require Import Ascii String.
From Verif Require Import Base LebSpec LebProofs DwarfReader DwarfReaderProofs Cfi CfiSpec CfiProofs Json JsonSpec Args FrameText FrameTextSpec JsonDoc JsonDocSpec JsonDocProofs Dump DumpSpec.

(** An unsigned reading of a number encoded as signed, when it is not negative *)
Lemma getuleb_sleb data off v : at_ data off (sleb v) -> 0 <= v < 2 ^ 63 -> getuleb data off = Ok (v, off + zlen (sleb v)).
Proof.
  intros [H0 [rest H]] Hv. unfold getuleb. rewrite H. unfold sleb.
  destruct (encodeS_shape 10 v) as (pre & b & He & Hc & Hb & Hd & Hl).
  { change (128 ^ (Z.of_nat 10 - 1)) with (2 ^ 63). change (2^63) with 9223372036854775808 in *. lia. }
  { lia. }
  rewrite He, <- app_assoc. cbn [app]. rewrite leb_unsigned; [|assumption|assumption|lia].
  rewrite zlen_app. change (zlen [b]) with 1. cbn [bind].
  assert (E : digits7 (pre ++ [b]) = v).
  { destruct (64 <=? b) eqn:E; [|exact Hd]. pose proof (digits7_bound (pre ++ [b])) as B. rewrite zlen_app in B. change (zlen [b]) with 1 in B. lia. }
  rewrite E, u64_id; [do 2 f_equal; lia|]. unfold isU64, W64. change (2^63) with 9223372036854775808 in Hv. lia.
Qed.

(** What the dump makes of an instruction *)
Definition insnVal (off : Z) (i : xinsn) : jval :=
  let '(name, ops) := named i (off + blockAt i) in
  VObj ((txt "type", VStr (txt name)) :: map (fun kn => nf (fst kn) (snd kn)) ops).

Ltac word := unfold word64, sword64, small, W64, W32, W16 in *; change (2 ^ 64) with 18446744073709551616 in *; change (2 ^ 63) with 9223372036854775808 in *; change (2 ^ 32) with 4294967296 in *; change (2 ^ 31) with 2147483648 in *; try lia.
Lemma dump_encode data off i : Forall isByte data -> zlen data + 32 < W64 -> operands i -> shownRight i -> at_ data off (encodeX i) ->
  dumpInsn data off = Ok (insnVal off i, off + zlen (encodeX i)).
Proof.
  intros Hd Hw Hop Hs Hat.
  assert (Hw' : zlen data < W64) by lia.
  assert (Hbound : off + zlen (encodeX i) <= zlen data) by (apply at_len; [exact Hat|destruct i as [i| | | | |]; [destruct i| | | | |]; discriminate]).
  pose proof (proj1 Hat) as Hoff.
  unfold dumpInsn, insnVal.
  assert (Hhd : exists b t, encodeX i = b :: t) by (destruct i as [i| | | | |]; [destruct i| | | | |]; cbn [encodeX encodeI]; eauto).
  destruct Hhd as (b0 & t0 & Hhd). rewrite Hhd in Hat.
  change (b0 :: t0) with ([b0] ++ t0) in Hat. apply at_app in Hat. destruct Hat as [Hb Ht].
  change (zlen [b0]) with 1 in Ht. rewrite (getu8_at _ _ _ Hb Hw'). cbn [bind].
  destruct i as [i| | | | |]; [destruct i| | | | |]; cbn [shownRight operands] in Hs, Hop; try contradiction; cbn [encodeX encodeI named] in *; pose proof (f_equal (hd 0) Hhd) as E1; pose proof (f_equal (@tl Z) Hhd) as E2;
    cbn [hd tl] in E1, E2; subst b0 t0; clear Hhd Hb.
  all: rewrite ?zlen_cons in *; rewrite ?zlen_app in *; rewrite ?zlen_nil in *.
  - destruct (land63 (64 + d) ltac:(lia)) as [-> ->].
    replace ((64 + d) mod 64) with d by lia. replace (64 + d - d =? 0) with false by lia. replace (64 + d - d =? 64) with true by lia.
    change (zlen (@nil Z)) with 0. unfold done. cbn [map fst snd]. do 2 f_equal; lia.
  - change (Z.land 2 192) with 0. cbn [Z.eqb Pos.eqb].
    cbn [leBytes] in Ht. replace (d mod 256) with d in Ht by lia.
    rewrite (getu8_at _ _ _ Ht Hw'). cbn [bind]. rewrite leBytes_len. unfold done. cbn [map fst snd]. do 2 f_equal. lia.
  - change (Z.land 3 192) with 0. cbn [Z.eqb Pos.eqb].
    rewrite (getu16_at data (off + 1) d) by (try assumption; word). cbn [bind].
    rewrite leBytes_len. unfold done. cbn [map fst snd]. do 2 f_equal. lia.
  - change (Z.land 4 192) with 0. cbn [Z.eqb Pos.eqb].
    rewrite (getu32_at data (off + 1) d) by (try assumption; word). cbn [bind].
    rewrite leBytes_len. unfold done, int32. replace (d <? 2147483648) with true by word. cbn [map fst snd]. do 2 f_equal. lia.
  - change (Z.land 1 192) with 0. cbn [Z.eqb Pos.eqb].
    rewrite (getuint8_at data (off + 1) a) by (try assumption; word). cbn [bind].
    rewrite leBytes_len. unfold done. cbn [map fst snd]. do 2 f_equal. lia.
  - destruct (land63 (128 + r) ltac:(lia)) as [-> ->].
    replace ((128 + r) mod 64) with r by lia. replace (128 + r - r =? 0) with false by lia. replace (128 + r - r =? 64) with false by lia.
    replace (128 + r - r =? 128) with true by lia.
    rewrite (getuleb_at data (off + 1) n) by (try assumption; word). cbn [bind]. unfold done. cbn [map fst snd]. do 2 f_equal. lia.
  - change (Z.land 5 192) with 0. cbn [Z.eqb Pos.eqb]. apply at_app in Ht. destruct Ht as [H1 H2]. unfold two.
    rewrite (getuleb_at _ _ r H1) by word. cbn [bind].
    rewrite (getuleb_at _ _ n H2) by word. cbn [bind]. unfold done. cbn [map fst snd]. do 2 f_equal; lia.
  - change (Z.land 17 192) with 0. cbn [Z.eqb Pos.eqb]. apply at_app in Ht. destruct Ht as [H1 H2]. unfold twoS.
    rewrite (getuleb_at _ _ r H1) by word. cbn [bind].
    rewrite (getsleb_at _ _ n H2) by word. cbn [bind]. unfold done. cbn [map fst snd]. do 2 f_equal; lia.
  - destruct (land63 (192 + r) ltac:(lia)) as [-> ->].
    replace ((192 + r) mod 64) with r by lia. replace (192 + r - r =? 0) with false by lia. replace (192 + r - r =? 64) with false by lia.
    replace (192 + r - r =? 128) with false by lia. replace (192 + r - r =? 192) with true by lia.
    change (zlen (@nil Z)) with 0. unfold done. cbn [map fst snd]. do 2 f_equal; lia.
  - change (Z.land 6 192) with 0. cbn [Z.eqb Pos.eqb]. unfold one.
    rewrite (getuleb_at _ _ r Ht) by word. cbn [bind]. unfold done. cbn [map fst snd]. do 2 f_equal; lia.
  - change (Z.land 7 192) with 0. cbn [Z.eqb Pos.eqb]. unfold one.
    rewrite (getuleb_at _ _ r Ht) by word. cbn [bind]. unfold done. cbn [map fst snd]. do 2 f_equal; lia.
  - change (Z.land 8 192) with 0. cbn [Z.eqb Pos.eqb]. unfold one.
    rewrite (getuleb_at _ _ r Ht) by word. cbn [bind]. unfold done. cbn [map fst snd]. do 2 f_equal; lia.
  - change (Z.land 9 192) with 0. cbn [Z.eqb Pos.eqb]. apply at_app in Ht. destruct Ht as [H1 H2]. unfold two.
    rewrite (getuleb_at _ _ r1 H1) by word. cbn [bind].
    rewrite (getuleb_at _ _ r2 H2) by word. cbn [bind]. unfold done. cbn [map fst snd]. do 2 f_equal; lia.
  - change (Z.land 10 192) with 0. cbn [Z.eqb Pos.eqb].
    change (zlen (@nil Z)) with 0. unfold done. cbn [map fst snd]. do 2 f_equal; lia.
  - change (Z.land 11 192) with 0. cbn [Z.eqb Pos.eqb].
    change (zlen (@nil Z)) with 0. unfold done. cbn [map fst snd]. do 2 f_equal; lia.
  - change (Z.land 12 192) with 0. cbn [Z.eqb Pos.eqb]. apply at_app in Ht. destruct Ht as [H1 H2]. unfold two.
    rewrite (getuleb_at _ _ r H1) by word. cbn [bind].
    rewrite (getuleb_at _ _ n H2) by word. cbn [bind]. unfold done. cbn [map fst snd]. do 2 f_equal; lia.
  - change (Z.land 18 192) with 0. cbn [Z.eqb Pos.eqb]. apply at_app in Ht. destruct Ht as [H1 H2]. unfold two.
    rewrite (getuleb_at _ _ r H1) by word. cbn [bind].
    rewrite (getuleb_sleb _ _ n H2) by word. cbn [bind]. unfold done. cbn [map fst snd]. do 2 f_equal; lia.
  - change (Z.land 13 192) with 0. cbn [Z.eqb Pos.eqb]. unfold one.
    rewrite (getuleb_at _ _ r Ht) by word. cbn [bind]. unfold done. cbn [map fst snd]. do 2 f_equal; lia.
  - change (Z.land 14 192) with 0. cbn [Z.eqb Pos.eqb]. unfold one.
    rewrite (getuleb_at _ _ n Ht) by word. cbn [bind]. unfold done. cbn [map fst snd]. do 2 f_equal; lia.
  - change (Z.land 19 192) with 0. cbn [Z.eqb Pos.eqb]. unfold one.
    rewrite (getuleb_sleb _ _ n Ht) by word. cbn [bind]. unfold done. cbn [map fst snd]. do 2 f_equal; lia.
  - change (Z.land 15 192) with 0. cbn [Z.eqb Pos.eqb]. apply at_app in Ht. destruct Ht as [H1 H2].
    pose proof (zlen_nonneg blk) as P1. pose proof (zlen_nonneg (uleb (zlen blk))) as P2.
    rewrite (getuleb_at _ _ (zlen blk) H1) by word. cbn [bind].
    rewrite u64_id by (unfold isU64; word). unfold done. cbn [map fst snd]. do 2 f_equal; lia.
  - change (Z.land 16 192) with 0. cbn [Z.eqb Pos.eqb].
    apply at_app in Ht. destruct Ht as [H1 H2]. apply at_app in H2. destruct H2 as [H2 H3].
    pose proof (zlen_nonneg blk) as P1. pose proof (zlen_nonneg (uleb (zlen blk))) as P2. pose proof (zlen_nonneg (uleb r)) as P3.
    rewrite (getuleb_at _ _ r H1) by word. cbn [bind].
    rewrite (getuleb_at _ _ (zlen blk) H2) by word. cbn [bind].
    rewrite u64_id by (unfold isU64; word). unfold done. cbn [map fst snd]. do 2 f_equal; lia.
  - change (Z.land 22 192) with 0. cbn [Z.eqb Pos.eqb].
    apply at_app in Ht. destruct Ht as [H1 H2]. apply at_app in H2. destruct H2 as [H2 H3].
    pose proof (zlen_nonneg blk) as P1. pose proof (zlen_nonneg (uleb (zlen blk))) as P2. pose proof (zlen_nonneg (uleb r)) as P3.
    rewrite (getuleb_at _ _ r H1) by word. cbn [bind].
    rewrite (getuleb_at _ _ (zlen blk) H2) by word. cbn [bind].
    rewrite u64_id by (unfold isU64; word). rewrite Z.mod_small by word. unfold done. cbn [map fst snd].
    replace (off + blockAt (Std (SValExpression r blk))) with (off + 1 + zlen (uleb r) + zlen (uleb (zlen blk))) by (cbn [blockAt encodeX encodeI]; rewrite zlen_cons, !zlen_app; lia). do 2 f_equal; lia.
  - change (Z.land 0 192) with 0. cbn [Z.eqb Pos.eqb].
    change (zlen (@nil Z)) with 0. unfold done. cbn [map fst snd]. do 2 f_equal; lia.
  - change (Z.land 45 192) with 0. cbn [Z.eqb Pos.eqb].
    change (zlen (@nil Z)) with 0. unfold done. cbn [map fst snd]. do 2 f_equal; lia.
  - change (Z.land 46 192) with 0. cbn [Z.eqb Pos.eqb]. unfold one.
    rewrite (getuleb_at _ _ n Ht) by word. cbn [bind]. unfold done. cbn [map fst snd]. do 2 f_equal; lia.
Qed.

(** ASCII text is plain *)
Lemma ascii_plain s : Forall (fun c => 32 <= c < 127) s -> plainText s s.
Proof.
  intros F. exists s. repeat split.
  - eapply Forall_impl; [|exact F]. intros c B. cbv beta in B. unfold scalar. lia.
  - eapply Forall_impl; [|exact F]. intros c B. cbv beta in B. lia.
  - induction F as [|c s B F IH]; [reflexivity|]. cbn [flat_map]. rewrite <- IH. unfold utf8. now replace (c <? 128) with true by lia.
  - induction F as [|c s B F IH]; [reflexivity|]. cbn [flat_map]. rewrite <- IH. unfold utf16. now replace (c <? 65536) with true by lia.
Qed.

Ltac ascii := apply ascii_plain; repeat constructor; cbn; lia.
Fixpoint insnVals (off : Z) (p : list xinsn) : list jval :=
  match p with [] => [] | i :: r => insnVal off i :: insnVals (off + zlen (encodeX i)) r end.
Lemma encodeX_pos i : 1 <= zlen (encodeX i).
Proof. destruct i as [i| | | | |]; [destruct i| | | | |]; cbn [encodeX encodeI]; rewrite ?zlen_cons; try (pose proof (zlen_nonneg (uleb n)); lia); match goal with |- 1 <= zlen ?l + 1 => pose proof (zlen_nonneg l); lia end. Qed.
Lemma dumpLoop_encode data : Forall isByte data -> zlen data + 32 < W64 -> forall p off fuel, Forall operands p -> Forall shownRight p -> at_ data off (encodeXs p) ->
  zlen (encodeXs p) < Z.of_nat fuel -> dumpLoop fuel data off (off + zlen (encodeXs p)) = Ok (insnVals off p).
Proof.
  intros Hd Hw. induction p as [|i p IH]; intros off fuel Ho Hs Hat Hf.
  - destruct fuel; [change (zlen (encodeXs [])) with 0 in Hf; lia|]. cbn [dumpLoop]. change (zlen (encodeXs [])) with 0. replace (off =? off + 0) with true by lia. reflexivity.
  - inversion Ho; inversion Hs; subst. unfold encodeXs in Hat, Hf |- *. cbn [flat_map] in Hat, Hf |- *. fold (encodeXs p) in Hat, Hf |- *. apply at_app in Hat as [A1 A2]. rewrite zlen_app in *. pose proof (encodeX_pos i) as P1. pose proof (zlen_nonneg (encodeXs p)) as P2.
    destruct fuel; [lia|]. cbn [dumpLoop]. replace (off =? off + (zlen (encodeX i) + zlen (encodeXs p))) with false by lia.
    rewrite (dump_encode data off i) by assumption. cbn [bind]. replace (off + (zlen (encodeX i) + zlen (encodeXs p))) with (off + zlen (encodeX i) + zlen (encodeXs p)) by lia.
    rewrite IH by (try assumption; lia). reflexivity.
Qed.
Lemma at_zlen_le data off l : at_ data off l -> zlen l <= zlen data.
Proof. intros [H0 [rest H]]. destruct l as [|x l]; [change (zlen (@nil Z)) with 0; apply zlen_nonneg|]. pose proof (at_len data off (x :: l) (conj H0 (ex_intro _ rest H)) ltac:(discriminate)). lia. Qed.

Lemma insn_means off i : operands i -> shownRight i -> 0 <= off + blockAt i < W64 -> (forall r b, i = Std (SValExpression r b) \/ i = Std (SExpression r b) \/ i = Std (SDefCfaExpression b) -> zlen b < W64) ->
  means (insnVal off i) (insnDoc off i).
Proof.
  intros Ho Hs Hb Hz. unfold insnVal, insnDoc. destruct i as [i| | | | |]; [destruct i| | | | |]; cbn [shownRight operands named] in *; try contradiction; cbn [map fst snd]; unfold nf; repeat first [apply mObj | apply mmNil | apply mmCons; [ascii| |] | apply mStr; ascii | apply mInt].
  all: try (pose proof (zlen_nonneg blk)); try (specialize (Hz 0 blk ltac:(auto))); try (specialize (Hz r blk ltac:(auto))); word.
Qed.
Lemma insns_means data off p : Forall isByte data -> zlen data + 32 < W64 -> Forall operands p -> Forall shownRight p -> at_ data off (encodeXs p) ->
  exists v, dumpInsns data off (off + zlen (encodeXs p)) = Ok v /\ means v (XArr (insnDocs off p)).
Proof.
  intros Hd Hw Ho Hs At. assert (Hl : zlen (encodeXs p) <= zlen data) by (eapply at_zlen_le; exact At).
  exists (VSeq (insnVals off p)). unfold dumpInsns. rewrite dumpLoop_encode; try assumption; [|unfold zlen in *; lia]. cbn [bind]. split; [reflexivity|].
  apply mSeq. pose proof (proj1 At) as P0. assert (B : p = [] \/ off + zlen (encodeXs p) <= zlen data).
  { destruct p as [|i p]; [now left|right]. apply at_len; [exact At|]. intros X. apply (f_equal zlen) in X. unfold encodeXs in X. cbn [flat_map] in X. rewrite zlen_app in X. pose proof (encodeX_pos i). pose proof (zlen_nonneg (flat_map encodeX p)). change (zlen (@nil Z)) with 0 in X. lia. }
  destruct B as [ -> | B]; [constructor|]. clear At Hl. revert off B P0. induction p as [|i p IH]; intros off B P0; cbn [insnVals insnDocs]; [constructor|].
  inversion Ho; inversion Hs; subst. unfold encodeXs in B. cbn [flat_map] in B. fold (encodeXs p) in B. rewrite zlen_app in B. pose proof (encodeX_pos i) as P1. pose proof (zlen_nonneg (encodeXs p)) as P2.
  constructor; [|apply IH; try assumption; lia].
  apply insn_means; try assumption.
  - assert (0 <= blockAt i <= zlen (encodeX i)).
    { destruct i as [i| | | | |]; [destruct i| | | | |]; cbn [blockAt]; try lia. cbn [encodeX encodeI]. rewrite zlen_cons, !zlen_app. pose proof (zlen_nonneg (uleb r)). pose proof (zlen_nonneg (uleb (zlen blk))). pose proof (zlen_nonneg blk). lia. }
    unfold W64 in *. lia.
  - intros r b C. destruct C as [ -> | [ -> | -> ]]; cbn [encodeX encodeI] in B; rewrite zlen_cons, !zlen_app in B; pose proof (zlen_nonneg (uleb r)); pose proof (zlen_nonneg (uleb (zlen b))); unfold W64 in *; lia.
Qed.
