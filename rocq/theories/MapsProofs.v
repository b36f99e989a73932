From Verif Require Import Base ElfHash ElfHashProofs Maps MapsSpec.

Definition plain (c : Z) : Prop := c <> 32 /\ c <> 45 /\ c <> 58 /\ c <> 10 /\ (c < 65 \/ 90 < c).
Lemma digit_plain base c d : digitOf base c d -> plain c.
Proof. unfold digitOf, plain. lia. Qed.
Lemma numeral_plain base s v : numeral base s v -> Forall plain s.
Proof. induction 1 as [c d H|s v c d Hs IH H]; [constructor; [apply (digit_plain base c d H)|constructor]|]. apply Forall_app. split; [exact IH|]. constructor; [apply (digit_plain base c d H)|constructor]. Qed.
Lemma numeral_ne base s v : numeral base s v -> s <> [].
Proof. destruct 1; [discriminate|]. now destruct s. Qed.
Lemma numeral_nonneg base s v : 0 <= base -> numeral base s v -> 0 <= v.
Proof. intros Hb. induction 1 as [c d [H _]|s v c d Hs IH [H _]]; [lia|]. nia. Qed.
Lemma hexDigit_digit base c d : base <= 16 -> digitOf base c d -> hexDigit c = Some d.
Proof. unfold digitOf, hexDigit. intros Hb (H1 & H2). destruct ((c >=? 48) && (c <=? 57)) eqn:E1; [f_equal; lia|]. destruct ((c >=? 97) && (c <=? 102)) eqn:E2; [f_equal; lia|]. lia. Qed.
Lemma hexFrom_app a b v : hex2intFrom v (a ++ b) = let* w := hex2intFrom v a in hex2intFrom w b.
Proof. revert v. induction a as [|c a IH]; intros v; cbn [app hex2intFrom bind]; [reflexivity|]. destruct (hexDigit c); [apply IH|reflexivity]. Qed.
Lemma hex_numeral s v : numeral 16 s v -> v < 2 ^ 64 -> hex2int s = Ok v.
Proof.
  unfold hex2int. change (2 ^ 64) with W64. induction 1 as [c d H|s v c d Hs IH H]; intros Hv.
  - cbn [hex2intFrom]. rewrite (hexDigit_digit 16 c d) by (exact H || lia). f_equal. destruct H as [H _]. change (u64 (0 * 16)) with 0. apply u64_id. unfold isU64. lia.
  - pose proof (numeral_nonneg 16 _ _ ltac:(lia) Hs). destruct H as [Hd Hc]. rewrite hexFrom_app, IH by lia. cbn [bind hex2intFrom]. rewrite (hexDigit_digit 16 c d) by ((split; assumption) || lia).
    f_equal. rewrite (u64_id (v * 16)) by (unfold isU64; lia). apply u64_id. unfold isU64. lia.
Qed.
Lemma hex_dec s v : numeral 10 s v -> exists w, hex2int s = Ok w /\ (v < 10 -> w = v).
Proof.
  unfold hex2int. induction 1 as [c d H|s v c d Hs IH H].
  - cbn [hex2intFrom]. rewrite (hexDigit_digit 10 c d) by (exact H || lia). eexists. split; [reflexivity|]. intros. destruct H as [H _]. change (u64 (0 * 16)) with 0. apply u64_id. unfold isU64, W64. lia.
  - destruct IH as (w & E & Hw). rewrite hexFrom_app, E. cbn [bind hex2intFrom]. rewrite (hexDigit_digit 10 c d) by (exact H || lia). eexists. split; [reflexivity|].
    intros L. pose proof (numeral_nonneg 10 _ _ ltac:(lia) Hs). destruct H as [H _]. assert (v = 0) by lia. subst v. rewrite Hw by lia. change (u64 (0 * 16)) with 0. apply u64_id. unfold isU64, W64. lia.
Qed.
(** a numeral of at most 16 digits whose value is 10 or more reads as something larger *)
Lemma hex_dec_wrong s v : numeral 10 s v -> zlen s <= 16 -> exists w, hex2int s = Ok w /\ v <= w < 16 ^ zlen s /\ (10 <= v -> v < w).
Proof.
  unfold hex2int. induction 1 as [c d H|s v c d Hs IH H]; intros L.
  - cbn [hex2intFrom]. rewrite (hexDigit_digit 10 c d) by (exact H || lia). destruct H as [H _]. exists d. change (u64 (0 * 16)) with 0. cbn [Z.add]. rewrite u64_id by (unfold isU64, W64; lia).
    split; [reflexivity|]. change (16 ^ zlen [c]) with 16. lia.
  - rewrite zlen_app in *. change (zlen [c]) with 1 in *. destruct IH as (w & E & [Hw1 Hw2] & Hw3); [lia|]. rewrite hexFrom_app, E. cbn [bind hex2intFrom]. rewrite (hexDigit_digit 10 c d) by (exact H || lia).
    pose proof (numeral_nonneg 10 _ _ ltac:(lia) Hs). destruct H as [H _]. pose proof (zlen_nonneg s). rewrite Z.pow_add_r by lia. change (16 ^ 1) with 16.
    assert (Hle : 16 ^ zlen s <= 16 ^ 15) by (apply Z.pow_le_mono_r; lia). change (16 ^ 15) with 1152921504606846976 in Hle.
    rewrite (u64_id (w * 16)) by (unfold isU64, W64; lia). rewrite u64_id by (unfold isU64, W64; lia). eexists. split; [reflexivity|]. split; [lia|]. lia.
Qed.

Lemma splitSep_app sep s r : ~ In sep s -> splitSep sep (s ++ sep :: r) = Some (s, r).
Proof. induction s as [|c s IH]; intros H; cbn [app splitSep]; [now rewrite Z.eqb_refl|]. cbn [In] in H. replace (c =? sep) with false by lia. now rewrite IH by tauto. Qed.
Lemma splitSep_none sep s : ~ In sep s -> splitSep sep s = None.
Proof. induction s as [|c s IH]; intros H; cbn [splitSep]; [reflexivity|]. cbn [In] in H. replace (c =? sep) with false by lia. now rewrite IH by tauto. Qed.
Lemma spanSpaces_ne l : hd 0 l <> 32 -> spanSpaces l = ([], l).
Proof. destruct l as [|c l]; cbn [hd spanSpaces]; [reflexivity|]. intros H. unfold SP. now replace (c =? 32) with false by lia. Qed.
Lemma spanSpaces_pad n l : hd 0 l <> 32 -> spanSpaces (repeat 32 n ++ l) = (repeat 32 n, l).
Proof. intros H. induction n as [|n IH]; cbn [repeat app spanSpaces]; [now apply spanSpaces_ne|]. unfold SP at 1. cbn [Z.eqb Pos.eqb]. now rewrite IH. Qed.
Lemma nextTok_app s r sep : s <> [] -> hd 0 s <> 32 -> ~ In sep s -> nextTok (s ++ sep :: r) sep = (s, r).
Proof. intros Hne H Hn. unfold nextTok. rewrite spanSpaces_ne by (destruct s; [easy|exact H]). now rewrite splitSep_app. Qed.
Lemma nextTok_end s sep : s <> [] -> hd 0 s <> 32 -> ~ In sep s -> nextTok s sep = (s, []).
Proof. intros Hne H Hn. unfold nextTok. rewrite spanSpaces_ne by (destruct s; [easy|exact H]). now rewrite splitSep_none. Qed.
Lemma nextTok_num base s v r sep : numeral base s v -> sep = 32 \/ sep = 45 \/ sep = 58 -> nextTok (s ++ sep :: r) sep = (s, r).
Proof.
  intros H Hs. pose proof (numeral_plain _ _ _ H) as P. pose proof (numeral_ne _ _ _ H). apply nextTok_app; auto.
  - destruct s as [|c s]; [easy|]. inversion P as [|? ? (A & _) _]. exact A.
  - intros Hi. rewrite Forall_forall in P. destruct (P _ Hi) as (A & B & C & _). lia.
Qed.

Definition expectedPerms (g : region) : list Z :=
  (if gR g then [114] else []) ++ (if gW g then [119] else []) ++ (if gX g then [120] else []) ++ [if gShared g then 115 else 112].
Lemma header_spec g h : headerText g h -> regionOk g ->
  exists ino, parseHeader h = Ok (mkRange (gStart g) (gEnd g) (expectedPerms g) (gOffset g) (gMajor g) (gMinor g) ino (match gPath g with [] => anonText | p => p end) []) /\
  exists i, numeral 10 i (gInode g) /\ hex2int i = Ok ino.
Proof.
  intros H (O1 & O2 & O3 & O4 & O5 & O6 & O7). destruct H as [s e o ma mi i pad Ns Ne No Nma Nmi Ni Hpad].
  destruct (hex_dec i _ Ni) as (ino & Ei & _). exists ino. split; [|eauto]. unfold parseHeader.
  rewrite (nextTok_num 16 s _ _ 45 Ns) by auto. rewrite (hex_numeral s) with (v := gStart g) by (assumption || lia). cbn [bind].
  unfold SP. rewrite (nextTok_num 16 e _ _ 32 Ne) by auto. rewrite (hex_numeral e) with (v := gEnd g) by (assumption || lia). cbn [bind].
  rewrite (nextTok_app (permText g)); [|unfold permText; discriminate|unfold permText; cbn [hd]; destruct (gR g); lia|unfold permText; cbn [In]; destruct (gR g), (gW g), (gX g), (gShared g); lia].
  assert (Ep : parsePerms (permText g) = Ok (expectedPerms g)) by (unfold permText, expectedPerms; destruct (gR g), (gW g), (gX g), (gShared g); reflexivity). rewrite Ep. cbn [bind].
  rewrite (nextTok_num 16 o _ _ 32 No) by auto. rewrite (hex_numeral o) with (v := gOffset g) by (assumption || lia). cbn [bind].
  rewrite (nextTok_num 16 ma _ _ 58 Nma) by auto. rewrite (hex_numeral ma) with (v := gMajor g) by (assumption || lia). cbn [bind].
  rewrite (nextTok_num 16 mi _ _ 32 Nmi) by auto. rewrite (hex_numeral mi) with (v := gMinor g) by (assumption || lia). cbn [bind].
  assert (Et : exists n, nextTok (i ++ repeat 32 pad ++ gPath g) 32 = (i, repeat 32 n ++ gPath g)).
  { pose proof (numeral_plain _ _ _ Ni) as P. pose proof (numeral_ne _ _ _ Ni) as Hne.
    assert (Hh : hd 0 i <> 32) by (destruct i as [|c i']; [easy|]; inversion P as [|? ? (A & _) _]; exact A).
    assert (Hn : ~ In 32 i) by (intros Hi; rewrite Forall_forall in P; destruct (P _ Hi) as (A & _); lia).
    destruct pad as [|pad].
    - exists 0%nat. cbn [repeat app]. assert (gPath g = []) as ->. { destruct (gPath g); [reflexivity|]. exfalso. apply Hpad; [discriminate|reflexivity]. }
      rewrite app_nil_r. now apply nextTok_end.
    - exists pad. cbn [repeat app]. now apply nextTok_app. }
  destruct Et as [n Et]. rewrite Et, Ei. cbn [bind]. rewrite spanSpaces_pad by exact O7. cbn [snd].
  assert (S32 : forall x, 0 <= x < 2 ^ 31 -> s32 x = x).
  { intros x Hx. unfold s32, sgn, W32. change (4294967296 / 2) with (2 ^ 31). rewrite Z.mod_small by (change (2 ^ 31) with 2147483648 in Hx; lia). destruct (x <? 2 ^ 31) eqn:E; lia. }
  rewrite !S32 by assumption. reflexivity.
Qed.

Lemma getLine_app a r : ~ In 10 a -> getLine (a ++ 10 :: r) = (a, r).
Proof. induction a as [|c a IH]; intros H; cbn [app getLine]; [reflexivity|]. cbn [In] in H. unfold NL. replace (c =? 10) with false by lia. now rewrite IH by tauto. Qed.
Lemma header_noNL g h : headerText g h -> regionOk g -> ~ In 10 h /\ exists c r, h = c :: r /\ isUpper c = false.
Proof.
  intros H (O1 & O2 & O3 & O4 & O5 & O6 & O7). destruct H as [s e o ma mi i pad Ns Ne No Nma Nmi Ni Hpad].
  assert (N : forall base t v, numeral base t v -> ~ In 10 t). { intros base t v Hn Hi. apply numeral_plain in Hn. rewrite Forall_forall in Hn. destruct (Hn _ Hi) as (_ & _ & _ & A & _). lia. }
  split.
  - unfold textOk in O6. rewrite Forall_forall in O6. rewrite !in_app_iff. cbn [In]. rewrite !in_app_iff. cbn [In]. rewrite !in_app_iff. cbn [In]. rewrite !in_app_iff. cbn [In]. rewrite !in_app_iff. cbn [In]. rewrite !in_app_iff. cbn [In]. rewrite !in_app_iff.
    pose proof (N _ _ _ Ns). pose proof (N _ _ _ Ne). pose proof (N _ _ _ No). pose proof (N _ _ _ Nma). pose proof (N _ _ _ Nmi). pose proof (N _ _ _ Ni).
    assert (~ In 10 (repeat 32 pad)) by (intros Hi; apply repeat_spec in Hi; discriminate). assert (~ In 10 (permText g)) by (unfold permText; cbn [In]; destruct (gR g), (gW g), (gX g), (gShared g); lia).
    assert (~ In 10 (gPath g)) by (intros Hi; now apply (O6 10 Hi)). intuition discriminate.
  - pose proof (numeral_plain _ _ _ Ns) as P. pose proof (numeral_ne _ _ _ Ns). destruct s as [|c s]; [easy|]. exists c. eexists. split; [reflexivity|]. inversion P as [|? ? (_ & _ & _ & _ & A) _]. unfold isUpper. lia.
Qed.
Lemma parseFlags_total : forall fuel l, (length l < fuel)%nat -> exists fs, parseFlags fuel l = Ok fs.
Proof.
  induction fuel as [|f IH]; intros l H; [lia|]. cbn [parseFlags]. destruct (nextTok l SP) as [t r] eqn:E. destruct t as [|c t]; [eauto|].
  assert (L : (length r < length l)%nat).
  { unfold nextTok in E. destruct (spanSpaces l) as [sp rest] eqn:Es. assert (Hl : l = sp ++ rest).
    { clear -Es. revert sp rest Es. induction l as [|x l IH]; intros sp rest Es; cbn [spanSpaces] in Es; [now injection Es as <- <-|]. destruct (x =? SP); [|now injection Es as <- <-].
      destruct (spanSpaces l) as [a b]. injection Es as <- <-. cbn [app]. f_equal. now apply IH. }
    destruct (splitSep SP rest) as [[a b]|] eqn:Sp.
    - injection E as E1 E2. subst b. assert (Hr : rest = a ++ SP :: r).
      { clear -Sp. revert a Sp. induction rest as [|x rest IH]; intros a Sp; cbn [splitSep] in Sp; [discriminate|]. destruct (x =? SP) eqn:Ex; [injection Sp as <- <-; cbn; f_equal; lia|].
        destruct (splitSep SP rest) as [[a' b']|]; [|discriminate]. injection Sp as <- <-. cbn [app]. f_equal. now apply IH. }
      rewrite Hl, Hr, !app_length. cbn [length]. lia.
    - assert (El : l = c :: t) by congruence. assert (Er : r = []) by congruence. rewrite El, Er. cbn [length]. lia. }
  destruct (IH r ltac:(lia)) as [fs ->]. cbn [bind]. eauto.
Qed.
Lemma parseAttrs_spec attrs : forall fuel flags rest, Forall attrOk attrs -> (match rest with [] => True | c :: _ => isUpper c = false end) -> (length (flat_map (fun a => a ++ [10%Z]) attrs) < fuel)%nat ->
  exists fs, parseAttrs fuel (flat_map (fun a => a ++ [10]) attrs ++ rest) flags = Ok (fs, rest).
Proof.
  induction attrs as [|a attrs IH]; intros fuel flags rest Ha Hr Hf; cbn [flat_map app] in *; (destruct fuel as [|f]; [cbn in Hf; lia|]).
  - cbn [parseAttrs]. destruct rest as [|c rest]; [eauto|]. rewrite Hr. eauto.
  - inversion Ha as [|? ? (T & U) Ha']; subst. rewrite <- !app_assoc. cbn [app]. destruct a as [|c a]; [cbn in U; lia|]. cbn [parseAttrs app]. cbn [hd] in U.
    replace (isUpper c) with true by (unfold isUpper; lia). unfold textOk in T. rewrite Forall_forall in T.
    change (c :: a ++ 10 :: flat_map (fun a => a ++ [10]) attrs ++ rest) with ((c :: a) ++ 10 :: flat_map (fun a => a ++ [10]) attrs ++ rest).
    rewrite getLine_app by (intros Hi; now apply (T 10 Hi)). destruct (nextTok (c :: a) 58) as [key lv].
    rewrite !app_length in Hf. cbn [length] in Hf.
    destruct (beq key vmFlagsText).
    + destruct (parseFlags_total (S (length lv)) lv ltac:(lia)) as [fs ->]. cbn [bind]. apply IH; auto. lia.
    + cbn [bind]. apply IH; auto. lia.
Qed.

Definition agrees (ga : region * list (list Z)) (r : range) : Prop :=
  let g := fst ga in
  rgStart r = gStart g /\ rgEnd r = gEnd g /\ rgPerms r = expectedPerms g /\ rgOffset r = gOffset g /\ rgMajor r = gMajor g /\ rgMinor r = gMinor g /\
  rgPath r = (match gPath g with [] => anonText | p => p end) /\ exists i, numeral 10 i (gInode g) /\ hex2int i = Ok (rgInode r).
Lemma smaps_head r t : smapsText r t -> Forall (fun x => regionOk (fst x)) r -> match t with [] => True | c :: _ => isUpper c = false end.
Proof.
  intros H. destruct H as [|g attrs h r t Hh Ha Hr]; intros Hok; [exact I|]. inversion Hok as [|? ? O _]; subst. destruct (header_noNL g h Hh O) as (_ & c & r' & -> & U). exact U.
Qed.
Lemma smaps_spec gs text : smapsText gs text -> Forall (fun x => regionOk (fst x)) gs ->
  forall fuel, (length gs < fuel)%nat -> exists rs, procMaps fuel text = Ok rs /\ Forall2 agrees gs rs.
Proof.
  intros H. induction H as [|g attrs h r t Hh Ha Hr IH]; intros Hok fuel Hf; (destruct fuel as [|f]; [cbn in Hf; lia|]).
  - exists []. split; [reflexivity|constructor].
  - inversion Hok as [|? ? O Hok']; subst. cbn [fst] in O. destruct (header_noNL g h Hh O) as (N & c & h' & Eh & U).
    destruct (header_spec g h Hh O) as (ino & Ep & Ei).
    cbn [procMaps]. destruct (h ++ 10 :: flat_map (fun a => a ++ [10]) attrs ++ t) as [|x y] eqn:Et; [now destruct h|]. rewrite <- Et. clear Et.
    rewrite getLine_app by exact N. rewrite Ep. cbn [bind].
    destruct (parseAttrs_spec attrs (S (length (flat_map (fun a => a ++ [10]) attrs ++ t))) [] t Ha (smaps_head _ _ Hr Hok')) as [fs Ea]; [rewrite app_length; lia|].
    rewrite Ea. cbn [bind]. destruct (IH Hok' f) as (rs & Er & F); [cbn [length] in Hf; lia|]. rewrite Er. cbn [bind rgStart rgEnd rgPerms rgOffset rgMajor rgMinor rgInode rgPath].
    eexists. split; [reflexivity|]. constructor; [|exact F]. unfold agrees. cbn. repeat (split; [reflexivity|]). exact Ei.
Qed.

(** ** Flags *)
Definition flagName (f : list Z) : Prop := exists a b, f = [a; b] /\ a <> 32 /\ b <> 32.
Definition knownFlag (f : list Z) : bool := existsb (beq f) vmflagNames.
Lemma parseFlags_names fs : forall fuel, Forall flagName fs -> (length fs < fuel)%nat ->
  parseFlags fuel (flat_map (fun f => f ++ [32]) fs) = Ok (filter knownFlag fs).
Proof.
  induction fs as [|f fs IH]; intros fuel H Hf; (destruct fuel as [|n]; [cbn in Hf; lia|]); cbn [flat_map]; [reflexivity|].
  inversion H as [|? ? (a & b & -> & Ha & Hb) H']; subst. cbn [app parseFlags]. change (a :: b :: 32 :: flat_map (fun f => f ++ [32]) fs) with ([a; b] ++ 32 :: flat_map (fun f => f ++ [32]) fs).
  unfold SP. rewrite nextTok_app; [|discriminate|exact Ha|cbn [In]; lia]. rewrite IH by (auto; cbn [length] in Hf; lia). cbn [bind filter]. change (existsb (beq [a; b]) vmflagNames) with (knownFlag [a; b]). now destruct (knownFlag [a; b]).
Qed.
Lemma flags_line f fs : forall fuel, flagName f -> Forall flagName fs -> (length fs + 1 < fuel)%nat ->
  parseFlags fuel (flat_map (fun f => 32 :: f) (f :: fs) ++ [32]) = Ok (filter knownFlag fs).
Proof.
  intros fuel (a & b & -> & Ha & Hb) H Hf. destruct fuel as [|n]; [lia|].
  assert (E : flat_map (fun f => 32 :: f) ([a; b] :: fs) ++ [32] = 32 :: a :: b :: 32 :: flat_map (fun f => f ++ [32]) fs).
  { cbn [flat_map app]. do 3 f_equal. clear. induction fs as [|f fs IH]; [reflexivity|]. cbn [flat_map app]. rewrite <- !app_assoc. cbn [app]. rewrite IH. reflexivity. }
  rewrite E. cbn [parseFlags]. unfold nextTok, SP. cbn [spanSpaces]. unfold SP. cbn [Z.eqb Pos.eqb]. replace (a =? 32) with false by lia. cbn [splitSep].
  replace (a =? 32) with false by lia. replace (b =? 32) with false by lia. cbn [Z.eqb Pos.eqb app]. rewrite parseFlags_names by (auto; lia). cbn [bind].
  replace (existsb (beq [32; a; b]) vmflagNames) with false; [reflexivity|]. symmetry. cbn. destruct (a =? 114), (b =? 100); reflexivity.
Qed.

Lemma flagWord_name f : flagWord f -> flagName f /\ ~ In 10 f.
Proof. intros (a & b & -> & Ha & Hb). split; [exists a, b; split; [reflexivity|lia]|cbn [In]; lia]. Qed.
Lemma documented_known x : knownFlag x = existsb (fun y => if list_eq_dec Z.eq_dec x y then true else false) documentedFlags.
Proof.
  unfold knownFlag. change documentedFlags with vmflagNames. induction vmflagNames as [|y l IH]; [reflexivity|]. cbn [existsb]. rewrite IH. f_equal.
Qed.
Lemma flags_attr f fs : flagWord f -> Forall flagWord fs -> parseAttrs (S (length (flagsLine (f :: fs) ++ [10]))) (flagsLine (f :: fs) ++ [10]) [] = Ok (filter knownFlag fs, []).
Proof.
  intros Hf Hfs.
  set (lv := flat_map (fun f => 32 :: f) (f :: fs) ++ [32]).
  assert (HN : ~ In 10 lv). { unfold lv. rewrite in_app_iff, in_flat_map. intros [(x & Hx & Hi)|Hi]; [|cbn [In] in Hi; lia]. cbn [In] in Hi. destruct Hi as [Hi|Hi]; [lia|].
    assert (flagWord x) by (destruct Hx as [<-|Hx]; [exact Hf|rewrite Forall_forall in Hfs; auto]). now apply (flagWord_name x). }
  assert (El : flagsLine (f :: fs) = vmFlagsText ++ 58 :: lv) by reflexivity. rewrite El.
  remember (length ((vmFlagsText ++ 58 :: lv) ++ [10])) as k eqn:Ek. destruct k as [|k]; [discriminate|]. clear Ek.
  unfold vmFlagsText at 1. cbn [parseAttrs app]. change (isUpper 86) with true. cbn iota.
  change (86 :: 109 :: 70 :: 108 :: 97 :: 103 :: 115 :: 58 :: lv ++ [10]) with ((vmFlagsText ++ 58 :: lv) ++ 10 :: []).
  rewrite getLine_app by (rewrite in_app_iff; cbn [In vmFlagsText]; intros [H|[H|H]]; (lia || tauto)).
  rewrite nextTok_app; [|discriminate|unfold vmFlagsText; cbn [hd]; lia|unfold vmFlagsText; cbn [In]; lia].
  replace (beq vmFlagsText vmFlagsText) with true by reflexivity.
  unfold lv at 2. rewrite flags_line; [reflexivity|now apply flagWord_name| |].
  - eapply Forall_impl; [|exact Hfs]. intros a Ha. now apply flagWord_name.
  - unfold lv. cbn [flat_map]. rewrite !app_length. cbn [length]. assert (length fs <= length (flat_map (fun f : list Z => 32%Z :: f) fs))%nat by (clear; induction fs as [|x fs IH]; cbn [flat_map app length]; [lia|rewrite app_length; lia]). lia.
Qed.
