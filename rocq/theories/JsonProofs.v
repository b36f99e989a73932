From Verif Require Import Base Json JsonSpec.

Definition bytesList : list Z := map Z.of_nat (seq 0 (Z.to_nat W8)).
Lemma byte_in c : 0 <= c < W8 -> In c bytesList.
Proof. intros H. unfold bytesList. apply in_map_iff. exists (Z.to_nat c). split; [lia|]. apply in_seq. unfold W8 in *. lia. Qed.
Lemma byte_all (P : Z -> bool) : forallb P bytesList = true -> forall c, 0 <= c < W8 -> P c = true.
Proof. intros H c Hc. rewrite forallb_forall in H. apply H, byte_in, Hc. Qed.
Definition leadSpec (c : Z) : Z * Z :=
  if c <? 128 then (0, c) else if c <? 192 then (1, c - 128) else if c <? 224 then (2, c - 192) else if c <? 240 then (3, c - 224)
  else if c <? 248 then (4, c - 240) else if c <? 252 then (5, c - 248) else if c <? 254 then (6, c - 252) else if c <? 255 then (7, 0) else (8, 0).
Lemma lead_spec c : 0 <= c < W8 -> leadByte c = leadSpec c.
Proof.
  intros H. pose proof (byte_all (fun c => (fst (leadByte c) =? fst (leadSpec c)) && (snd (leadByte c) =? snd (leadSpec c)))%bool ltac:(vm_compute; reflexivity) c H) as E.
  apply andb_true_iff in E. destruct (leadByte c), (leadSpec c). cbn in E. f_equal; lia.
Qed.
Lemma hi_bit c : 0 <= c < W8 -> (Z.land c 128 =? 0) = (c <? 128).
Proof. intros H. apply (byte_all (fun c => Bool.eqb (Z.land c 128 =? 0) (c <? 128)) ltac:(vm_compute; reflexivity)) in H. now apply eqb_prop. Qed.
Lemma cont_test c : 0 <= c < W8 -> (Z.land c 192 =? 128) = ((128 <=? c) && (c <? 192)).
Proof. intros H. apply (byte_all (fun c => Bool.eqb (Z.land c 192 =? 128) ((128 <=? c) && (c <? 192))) ltac:(vm_compute; reflexivity)) in H. now apply eqb_prop. Qed.
Lemma low6 c : Z.land c 63 = c mod 64.
Proof. change 63 with (Z.ones 6). now rewrite Z.land_ones by lia. Qed.
Lemma shl_or v c : 0 <= v -> Z.lor (Z.shiftl v 6) (Z.land c 63) = v * 64 + c mod 64.
Proof.
  intros Hv. rewrite low6, Z.shiftl_mul_pow2 by lia. change (2 ^ 6) with 64. rewrite <- Z.lxor_lor, <- Z.add_nocarry_lxor; [reflexivity| |];
  apply Z.bits_inj'; intros n Hn; rewrite Z.land_spec, Z.bits_0; change 64 with (2 ^ 6); (destruct (Z_lt_dec n 6);
   [rewrite Z.mul_pow2_bits_low by lia; reflexivity|rewrite (Z.mod_pow2_bits_high c) by lia; apply andb_false_r]).
Qed.
Lemma cont_step n v c r : 0 <= v < 2 ^ 50 -> 128 <= c < 192 -> contBytes (S n) v (c :: r) = contBytes n (v * 64 + (c - 128)) r.
Proof.
  intros Hv Hc. cbn [contBytes]. rewrite cont_test by (unfold W8; lia). replace ((128 <=? c) && (c <? 192)) with true by lia. cbn [negb].
  rewrite shl_or by lia. replace (c mod 64) with (c - 128) by lia. rewrite u64_id; [reflexivity|]. change (2 ^ 50) with 1125899906842624 in Hv. unfold isU64, W64. lia.
Qed.

Lemma hexText_lt16 f v : v < 16 -> hexText (S f) v = [hexChar v].
Proof. intros. cbn [hexText]. now replace (v <? 16) with true by lia. Qed.
Lemma hexText_ge16 f v : 16 <= v -> hexText (S f) v = hexText f (v / 16) ++ [hexChar (v mod 16)].
Proof. intros. cbn [hexText]. now replace (v <? 16) with false by lia. Qed.
(** up to four digits *)
Lemma pad_small v : 0 <= v < 65536 -> padTo4 (hexText 16 v) = [hexChar (v / 4096); hexChar (v / 256 mod 16); hexChar (v / 16 mod 16); hexChar (v mod 16)].
Proof.
  intros H. unfold padTo4. destruct (Z_lt_dec v 16) as [L|L].
  { rewrite hexText_lt16 by lia. cbn [length Nat.sub repeat app]. replace (v / 4096) with 0 by lia. replace (v / 256 mod 16) with 0 by lia. replace (v / 16 mod 16) with 0 by lia. now replace (v mod 16) with v by lia. }
  rewrite hexText_ge16 by lia. destruct (Z_lt_dec (v / 16) 16) as [L2|L2].
  { rewrite hexText_lt16 by lia. cbn [length Nat.sub repeat app]. replace (v / 4096) with 0 by lia. replace (v / 256 mod 16) with 0 by lia. now replace (v / 16 mod 16) with (v / 16) by lia. }
  rewrite hexText_ge16 by lia. destruct (Z_lt_dec (v / 16 / 16) 16) as [L3|L3].
  { rewrite hexText_lt16 by lia. cbn [length Nat.sub repeat app]. replace (v / 4096) with 0 by lia. now replace (v / 256 mod 16) with (v / 16 / 16) by lia. }
  rewrite hexText_ge16 by lia. rewrite hexText_lt16 by lia. cbn [length Nat.sub repeat app]. replace (v / 4096) with (v / 16 / 16 / 16) by lia. now replace (v / 256 mod 16) with (v / 16 / 16 mod 16) by lia.
Qed.
Lemma hexChar_ok d : 0 <= d < 16 -> isHex (hexChar d) d.
Proof. unfold isHex, hexChar. intros. destruct (d <? 10) eqn:E; lia. Qed.
Lemma hexText_hex f : forall v, 0 <= v -> Forall (fun c => exists d, isHex c d /\ c = hexChar d) (hexText f v).
Proof.
  induction f as [|f IH]; intros v Hv; cbn [hexText]; [constructor|]. destruct (v <? 16) eqn:E.
  - constructor; [|constructor]. exists v. split; [apply hexChar_ok; lia|reflexivity].
  - apply Forall_app. split; [apply IH; lia|]. constructor; [|constructor]. exists (v mod 16). split; [apply hexChar_ok; lia|reflexivity].
Qed.

(** one code point of the basic plane *)
Definition handled (c : Z) : Prop := c = 8 \/ c = 9 \/ c = 10 \/ c = 12 \/ c = 13.
Definition escOne (cp : Z) : list Z :=
  if cp =? 8 then [92; 98] else if cp =? 12 then [92; 102] else if cp =? 10 then [92; 110] else if cp =? 34 then [92; 34] else if cp =? 92 then [92; 92]
  else if cp =? 13 then [92; 114] else if cp =? 9 then [92; 116] else if cp <? 32 then [92; 117] ++ hexText 16 cp else if cp <? 128 then [cp] else [92; 117] ++ padTo4 (hexText 16 cp).
Ltac nocase := repeat match goal with |- context [?x =? ?k] => replace (x =? k) with false by lia end.
Lemma escape_utf8 cp f r : scalar cp -> escape (S f) (utf8 cp ++ r) = let* t := escape f r in Ok (escOne cp ++ t).
Proof.
  intros [H _]. unfold utf8. destruct (cp <? 128) eqn:E1.
  - cbn [app escape]. unfold escOne. destruct (cp =? 8); [reflexivity|]. destruct (cp =? 12); [reflexivity|]. destruct (cp =? 10); [reflexivity|]. destruct (cp =? 34); [reflexivity|].
    destruct (cp =? 92); [reflexivity|]. destruct (cp =? 13); [reflexivity|]. destruct (cp =? 9); [reflexivity|]. destruct (cp <? 32); [reflexivity|]. rewrite hi_bit by (unfold W8; lia). rewrite E1. reflexivity.
  - assert (Hesc : escOne cp = [92; 117] ++ padTo4 (hexText 16 cp)).
    { unfold escOne. nocase. rewrite E1. now replace (cp <? 32) with false by lia. }
    rewrite Hesc. clear Hesc. destruct (cp <? 2048) eqn:E2.
    + cbn [app escape]. nocase. replace (192 + cp / 64 <? 32) with false by lia. rewrite hi_bit by (unfold W8; lia). replace (192 + cp / 64 <? 128) with false by lia. cbn [negb].
      rewrite lead_spec by (unfold W8; lia). unfold leadSpec. replace (192 + cp / 64 <? 128) with false by lia. replace (192 + cp / 64 <? 192) with false by lia. replace (192 + cp / 64 <? 224) with true by lia.
      change (Z.to_nat (2 - 1)) with 1%nat. rewrite cont_step by lia. cbn [contBytes bind]. replace ((192 + cp / 64 - 192) * 64 + (128 + cp mod 64 - 128)) with cp by lia. reflexivity.
    + destruct (cp <? 65536) eqn:E3.
      * cbn [app escape]. nocase. replace (224 + cp / 4096 <? 32) with false by lia. rewrite hi_bit by (unfold W8; lia). replace (224 + cp / 4096 <? 128) with false by lia. cbn [negb].
        rewrite lead_spec by (unfold W8; lia). unfold leadSpec. replace (224 + cp / 4096 <? 128) with false by lia. replace (224 + cp / 4096 <? 192) with false by lia. replace (224 + cp / 4096 <? 224) with false by lia. replace (224 + cp / 4096 <? 240) with true by lia.
        change (Z.to_nat (3 - 1)) with 2%nat. rewrite cont_step by lia. rewrite cont_step by lia. cbn [contBytes bind].
        replace (((224 + cp / 4096 - 224) * 64 + (128 + cp / 64 mod 64 - 128)) * 64 + (128 + cp mod 64 - 128)) with cp by lia. reflexivity.
      * cbn [app escape]. nocase. replace (240 + cp / 262144 <? 32) with false by lia. rewrite hi_bit by (unfold W8; lia). replace (240 + cp / 262144 <? 128) with false by lia. cbn [negb].
        rewrite lead_spec by (unfold W8; lia). unfold leadSpec. replace (240 + cp / 262144 <? 128) with false by lia. replace (240 + cp / 262144 <? 192) with false by lia. replace (240 + cp / 262144 <? 224) with false by lia. replace (240 + cp / 262144 <? 240) with false by lia. replace (240 + cp / 262144 <? 248) with true by lia.
        change (Z.to_nat (4 - 1)) with 3%nat. rewrite cont_step by lia. rewrite cont_step by lia. rewrite cont_step by lia. cbn [contBytes bind].
        replace ((((240 + cp / 262144 - 240) * 64 + (128 + cp / 4096 mod 64 - 128)) * 64 + (128 + cp / 64 mod 64 - 128)) * 64 + (128 + cp mod 64 - 128)) with cp by lia. reflexivity.
Qed.
Lemma utf8_len cp : (1 <= length (utf8 cp))%nat.
Proof. unfold utf8. destruct (cp <? 128), (cp <? 2048), (cp <? 65536); cbn; lia. Qed.
Lemma escape_text cps : forall f, Forall scalar cps -> (length (flat_map utf8 cps) < f)%nat -> escape f (flat_map utf8 cps) = Ok (flat_map escOne cps).
Proof.
  induction cps as [|c r IH]; intros f H Hf; (destruct f as [|f]; [lia|]); [reflexivity|]. inversion H; subst. cbn [flat_map] in *. rewrite app_length in Hf. pose proof (utf8_len c).
  rewrite escape_utf8 by assumption. rewrite IH by (auto; lia). reflexivity.
Qed.
Lemma print_text cps : Forall scalar cps -> printString (flat_map utf8 cps) = Ok ([34] ++ flat_map escOne cps ++ [34]).
Proof. intros H. unfold printString. rewrite escape_text by (auto; lia). reflexivity. Qed.

Lemma escOne_json cp b t : scalar cp -> cp < 65536 -> (cp < 32 -> handled cp) -> jsonChars b t -> jsonChars (escOne cp ++ b) (utf16 cp ++ t).
Proof.
  intros S L Hh Hb. unfold utf16. replace (cp <? 65536) with true by lia. unfold escOne.
  destruct (cp =? 8) eqn:E8. { replace cp with 8 by lia. apply JShort; [cbn; tauto|exact Hb]. }
  destruct (cp =? 12) eqn:E12. { replace cp with 12 by lia. apply JShort; [cbn; tauto|exact Hb]. }
  destruct (cp =? 10) eqn:E10. { replace cp with 10 by lia. apply JShort; [cbn; tauto|exact Hb]. }
  destruct (cp =? 34) eqn:E34. { replace cp with 34 by lia. apply JShort; [cbn; tauto|exact Hb]. }
  destruct (cp =? 92) eqn:E92. { replace cp with 92 by lia. apply JShort; [cbn; tauto|exact Hb]. }
  destruct (cp =? 13) eqn:E13. { replace cp with 13 by lia. apply JShort; [cbn; tauto|exact Hb]. }
  destruct (cp =? 9) eqn:E9. { replace cp with 9 by lia. apply JShort; [cbn; tauto|exact Hb]. }
  unfold handled in Hh. replace (cp <? 32) with false by lia. destruct (cp <? 128) eqn:E1.
  - pose proof (JPlain cp b t S ltac:(lia) ltac:(lia) ltac:(lia) Hb) as J. unfold utf8, utf16 in J. rewrite E1 in J. now replace (cp <? 65536) with true in J by lia.
  - destruct S as [S _]. rewrite pad_small by lia. cbn [app].
    pose proof (JHex _ _ _ _ _ _ _ _ b t (hexChar_ok (cp / 4096) ltac:(lia)) (hexChar_ok (cp / 256 mod 16) ltac:(lia)) (hexChar_ok (cp / 16 mod 16) ltac:(lia)) (hexChar_ok (cp mod 16) ltac:(lia)) Hb) as J.
    replace cp with (4096 * (cp / 4096) + 256 * (cp / 256 mod 16) + 16 * (cp / 16 mod 16) + cp mod 16) at 5 by lia. exact J.
Qed.
Lemma text_json cps : Forall scalar cps -> Forall (fun c => c < 65536 /\ (c < 32 -> handled c)) cps -> jsonChars (flat_map escOne cps) (flat_map utf16 cps).
Proof.
  induction cps as [|c r IH]; intros H1 H2; [constructor|]. inversion H1; subst. inversion H2 as [|? ? [A B] H2']; subst. cbn [flat_map]. apply escOne_json; auto.
Qed.

(** ** Any bytes *)
Lemma plainHex c d b t : isHex c d -> jsonChars b t -> exists t', jsonChars (c :: b) t'.
Proof.
  intros H Hb. exists (utf16 c ++ t). assert (c < 128 /\ 32 <= c /\ c <> 34 /\ c <> 92) as (A & B & C & D) by (unfold isHex in H; lia).
  assert (scalar c) by (unfold scalar; lia). pose proof (JPlain c b t ltac:(assumption) B C D Hb) as J. unfold utf8 in J. replace (c <? 128) with true in J by lia. exact J.
Qed.
Lemma plainHexes l b t : Forall (fun c => exists d, isHex c d) l -> jsonChars b t -> exists t', jsonChars (l ++ b) t'.
Proof. revert t. induction l as [|c l IH]; intros t H Hb; [now exists t|]. inversion H as [|? ? [d Hd] H']; subst. destruct (IH t H' Hb) as [t' Ht]. apply (plainHex c d _ t' Hd Ht). Qed.
Lemma u_json s b t : Forall (fun c => exists d, isHex c d) s -> (4 <= length s)%nat -> jsonChars b t -> exists t', jsonChars ([92; 117] ++ s ++ b) t'.
Proof.
  intros H L Hb. destruct s as [|a [|x [|y [|z s]]]]; cbn [length] in L; try lia. inversion H as [|? ? [d1 D1] H1]; subst. inversion H1 as [|? ? [d2 D2] H2]; subst. inversion H2 as [|? ? [d3 D3] H3]; subst. inversion H3 as [|? ? [d4 D4] H4]; subst.
  destruct (plainHexes s b t H4 Hb) as [t' Ht]. eexists. cbn [app]. apply JHex; eassumption.
Qed.
Lemma pad_hex s : Forall (fun c => exists d, isHex c d) s -> Forall (fun c => exists d, isHex c d) (padTo4 s) /\ (4 <= length (padTo4 s))%nat.
Proof.
  intros H. unfold padTo4. split.
  - apply Forall_app. split; [|exact H]. apply Forall_forall. intros x Hx. apply repeat_spec in Hx. subst. exists 0. unfold isHex. lia.
  - rewrite app_length, repeat_length. lia.
Qed.
Lemma cont_nonneg n : forall v l v' r, 0 <= v -> contBytes n v l = Ok (v', r) -> 0 <= v' /\ exists p, l = p ++ r.
Proof.
  induction n as [|n IH]; intros v l v' r Hv H; cbn [contBytes] in H; [injection H as <- <-; split; [exact Hv|now exists []]|].
  destruct l as [|c l]; [discriminate|]. destruct (negb (Z.land c 192 =? 128)); [discriminate|]. destruct (IH _ _ _ _ (proj1 (u64_range _)) H) as (A & p & ->). split; [exact A|]. now exists (c :: p).
Qed.
Lemma lead_nonneg c : 0 <= c < W8 -> 0 <= snd (leadByte c).
Proof. intros H. rewrite lead_spec by exact H. unfold leadSpec. destruct (c <? 128) eqn:?, (c <? 192) eqn:?, (c <? 224) eqn:?, (c <? 240) eqn:?, (c <? 248) eqn:?, (c <? 252) eqn:?, (c <? 254) eqn:?, (c <? 255) eqn:?; cbn [snd]; lia. Qed.
Lemma escape_valid f : forall l out, Forall (fun c => isByte c /\ (c < 32 -> handled c)) l -> escape f l = Ok out -> exists t, jsonChars out t.
Proof.
  induction f as [|f IH]; intros l out Hl H; cbn [escape] in H; [discriminate|]. destruct l as [|c r]; [injection H as <-; exists []; constructor|].
  inversion Hl as [|? ? [Hb Hh] Hr]; subst. unfold isByte in Hb. unfold handled in Hh.
  assert (Q : forall s, (let* t := escape f r in Ok (s ++ t)) = Ok out -> (forall b t, jsonChars b t -> exists t', jsonChars (s ++ b) t') -> exists t, jsonChars out t).
  { intros s E J. destruct (escape f r) as [t| | |] eqn:Er; cbn [bind] in E; try discriminate. injection E as <-. destruct (IH r t Hr Er) as [t0 H0]. eapply J; eauto. }
  assert (K : forall x cp, In (x, cp) shortEscape -> forall b t, jsonChars b t -> exists t', jsonChars ([92; x] ++ b) t') by (intros x cp Hx b t J; exists (cp :: t); now apply JShort).
  cbv zeta in H.
  destruct (c =? 8) eqn:E8; [apply (Q _ H), (K 98 8); cbn; tauto|]. destruct (c =? 12) eqn:E12; [apply (Q _ H), (K 102 12); cbn; tauto|]. destruct (c =? 10) eqn:E10; [apply (Q _ H), (K 110 10); cbn; tauto|].
  destruct (c =? 34) eqn:E34; [apply (Q _ H), (K 34 34); cbn; tauto|]. destruct (c =? 92) eqn:E92; [apply (Q _ H), (K 92 92); cbn; tauto|]. destruct (c =? 13) eqn:E13; [apply (Q _ H), (K 114 13); cbn; tauto|].
  destruct (c =? 9) eqn:E9; [apply (Q _ H), (K 116 9); cbn; tauto|].
  destruct (c <? 32) eqn:E32.
  { apply (Q _ H). exfalso. lia. }
  destruct (negb (Z.land c 128 =? 0)) eqn:E128.
  - pose proof (lead_nonneg c Hb) as Hn. destruct (leadByte c) as [count v]. cbn [snd] in Hn. destruct (contBytes (Z.to_nat (count - 1)) v r) as [[v' r']| | |] eqn:Ec; cbn [bind] in H; try discriminate.
    destruct (cont_nonneg _ _ _ _ _ Hn Ec) as (Hv & p & ->). apply Forall_app in Hr. destruct (escape f r') as [t| | |] eqn:Er; cbn [bind] in H; try discriminate. injection H as <-. destruct (IH r' t (proj2 Hr) Er) as [t0 H0].
    assert (Hx : Forall (fun c => exists d, isHex c d) (hexText 16 v')) by (eapply Forall_impl; [|apply hexText_hex; exact Hv]; intros a (d & A & _); eauto).
    destruct (pad_hex _ Hx) as (P1 & P2). apply (u_json _ _ _ P1 P2 H0).
  - apply (Q _ H). intros b t J. rewrite hi_bit in E128 by exact Hb. exists (utf16 c ++ t). assert (Sc : scalar c) by (unfold scalar; lia).
    pose proof (JPlain c b t Sc ltac:(lia) ltac:(lia) ltac:(lia) J) as J'. unfold utf8 in J'. now replace (c <? 128) with true in J' by lia.
Qed.

Lemma escape_total f : forall l, (length l < f)%nat -> escape f l <> OutOfFuel.
Proof.
  induction f as [|f IH]; intros l Hl; [lia|]. cbn [escape]. destruct l as [|c r]; [discriminate|]. cbn [length] in Hl. cbv zeta.
  assert (Q : forall s r', (length r' <= length r)%nat -> (let* t := escape f r' in Ok (s ++ t)) <> OutOfFuel) by (intros s r' L; specialize (IH r' ltac:(lia)); destruct (escape f r'); cbn [bind]; congruence).
  destruct (c =? 8); [now apply Q|]. destruct (c =? 12); [now apply Q|]. destruct (c =? 10); [now apply Q|]. destruct (c =? 34); [now apply Q|]. destruct (c =? 92); [now apply Q|]. destruct (c =? 13); [now apply Q|]. destruct (c =? 9); [now apply Q|].
  destruct (c <? 32); [now apply Q|]. destruct (negb (Z.land c 128 =? 0)); [|now apply Q]. destruct (leadByte c) as [count v].
  assert (C : forall n v l, contBytes n v l <> OutOfFuel /\ forall v' r', contBytes n v l = Ok (v', r') -> (length r' <= length l)%nat).
  { clear. induction n as [|n IH]; intros v l; cbn [contBytes]; [split; [discriminate|]; intros v' r' E; injection E as <- <-; lia|]. destruct l as [|c l]; [split; [discriminate|discriminate]|].
    destruct (negb (Z.land c 192 =? 128)); [split; discriminate|]. destruct (IH (u64 (Z.lor (Z.shiftl v 6) (Z.land c 63))) l) as (A & B). split; [exact A|]. intros v' r' E. apply B in E. cbn [length]. lia. }
  destruct (C (Z.to_nat (count - 1)) v r) as (A & B). destruct (contBytes (Z.to_nat (count - 1)) v r) as [[v' r']| | |]; cbn [bind]; try congruence. specialize (IH r' ltac:(pose proof (B v' r' eq_refl); lia)). destruct (escape f r'); cbn [bind]; congruence.
Qed.
