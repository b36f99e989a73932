(** Property C41: JSON strings. *)
From Verif Require Import Base Json JsonSpec JsonProofs.

(** Every text of code points up to U+FFFF whose control characters are only \b \f \n \r \t prints as a JSON string that stands for
    that text.  Missing for the full property: other control characters and code points from U+10000, for which it is false (below). *)
Theorem C41_text_partial : forall cps, Forall scalar cps -> Forall (fun c => c < 65536 /\ (c < 32 -> c = 8 \/ c = 9 \/ c = 10 \/ c = 12 \/ c = 13)) cps ->
  exists out, printString (flat_map utf8 cps) = Ok out /\ jsonString out (flat_map utf16 cps).
Proof. intros cps H1 H2. eexists. split; [now apply print_text|]. exists (flat_map escOne cps). split; [reflexivity|]. now apply text_json. Qed.

(** Any bytes at all, if they contain no other control character: if anything is printed then it is a valid JSON string. *)
Theorem C41_valid_partial : forall l out, Forall isByte l -> Forall (fun c => c < 32 -> c = 8 \/ c = 9 \/ c = 10 \/ c = 12 \/ c = 13) l ->
  printString l = Ok out -> exists text, jsonString out text.
Proof.
  intros l out H1 H2 H. unfold printString in H. destruct (escape (S (length l)) l) as [b| | |] eqn:E; cbn [bind] in H; try discriminate. injection H as <-.
  enough (A : Forall (fun c => isByte c /\ (c < 32 -> handled c)) l) by (destruct (escape_valid _ l b A E) as [t Ht]; exists t, b; split; [reflexivity|exact Ht]).
  rewrite Forall_forall in *. intros c Hc. split; [auto|exact (H2 c Hc)].
Qed.
(** Printing always terminates. *)
Theorem C41_terminates : forall l, printString l <> OutOfFuel.
Proof. intros l. unfold printString. pose proof (escape_total (S (length l)) l ltac:(lia)). destruct (escape _ l); cbn [bind]; congruence. Qed.

(** The full property is false.  A string of one of the other 27 control characters is printed as something that is no JSON string at all. *)
Theorem C41_control_invalid_refuted : forall c, 0 <= c < 32 -> ~ (c = 8 \/ c = 9 \/ c = 10 \/ c = 12 \/ c = 13) ->
  exists out, printString [c] = Ok out /\ forall text, ~ jsonString out text.
Proof.
  intros c Hc Hn. assert (E : printString [c] = Ok ([34] ++ ([92; 117] ++ hexText 16 c) ++ [34])).
  { pose proof (print_text [c]) as P. cbn [flat_map] in P. unfold utf8 in P. replace (c <? 128) with true in P by lia. rewrite !app_nil_r in P. rewrite P by (constructor; [unfold scalar; lia|constructor]). unfold escOne. nocase. now replace (c <? 32) with true by lia. }
  eexists. split; [exact E|]. intros text (b & Eb & J). apply (f_equal (@tl Z)) in Eb. change (([92; 117] ++ hexText 16 c) ++ [34] = b ++ [34]) in Eb. apply app_inj_tail in Eb. destruct Eb as [<- _].
  assert (Hl : hexText 16 c = [hexChar c] \/ hexText 16 c = [hexChar (c / 16); hexChar (c mod 16)]).
  { destruct (Z_lt_dec c 16); [left; now apply hexText_lt16|right]. rewrite hexText_ge16 by lia. rewrite hexText_lt16 by lia. reflexivity. }
  assert (L : (length (hexText 16 c) < 4)%nat) by (destruct Hl as [-> | ->]; cbn; lia). clear -J L. remember ([92; 117] ++ hexText 16 c) as w eqn:Ew.
  assert (Hw : exists s, w = 92 :: 117 :: s /\ (length s < 4)%nat) by (eexists; split; [exact Ew|exact L]). clear Ew L. destruct Hw as (s & -> & L).
  inversion J as [|cp b t S G N1 N2 Hb Eq|x cp b t Hi Hb Eq|]; subst.
  - assert (Hu : utf8 cp = [cp] \/ 128 <= hd 0 (utf8 cp)) by (destruct S; unfold utf8; destruct (cp <? 128) eqn:?; [now left|right]; destruct (cp <? 2048), (cp <? 65536); cbn [hd]; lia).
    destruct Hu as [Hu|Hu]; [rewrite Hu in Eq; cbn [app] in Eq; injection Eq as Eq _; lia|]. pose proof (utf8_len cp). destruct (utf8 cp) as [|x y]; [cbn in *; lia|]. cbn [app] in Eq. injection Eq as Eq _. cbn [hd] in Hu. lia.
  - cbn in Hi. repeat (destruct Hi as [Hi|Hi]; [congruence|]). exact Hi.
  - cbn [length] in L. lia.
Qed.
(** Different texts print alike, so no reader can recover the text: a low control character followed by three hexadecimal digits prints as one
    code point, and a code point from U+10000 to U+FFFFF prints as another followed by a digit. *)
Theorem C41_lossless_refuted :
  (forall c x y z, 1 <= c < 16 -> ~ (c = 8 \/ c = 9 \/ c = 10 \/ c = 12 \/ c = 13) -> 0 <= x < 16 -> 0 <= y < 16 -> 0 <= z < 16 ->
     exists out, printString [c; hexChar x; hexChar y; hexChar z] = Ok out /\ printString (utf8 (4096 * c + 256 * x + 16 * y + z)) = Ok out) /\
  (forall cp, 65536 <= cp < 1048576 -> ~ (55296 <= cp / 16 < 57344) -> exists out, printString (utf8 cp) = Ok out /\ printString (utf8 (cp / 16) ++ [hexChar (cp mod 16)]) = Ok out).
Proof.
  assert (One : forall d, 0 <= d < 16 -> utf8 (hexChar d) = [hexChar d] /\ escOne (hexChar d) = [hexChar d] /\ scalar (hexChar d)).
  { intros d Hd. assert (48 <= hexChar d < 58 \/ 97 <= hexChar d < 103) by (unfold hexChar; destruct (d <? 10) eqn:?; lia).
    repeat split; try lia; [unfold utf8; now replace (hexChar d <? 128) with true by lia|]. unfold escOne. nocase. replace (hexChar d <? 32) with false by lia. now replace (hexChar d <? 128) with true by lia. }
  assert (Big : forall cp, 128 <= cp -> escOne cp = [92; 117] ++ padTo4 (hexText 16 cp)).
  { intros cp H. unfold escOne. nocase. replace (cp <? 32) with false by lia. now replace (cp <? 128) with false by lia. }
  split.
  - intros c x y z Hc Hn Hx Hy Hz. destruct (One x Hx) as (X1 & X2 & X3). destruct (One y Hy) as (Y1 & Y2 & Y3). destruct (One z Hz) as (Z1 & Z2 & Z3).
    assert (C1 : utf8 c = [c]) by (unfold utf8; now replace (c <? 128) with true by lia).
    assert (C2 : escOne c = [92; 117; hexChar c]) by (unfold escOne; nocase; replace (c <? 32) with true by lia; now rewrite hexText_lt16 by lia).
    pose proof (print_text [c; hexChar x; hexChar y; hexChar z]) as P. cbn [flat_map] in P. rewrite C1, C2, X1, X2, Y1, Y2, Z1, Z2 in P. cbn [app] in P.
    eexists. split; [apply P; repeat (constructor; [assumption || (unfold scalar; lia)|]); constructor|].
    set (cp := 4096 * c + 256 * x + 16 * y + z). pose proof (print_text [cp]) as P2. cbn [flat_map] in P2. rewrite !app_nil_r in P2.
    rewrite P2 by (constructor; [unfold scalar, cp; lia|constructor]). rewrite Big by (unfold cp; lia). rewrite pad_small by (unfold cp; lia). cbn [app].
    replace (cp / 4096) with c by (unfold cp; lia). replace (cp / 256 mod 16) with x by (unfold cp; lia). replace (cp / 16 mod 16) with y by (unfold cp; lia). now replace (cp mod 16) with z by (unfold cp; lia).
  - intros cp H Hs. destruct (One (cp mod 16) ltac:(lia)) as (X1 & X2 & X3).
    pose proof (print_text [cp]) as P2. cbn [flat_map] in P2. rewrite !app_nil_r in P2. eexists. split; [apply P2; constructor; [unfold scalar; lia|constructor]|].
    pose proof (print_text [cp / 16; hexChar (cp mod 16)]) as P. cbn [flat_map] in P. rewrite X1, X2 in P. rewrite !app_nil_r in P.
    rewrite P by (repeat (constructor; [assumption || (unfold scalar; lia)|]); constructor). rewrite !Big by lia.
    replace (padTo4 (hexText 16 cp)) with (padTo4 (hexText 16 (cp / 16)) ++ [hexChar (cp mod 16)]); [now rewrite <- !app_assoc|].
    rewrite pad_small by lia. unfold padTo4. rewrite hexText_ge16 by lia. rewrite hexText_ge16 by lia. rewrite hexText_ge16 by lia. rewrite hexText_ge16 by lia. rewrite hexText_lt16 by lia. cbn [app length Nat.sub repeat].
    replace (cp / 16 / 16 / 16 / 16) with (cp / 16 / 4096) by lia. now replace (cp / 16 / 16 / 16 mod 16) with (cp / 16 / 256 mod 16) by lia.
Qed.
(** Malformed UTF-8 is not always rejected: a lone continuation byte prints as a character; and a sequence cut short is read past the end of the string. *)
Theorem C41_malformed_refuted :
  (forall c, 128 <= c < 192 -> exists out, printString [c] = Ok out /\ jsonString out [c - 128]) /\ (forall c, 192 <= c < 255 -> printString [c] = UB).
Proof.
  split.
  - intros c H. assert (E : printString [c] = Ok ([34] ++ ([92; 117] ++ padTo4 (hexText 16 (c - 128))) ++ [34])).
    { unfold printString. cbn [length escape]. nocase. replace (c <? 32) with false by lia. rewrite hi_bit by (unfold W8; lia). replace (c <? 128) with false by lia. cbn [negb]. rewrite lead_spec by (unfold W8; lia). unfold leadSpec.
      replace (c <? 128) with false by lia. replace (c <? 192) with true by lia. change (Z.to_nat (1 - 1)) with 0%nat. cbn [contBytes bind]. now rewrite app_nil_r. }
    eexists. split; [exact E|]. eexists. split; [reflexivity|]. rewrite pad_small by lia. cbn [app].
    pose proof (JHex _ _ _ _ _ _ _ _ [] [] (hexChar_ok ((c - 128) / 4096) ltac:(lia)) (hexChar_ok ((c - 128) / 256 mod 16) ltac:(lia)) (hexChar_ok ((c - 128) / 16 mod 16) ltac:(lia)) (hexChar_ok ((c - 128) mod 16) ltac:(lia)) JNil) as J.
    replace (c - 128) with (4096 * ((c - 128) / 4096) + 256 * ((c - 128) / 256 mod 16) + 16 * ((c - 128) / 16 mod 16) + (c - 128) mod 16) at 5 by lia. exact J.
  - intros c H. unfold printString. cbn [length escape]. nocase. replace (c <? 32) with false by lia. rewrite hi_bit by (unfold W8; lia). replace (c <? 128) with false by lia. cbn [negb]. rewrite lead_spec by (unfold W8; lia). unfold leadSpec.
    replace (c <? 128) with false by lia. replace (c <? 192) with false by lia. destruct (c <? 224); [reflexivity|]. destruct (c <? 240); [reflexivity|]. destruct (c <? 248); [reflexivity|]. destruct (c <? 252); [reflexivity|]. destruct (c <? 254); [reflexivity|]. now replace (c <? 255) with true by lia.
Qed.

(** "a", line feed, quotation mark, e acute, euro sign *)
Example C41_case : Forall scalar [97; 10; 34; 233; 8364] /\ Forall (fun c => c < 65536 /\ (c < 32 -> c = 8 \/ c = 9 \/ c = 10 \/ c = 12 \/ c = 13)) [97; 10; 34; 233; 8364] /\
  printString (flat_map utf8 [97; 10; 34; 233; 8364]) = Ok ([34; 97; 92; 110; 92; 34; 92; 117; 48; 48; 101; 57; 92; 117; 50; 48; 97; 99; 34]).
Proof. split; [repeat constructor; try lia|]. split; [repeat constructor; lia|]. vm_compute. reflexivity. Qed.
(** U+1F600 and U+0001 "abc" *)
Example C41_wrong_cases : printString (utf8 128512) = printString (utf8 8032 ++ [48]) /\ printString [1; 97; 98; 99] = printString (utf8 6844).
Proof. split; vm_compute; reflexivity. Qed.
Print Assumptions C41_text_partial.
Print Assumptions C41_valid_partial.
Print Assumptions C41_terminates.
Print Assumptions C41_control_invalid_refuted.
Print Assumptions C41_lossless_refuted.
Print Assumptions C41_malformed_refuted.
