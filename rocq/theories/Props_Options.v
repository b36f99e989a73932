(** C172-C174: pstack's command line. *)
From Coq Require Import Ascii String.
From Verif Require Import Base ElfHash ElfHashProofs Json Args FrameText FrameTextSpec MapsSpec MapsProofs Flags FlagsSpec FlagsProofs Props_Flags Main MainSpec Options OptionsSpec.
Open Scope Z_scope.
Notation length := List.length.

(** ** C172: the help text *)
Lemma Forall2_nth_error {A B} (R : A -> B -> Prop) : forall la lb, length la = length lb -> (forall i a b, nth_error la i = Some a -> nth_error lb i = Some b -> R a b) -> Forall2 R la lb.
Proof.
  induction la as [|a la IH]; intros [|b lb] L H; try discriminate; constructor; [apply (H 0%nat); reflexivity|]. apply IH; [now injection L|]. intros i. apply (H (S i)).
Qed.
Definition metaOf (o : opt) : list Z := match pMeta o with Some m => m | None => [] end.
Lemma at_emit a (w : wr) : andThen (emit a) w = (a ++ fst w, snd w).
Proof. destruct w as [t z]. reflexivity. Qed.
Lemma dump_list data helps k : forall los os, Forall2 (fun lo o => exists h, dataFind data (loVal lo) = Some h /\ nth_error helps h = Some (pHelp o, pMeta o) /\ loName lo = pName o /\
    loArg lo = oArg (defOf o) /\ (pShort o = 0 -> loVal lo < -2) /\ (pShort o <> 0 -> loVal lo = pShort o /\ 0 < pShort o < 128)) los os ->
  dumpOpts data helps (map Some los ++ repeat None k) = (flat_map (fun o => entry (defOf o) (metaOf o) (pHelp o)) os, Ok tt).
Proof.
  induction 1 as [|lo o los os (h & D & N & E1 & E2 & E3 & E4) _ IH].
  - cbn [map app flat_map]. induction k as [|k IHk]; [reflexivity|exact IHk].
  - cbn [map flat_map]. rewrite <- app_comm_cons. cbn [dumpOpts]. rewrite D, N, IH, E1, E2. unfold entry, metaOf, defOf. cbn [oShort oArg oName].
    assert (Es : (if loVal lo >? 0 then emit (lit "-" ++ [loVal lo mod 256] ++ lit "|") else emit []) = emit (if pShort o =? 0 then [] else lit "-" ++ [pShort o] ++ lit "|")).
    { destruct (pShort o =? 0) eqn:Z0; [replace (loVal lo >? 0) with false by lia; reflexivity|]. destruct (E4 ltac:(lia)) as [-> R]. replace (pShort o >? 0) with true by lia. rewrite Z.mod_small by lia. reflexivity. }
    rewrite Es. destruct (pMeta o) as [m|]; rewrite !at_emit; cbn [fst snd]; rewrite <- ?app_assoc; reflexivity.
Qed.
Theorem C172_help_text : forall l, okDefs (map defOf l) -> exists f, build flEmpty (map defOf l) 0 = Ok f /\
  forall k, dump f (helpsOf l) k = (flat_map (fun o => entry (defOf o) (metaOf o) (pHelp o)) l, Ok tt).
Proof.
  intros l Hok. set (ds := map defOf l) in *. destruct (build_spec ds flEmpty 0) as (nx & E); [cbn; exact (vs_nodup ds Hok)|]. eexists. split; [exact E|]. intros k. unfold dump. cbn [flEmpty flLong flData flNext app].
  apply dump_list. apply Forall2_nth_error.
  - unfold longs. rewrite map_length, combine_length, vals_len. unfold ds. rewrite map_length. lia.
  - intros i lo o Hl Ho. assert (Hd : nth_error ds i = Some (defOf o)) by (unfold ds; now apply map_nth_error). destruct (nth_val_inv ds Hok i lo Hl) as (d & D1 & D2 & D3 & D4 & D5 & D6). rewrite Hd in D1. injection D1 as <-.
    exists i. split; [exact (data_find ds Hok i (loVal lo) D3)|]. split; [unfold helpsOf; now apply (map_nth_error (fun o => (pHelp o, pMeta o)))|]. rewrite D2. cbn [loName loArg loVal]. split; [reflexivity|]. split; [reflexivity|]. cbn [defOf oShort] in *. split; [exact D6|].
    intros Hs. split; [exact (D4 Hs)|]. specialize (D4 Hs). unfold letter in D5. rewrite D4 in D5. destruct (Forall_forall (fun d => goodShort d) ds) as [F _]. specialize (F (good_all ds Hok) (defOf o) (nth_error_In _ _ Hd)). unfold goodShort, letter in F. cbn [defOf oShort] in F. lia.
Qed.
(** pstack's own table is such a table, and is the one of C56 *)
Theorem C172_pstack_table : map defOf table = pstackDefs /\ okDefs (map defOf table).
Proof. assert (E : map defOf table = pstackDefs) by reflexivity. split; [exact E|]. rewrite E. exact (proj1 C56_pstack_options). Qed.
Example C172_case : entry (defOf (opt_ "depth" 114 (Some "depth"%string) "max depth when printing python structures" SetDepth)) (lit "depth") (lit "max depth when printing python structures") =
  lit "    [-r|--depth <depth>]" ++ [10] ++ lit "        max depth when printing python structures" ++ [10].
Proof. reflexivity. Qed.

(** ** C173: numbers *)
Lemma digit_val base c d : base <= 16 -> digitOf base c d -> digitVal c = d /\ 0 <= d < base.
Proof.
  unfold digitOf, digitVal. intros B ([L1 L2] & [[H1 ->]|[H1 ->]]).
  - replace ((48 <=? 48 + d) && (48 + d <=? 57)) with true by lia. split; lia.
  - replace ((48 <=? 97 + (d - 10)) && (97 + (d - 10) <=? 57)) with false by lia. replace ((97 <=? 97 + (d - 10)) && (97 + (d - 10) <=? 122)) with true by lia. split; lia.
Qed.
Lemma read_app base s v : base <= 16 -> numeral base s v -> forall r, readDigits base 0 (s ++ r) = readDigits base v r.
Proof.
  intros B. induction 1 as [c d D|s v c d N IH D]; intros r; destruct (digit_val base c d B D) as [E L].
  - cbn [app readDigits]. rewrite E. replace (d <? base) with true by lia. reflexivity.
  - rewrite <- app_assoc, IH. cbn [app readDigits]. rewrite E. replace (d <? base) with true by lia. reflexivity.
Qed.
Definition magnitude (s : list Z) : Z :=
  match s with
  | z :: x :: d :: r => if (z =? 48) && ((x =? 120) || (x =? 88)) && (digitVal d <? 16) then readDigits 16 0 (d :: r) else readDigits (if z =? 48 then 8 else 10) 0 s
  | z :: _ => readDigits (if z =? 48 then 8 else 10) 0 s
  | [] => 0
  end.
Lemma strtoll_eq s : strtoll0 s =
  (let '(neg, t) := match skipSpaces s with c :: r => if c =? 45 then (true, r) else if c =? 43 then (false, r) else (false, skipSpaces s) | [] => (false, []) end in
   Z.max (- 2 ^ 63) (Z.min (2 ^ 63 - 1) (if neg then - magnitude t else magnitude t))).
Proof. unfold strtoll0. destruct (skipSpaces s) as [|c r]; [reflexivity|]. destruct (c =? 45); [reflexivity|]. destruct (c =? 43); reflexivity. Qed.
Lemma numeral_head base s v : numeral base s v -> exists c d r, s = c :: r /\ digitOf base c d.
Proof. induction 1 as [c d D|s v c d N (c0 & d0 & r & -> & D0) D]; [now exists c, d, []|]. exists c0, d0, (r ++ [c]). now split. Qed.
Lemma numeral_all base s v : numeral base s v -> Forall (fun c => exists d, digitOf base c d) s.
Proof. induction 1 as [c d D|s v c d N IH D]; [constructor; [now exists d|constructor]|]. apply Forall_app. split; [exact IH|]. constructor; [now exists d|constructor]. Qed.
Lemma head_plain base s v : base <= 16 -> numeral base s v -> exists c r, s = c :: r /\ isSpace c = false /\ c <> 45 /\ c <> 43.
Proof. intros B N. destruct (numeral_head base s v N) as (c & d & r & -> & D). exists c, r. split; [reflexivity|]. unfold digitOf in D. unfold isSpace. repeat split; lia. Qed.
Lemma magnitude_plain base s v r : (base = 10 /\ hd 0 s <> 48 \/ base = 8 /\ hd 0 s = 48) -> numeral base s v -> (forall c, hd_error r = Some c -> digitVal c >= base /\ c <> 120 /\ c <> 88) -> magnitude (s ++ r) = v.
Proof.
  intros Hb N R.
  assert (Er : readDigits base 0 (s ++ r) = v). { rewrite (read_app base s v ltac:(lia) N). destruct r as [|c r]; [reflexivity|]. cbn [readDigits]. destruct (R c eq_refl) as [Q _]. replace (digitVal c <? base) with false by lia. reflexivity. }
  assert (Hx : forall z x q, s ++ r = z :: x :: q -> x <> 120 /\ x <> 88).
  { intros z x q E. destruct s as [|s0 [|s1 s]]; [destruct (numeral_head _ _ _ N) as (? & ? & ? & X & _); discriminate| |].
    - cbn [app] in E. injection E as -> E. destruct r as [|c r]; [discriminate|]. injection E as -> _. now destruct (R x eq_refl).
    - cbn [app] in E. injection E as -> -> _. pose proof (numeral_all _ _ _ N) as F. inversion F as [|? ? _ F']; subst. inversion F' as [|? ? (d & D) _]; subst. unfold digitOf in D. lia. }
  assert (Hz : forall z q, s ++ r = z :: q -> (if z =? 48 then 8 else 10) = base).
  { intros z q E. destruct s as [|s0 s]; [destruct (numeral_head _ _ _ N) as (? & ? & ? & X & _); discriminate|]. cbn [app hd] in *. injection E as -> _. destruct (z =? 48) eqn:Q; lia. }
  unfold magnitude. destruct (s ++ r) as [|z [|x [|d q]]] eqn:E.
  - destruct s as [|s0 s]; [destruct (numeral_head _ _ _ N) as (? & ? & ? & X & _)|]; discriminate.
  - now rewrite (Hz _ _ eq_refl).
  - now rewrite (Hz _ _ eq_refl).
  - destruct (Hx _ _ _ eq_refl) as [X1 X2]. replace ((x =? 120) || (x =? 88)) with false by lia. rewrite andb_false_r. cbn [andb]. now rewrite (Hz _ _ eq_refl).
Qed.
Lemma octal_lead s v : numeral 8 s v -> numeral 8 (48 :: s) v.
Proof.
  induction 1 as [c d D|s v c d N IH D].
  - replace d with (0 * 8 + d) by lia. apply (NumMore 8 [48] 0 c d); [apply NumOne; unfold digitOf; lia|exact D].
  - change (48 :: s ++ [c]) with ((48 :: s) ++ [c]). now apply NumMore.
Qed.
Lemma magnitude_num s v : NumText s v -> magnitude s = v /\ 0 <= v /\ exists c r, s = c :: r /\ isSpace c = false /\ c <> 45 /\ c <> 43.
Proof.
  intros [|s' v' N H|s' v' N|s' v' N].
  - repeat split; try lia. exists 48, []. repeat split; try lia; reflexivity.
  - split; [|split; [exact (numeral_nonneg 10 s' v' ltac:(lia) N)|exact (head_plain 10 s' v' ltac:(lia) N)]]. rewrite <- (app_nil_r s'). apply (magnitude_plain 10); [now left|exact N|discriminate].
  - split; [|split; [exact (numeral_nonneg 8 s' v' ltac:(lia) N)|exists 48, s'; repeat split; try lia; reflexivity]]. rewrite <- (app_nil_r (48 :: s')). apply (magnitude_plain 8); [now right|now apply octal_lead|discriminate].
  - split; [|split; [exact (numeral_nonneg 16 s' v' ltac:(lia) N)|exists 48, (120 :: s'); repeat split; try lia; reflexivity]].
    destruct (numeral_head 16 s' v' N) as (c & d & r & E & D). unfold magnitude. rewrite E. destruct (digit_val 16 c d ltac:(lia) D) as [Ev L]. rewrite Ev. replace ((48 =? 48) && ((120 =? 120) || (120 =? 88)) && (d <? 16)) with true by lia. rewrite <- E.
    pose proof (read_app 16 s' v' ltac:(lia) N []) as Q. rewrite app_nil_r in Q. rewrite Q. reflexivity.
Qed.
Lemma strtoll_num s v : NumText s v -> strtoll0 s = Z.min (2 ^ 63 - 1) v /\ strtoll0 (43 :: s) = Z.min (2 ^ 63 - 1) v /\ strtoll0 (45 :: s) = Z.max (- 2 ^ 63) (- v).
Proof.
  intros N. destruct (magnitude_num s v N) as (M & P & c & r & E & S1 & S2 & S3). rewrite !strtoll_eq. cbn [skipSpaces isSpace].
  replace (isSpace 43) with false by reflexivity. replace (isSpace 45) with false by reflexivity. cbn [Z.eqb Pos.eqb]. rewrite M.
  assert (Ek : skipSpaces s = s) by (rewrite E; cbn [skipSpaces]; now rewrite S1). rewrite Ek. rewrite E at 1. replace (c =? 45) with false by lia. replace (c =? 43) with false by lia. rewrite M. repeat split; lia.
Qed.
Lemma to_int x : - 2 ^ 31 <= x < 2 ^ 31 -> (x + 2 ^ 31) mod 2 ^ 32 - 2 ^ 31 = x.
Proof. intros H. rewrite Z.mod_small by lia. lia. Qed.
(** An option that takes a number is set to it, written in decimal, octal or hexadecimal, with or without sign. *)
Theorem C173_numbers : forall s v, IntText s v -> convertInt s = v.
Proof.
  intros s v H. unfold convertInt. destruct H as [s v N R|s v N R|s v N R]; destruct (strtoll_num s v N) as (E1 & E2 & E3); destruct (magnitude_num s v N) as (_ & P & _).
  - rewrite E1. replace (Z.min (2 ^ 63 - 1) v) with v by lia. apply to_int. lia.
  - rewrite E2. replace (Z.min (2 ^ 63 - 1) v) with v by lia. apply to_int. lia.
  - rewrite E3. replace (Z.max (- 2 ^ 63) (- v)) with (- v) by lia. apply to_int. lia.
Qed.
(** Blanks before a number make no difference: spaces, tabs, line feeds, vertical tabs, form feeds and carriage returns. *)
Definition blank (c : Z) : Prop := In c [32; 9; 10; 11; 12; 13].
Lemma space_blank c : isSpace c = true <-> blank c.
Proof. unfold isSpace, blank. cbn [In]. split; [intros E; lia|intros H; lia]. Qed.
Theorem C173_blanks : forall b s v, Forall blank b -> IntText s v -> convertInt (b ++ s) = v.
Proof.
  intros b s v F I. rewrite <- (C173_numbers s v I). unfold convertInt. rewrite !strtoll_eq. replace (skipSpaces (b ++ s)) with (skipSpaces s); [reflexivity|].
  induction F as [|c b C F IH]; [reflexivity|]. cbn [app skipSpaces]. apply space_blank in C. rewrite C. exact IH.
Qed.
Print Assumptions C173_blanks.
(** Anything else is accepted too.  A text that does not begin with a number is taken for 0; *)
Theorem C173_not_a_number_refuted : forall c r, (c < 48 \/ 57 < c) -> ~ blank c -> c <> 43 -> c <> 45 -> convertInt (c :: r) = 0.
Proof.
  intros c r H S0 S2 S3. assert (S1 : isSpace c = false) by (destruct (isSpace c) eqn:E; [apply space_blank in E; contradiction|reflexivity]). unfold convertInt. rewrite strtoll_eq. cbn [skipSpaces]. rewrite S1. replace (c =? 45) with false by lia. replace (c =? 43) with false by lia.
  replace (magnitude (c :: r)) with 0; [reflexivity|]. symmetry.
  assert (D : readDigits 10 0 (c :: r) = 0). { cbn [readDigits]. unfold digitVal. replace ((48 <=? c) && (c <=? 57)) with false by lia. destruct ((97 <=? c) && (c <=? 122)) eqn:E1; [replace (c - 87 <? 10) with false by lia; reflexivity|]. destruct ((65 <=? c) && (c <=? 90)) eqn:E2; [replace (c - 55 <? 10) with false by lia; reflexivity|reflexivity]. }
  unfold magnitude. destruct r as [|x [|d r]]; replace (c =? 48) with false by lia; cbn [andb]; exact D.
Qed.
(** what follows a number is ignored; *)
Theorem C173_trailing_refuted : forall s v c r, numeral 10 s v -> hd 0 s <> 48 -> v < 2 ^ 31 -> (c < 48 \/ 57 < c) -> c <> 120 -> c <> 88 -> convertInt (s ++ c :: r) = v.
Proof.
  intros s v c r N H R C C1 C2. unfold convertInt. rewrite strtoll_eq. destruct (head_plain 10 s v ltac:(lia) N) as (x & q & E & S1 & S2 & S3).
  assert (Ek : skipSpaces (s ++ c :: r) = s ++ c :: r) by (rewrite E; cbn [app skipSpaces]; now rewrite S1). rewrite Ek. rewrite E at 1. cbn [app]. replace (x =? 45) with false by lia. replace (x =? 43) with false by lia.
  rewrite (magnitude_plain 10 s v (c :: r)); [|now left|exact N|].
  - pose proof (numeral_nonneg 10 s v ltac:(lia) N). replace (Z.max (- 2 ^ 63) (Z.min (2 ^ 63 - 1) v)) with v by lia. apply to_int. lia.
  - intros y [= <-]. split; [|split; assumption]. unfold digitVal. replace ((48 <=? c) && (c <=? 57)) with false by lia. destruct ((97 <=? c) && (c <=? 122)) eqn:E1; [lia|]. destruct ((65 <=? c) && (c <=? 90)) eqn:E2; lia.
Qed.
(** numbers outside the range of int are reduced modulo 2^32, those of 2^63 and more are -1; *)
Theorem C173_range_refuted : forall s v, NumText s v -> 2 ^ 31 <= v ->
  convertInt s <> v /\ (v < 2 ^ 63 -> exists k, convertInt s = v - k * 2 ^ 32) /\ (2 ^ 63 <= v -> convertInt s = -1).
Proof.
  intros s v N R. destruct (strtoll_num s v N) as (E1 & _). unfold convertInt. rewrite E1. pose proof (Z.mod_pos_bound (Z.min (2 ^ 63 - 1) v + 2 ^ 31) (2 ^ 32) ltac:(lia)). split; [lia|]. split; intros Hv.
  - replace (Z.min (2 ^ 63 - 1) v) with v by lia. exists ((v + 2 ^ 31) / 2 ^ 32). pose proof (Z.div_mod (v + 2 ^ 31) (2 ^ 32) ltac:(lia)). lia.
  - replace (Z.min (2 ^ 63 - 1) v) with (2 ^ 63 - 1) by lia. reflexivity.
Qed.
(** and a leading zero makes decimal digits octal: 010 is 8, and 08 is 0. *)
Theorem C173_leading_zero_refuted : (forall s v, numeral 8 s v -> v < 2 ^ 31 -> convertInt (48 :: s) = v) /\ (forall r, convertInt (48 :: 56 :: r) = 0).
Proof.
  split; [intros s v N R; apply C173_numbers; constructor; [now apply NtOct|exact R]|]. intros [|x r]; [reflexivity|]. unfold convertInt. rewrite strtoll_eq. cbn [skipSpaces isSpace]. reflexivity.
Qed.
Example C173_cases : IntText (lit "25") 25 /\ IntText (lit "-0x1f") (-31) /\ convertInt (lit "25") = 25 /\ convertInt (lit "-0x1f") = -31 /\ convertInt (lit "010") = 8 /\ convertInt (lit "ten") = 0 /\ convertInt (lit "4294967297") = 1.
Proof.
  split; [|split; [|repeat split; reflexivity]].
  - apply ItPlain; [|lia]. apply NtDec; [|discriminate]. apply (NumMore 10 [50] 2 53 5); [apply NumOne|]; unfold digitOf; lia.
  - apply (ItMinus (lit "0x1f") 31); [|lia]. apply (NtHex [49; 102] 31). apply (NumMore 16 [49] 1 102 15); [apply NumOne|]; unfold digitOf; lia.
Qed.

(** ** C174: what a command line means *)
Section Lines.
Variable ds : list odef.
Hypothesis Hok : okDefs ds.
Let ls := longs ds (vals (-2) ds).
Let ss := flat ls.
Lemma cluster_end l cs r : letters ds l cs -> snd (cluster ss (l ++ r)) = snd (cluster ss r).
Proof. intros H. destruct (cluster_letters ds Hok l cs H r) as (evs & E & _). fold ls in E. fold ss in E. now rewrite E. Qed.
Lemma ops_short l rest : (match l with c :: _ => c <> 45 | [] => False end) ->
  operands ss ls ((45 :: l) :: rest) = match snd (cluster ss l) with CNeed _ => match rest with [] => [] | _ :: r => operands ss ls r end | _ => operands ss ls rest end.
Proof. intros H. destruct (short_arg ds l rest H) as (E1 & E2 & E3 & _). cbn [operands]. rewrite E1, E2, E3. reflexivity. Qed.
Lemma item_ops a ca rest : item ds a ca -> ca <> [] -> operands ss ls (a ++ rest) = operands ss ls rest.
Proof.
  intros H Hne. destruct H as [n i d Hi Ha|n i d v Hi Ha|n i d v Hi Ha|l cs Hl Hn|l cs i d v Hl Hi Hs Ha Hv|l cs i d v Hl Hi Hs Ha|a Ha]; [| | | | | |congruence].
  - destruct (long_stands ds Hok n i d Hi) as (v & L & _). fold ls in L. destruct (stands_ok ds Hok n i d Hi) as (N1 & N2). cbn [app operands]. rewrite beq_long by exact N1. cbn [isPrefix Z.eqb andb Pos.eqb skipn]. rewrite splitEq_no by exact N2. rewrite L. cbn [loArg]. now rewrite Ha.
  - destruct (long_stands ds Hok n i d Hi) as (w & L & _). fold ls in L. destruct (stands_ok ds Hok n i d Hi) as (N1 & N2). cbn [app operands]. rewrite beq_long by (destruct n; discriminate). cbn [isPrefix Z.eqb andb Pos.eqb skipn]. rewrite splitEq_eq by exact N2. rewrite L. reflexivity.
  - destruct (long_stands ds Hok n i d Hi) as (w & L & _). fold ls in L. destruct (stands_ok ds Hok n i d Hi) as (N1 & N2). cbn [app operands]. rewrite beq_long by exact N1. cbn [isPrefix Z.eqb andb Pos.eqb skipn]. rewrite splitEq_no by exact N2. rewrite L. cbn [loArg]. now rewrite Ha.
  - cbn [app]. pose proof (letters_head ds Hok l cs Hl) as Hh. rewrite ops_short by (destruct l; [congruence|exact Hh]). rewrite <- (app_nil_r l), (cluster_end l cs [] Hl). reflexivity.
  - cbn [app]. pose proof (letters_head ds Hok l cs Hl) as Hh. destruct (short_known ds Hok i d Hi Hs) as (S1 & S2 & S3 & S4 & _). fold ls in S1. fold ss in S1.
    rewrite ops_short by (destruct l; [exact S4|exact Hh]). rewrite (cluster_end l cs _ Hl). cbn [cluster]. replace ((oShort d =? 58) || (oShort d =? 59)) with false by lia. rewrite S1, Ha. destruct v; [congruence|reflexivity].
  - cbn [app]. pose proof (letters_head ds Hok l cs Hl) as Hh. destruct (short_known ds Hok i d Hi Hs) as (S1 & S2 & S3 & S4 & _). fold ls in S1. fold ss in S1.
    rewrite ops_short by (destruct l; [exact S4|exact Hh]). rewrite (cluster_end l cs _ Hl). cbn [cluster]. replace ((oShort d =? 58) || (oShort d =? 59)) with false by lia. rewrite S1, Ha. reflexivity.
Qed.
Lemma line_ok a calls ops : line ds a calls ops -> args ds a = (calls, Ok tt) /\ operands ss ls a = ops.
Proof.
  induction 1 as [|ops|a b cb ops Ha _ (I1 & I2)|a b ca cb ops Hi Hn _ (I1 & I2)].
  - split; reflexivity.
  - split; reflexivity.
  - split.
    + change (a :: b) with ([a] ++ b). rewrite (item_ok ds Hok [a] [] (IOperand ds a Ha) b), I1. reflexivity.
    + cbn [operands].
      assert (E1 : beq a [45; 45] = false) by (apply beq_neq; destruct Ha as [Ha| ->]; [apply Ha|discriminate]).
      assert (E2 : isPrefix [45; 45] a = false). { destruct (isPrefix [45; 45] a) eqn:X; [|reflexivity]. apply isPrefix_spec in X. destruct X as (r & ->). destruct Ha as [Ha|Ha]; [destruct (Ha (45 :: r) eq_refl)|discriminate]. }
      assert (E3 : isPrefix [45] a && (1 <? zlen a) = false). { destruct (isPrefix [45] a) eqn:X; [|reflexivity]. apply isPrefix_spec in X. destruct X as (r & ->). destruct Ha as [Ha|Ha]; [destruct (Ha r eq_refl)|]. destruct r; [reflexivity|discriminate]. }
      rewrite E1, E2, E3. now rewrite I2.
  - split; [rewrite (item_ok ds Hok a ca Hi b), I1; reflexivity|]. now rewrite (item_ops a ca b Hi Hn).
Qed.
Lemma build_shape : exists f, build flEmpty ds 0 = Ok f /\ shorts f = ss /\ flLong f = ls /\ forall a, parse f a = args ds a.
Proof.
  destruct (build_spec ds flEmpty 0) as (nx & E); [cbn; exact (vs_nodup ds Hok)|]. destruct (build_ok ds Hok) as (g & Eg & P). rewrite E in Eg. injection Eg as <-. eexists. split; [exact E|]. split; [reflexivity|]. split; [reflexivity|]. exact P.
Qed.
End Lines.

(** The name of the option that has an effect, as documented *)
Definition swName (x : sw) : string :=
  match x with
  | NoBuildIds => "no-buildid" | DoArgs => "args" | DoJson => "json" | NoSrc => "no-src" | NoThreadDb => "no-threaddb" | AllStacks => "all" | NoExtDebug => "no-ext-debug"
  | PyModules => "python-modules" | DoPython => "python" | DoLocals => "locals" | NoDieNames => "no-die-names" | FreeRes => "freeres" | Debuginfod => "debuginfod" | NoLocalFiles => "no-local-files"
  end%string.
Definition dirName (d : dir) : string := match d with DebugDir => "debug-dir" | ExeDir => "exe-dir" | ExeIdDir => "build-id-exepath" | DebugIdDir => "build-id-debugpath" end%string.
Definition dirDefault (d : dir) : list (list Z) :=
  match d with DebugDir => [lit "/usr/lib/debug"; lit "/usr/lib/debug/usr"] | ExeDir => [[]] | ExeIdDir => [lit "/usr/lib/.build-id"] | DebugIdDir => [lit "/usr/lib/debug/.build-id"] end.
Definition actName (x : action) : string :=
  match x with
  | PushDir d => dirName d | Switch x => swName x | SetDelay => "constant" | ElfDump => "elf-dump" | DwarfDump => "dwarf-dump" | SetDepth => "depth" | SetFrames => "max-frames"
  | Help => "help" | Verbose => "verbose" | Version => "version" | SetExec => "executable" | SetCommand => "command" | ClearDirs => "clear-search-paths" | SetOutput => "output"
  end%string.
Definition takesArg (x : action) : bool := match x with PushDir _ | SetDelay | ElfDump | DwarfDump | SetDepth | SetFrames | SetExec | SetCommand | SetOutput => true | _ => false end.
Lemma table_names : Forall (fun o => pName o = lit (actName (pAct o)) /\ oArg (defOf o) = takesArg (pAct o)) table.
Proof. unfold table. repeat (constructor; [split; reflexivity|]). constructor. Qed.
Definition actOf (n : list Z) : option action := match find (fun o => beq (pName o) n) table with Some o => Some (pAct o) | None => None end.
Lemma actOf_name x : actOf (lit (actName x)) = Some x.
Proof. destruct x as [[]|[]| | | | | | | | | | | | ]; vm_compute; reflexivity. Qed.
Lemma actName_inj x y : lit (actName x) = lit (actName y) -> x = y.
Proof. intros H. pose proof (actOf_name x) as Hx. rewrite H, actOf_name in Hx. congruence. Qed.
Definition action_eq_dec : forall a b : action, {a = b} + {a <> b}.
Proof. decide equality; [apply dir_eq_dec|apply sw_eq_dec]. Defined.
Notation call := (nat * option (list Z))%type.
Definition cds : list odef := map defOf table.
Lemma cds_nth i d : nth_error cds i = Some d -> exists o, nth_error table i = Some o /\ d = defOf o.
Proof. unfold cds. rewrite nth_error_map. destruct (nth_error table i) as [o|]; cbn; intros [= <-]. now exists o. Qed.
Lemma isOpt_act (i : nat) a o x : nth_error table i = Some o -> isOpt cds (actName x) (i, a) <-> pAct o = x.
Proof.
  intros E. pose proof table_names as F. rewrite Forall_forall in F. destruct (F o (nth_error_In _ _ E)) as [N _]. unfold isOpt, cds. cbn [fst]. rewrite nth_error_map, E. cbn [option_map]. split.
  - intros (d & [= <-] & H). cbn [defOf oName] in H. rewrite N in H. now apply actName_inj.
  - intros <-. exists (defOf o). split; [reflexivity|exact N].
Qed.
Lemma isOptB_spec n (c : call) : isOptB cds n c = true <-> isOpt cds n c.
Proof.
  unfold isOptB, isOpt. destruct (nth_error cds (fst c)) as [d|]; [|split; [discriminate|intros (d & X & _); discriminate]]. destruct (list_eq_dec Z.eq_dec (oName d) (lit n)) as [e|e].
  - split; [intros _; now exists d|reflexivity].
  - split; [discriminate|]. intros (d' & [= <-] & X). congruence.
Qed.
Lemma isOpt_dec n (c : call) : isOpt cds n c \/ ~ isOpt cds n c.
Proof. destruct (isOptB cds n c) eqn:E; [left; now apply isOptB_spec|right; intros X; apply isOptB_spec in X; congruence]. Qed.
Lemma given_snoc n cs c : Given cds n (cs ++ [c]) <-> Given cds n cs \/ isOpt cds n c.
Proof.
  unfold Given. split.
  - intros (x & H & I). apply in_app_iff in H as [H|[<-|[]]]; [left; now exists x|now right].
  - intros [(x & H & I)|I]; [exists x|exists c]; (split; [apply in_app_iff; cbn; tauto|exact I]).
Qed.
Lemma given_nil n : ~ Given cds n [].
Proof. intros (x & [] & _). Qed.
Lemma last_snoc n cs i a t : Last cds n (cs ++ [(i, a)]) t -> (isOpt cds n (i, a) -> a = Some t) /\ (~ isOpt cds n (i, a) -> Last cds n cs t).
Proof.
  intros (p & j & q & E & I & N). destruct q as [|q0 q] using rev_ind.
  - apply app_inj_tail in E as [-> [= -> ->]]. split; [reflexivity|]. intros X. now destruct X.
  - clear IHq. replace (p ++ (j, Some t) :: q ++ [q0]) with ((p ++ (j, Some t) :: q) ++ [q0]) in E by now rewrite <- app_assoc. apply app_inj_tail in E as [-> <-]. split.
    + intros X. destruct N. apply given_snoc. now right.
    + intros _. exists p, j, q. split; [reflexivity|]. split; [exact I|]. intros G. apply N. apply given_snoc. now left.
Qed.
Lemma last_nil n t : ~ Last cds n [] t.
Proof. intros (p & j & q & E & _). now destruct p. Qed.
Lemma args_snoc n cs i a : argsOf cds n (cs ++ [(i, a)]) = argsOf cds n cs ++ (if isOptB cds n (i, a) then match a with Some t => [t] | None => [] end else []).
Proof. unfold argsOf. rewrite flat_map_app. cbn [flat_map snd]. now rewrite app_nil_r. Qed.
Lemma informs_snoc cs c : Informs cds (cs ++ [c]) <-> Informs cds cs \/ exists n, In n infoOpts /\ isOpt cds n c.
Proof.
  unfold Informs. split.
  - intros (n & I & G). apply given_snoc in G as [G|G]; [left|right]; now exists n.
  - intros [(n & I & G)|(n & I & G)]; exists n; (split; [exact I|]); apply given_snoc; tauto.
Qed.
Lemma lastinfo_snoc cs c n : LastInfo cds (cs ++ [c]) n -> (isOpt cds n c /\ In n infoOpts) \/ ((forall m, In m infoOpts -> ~ isOpt cds m c) /\ LastInfo cds cs n).
Proof.
  intros (p & x & q & E & I & J & N). destruct q as [|q0 q] using rev_ind.
  - apply app_inj_tail in E as [-> ->]. left. now split.
  - clear IHq. replace (p ++ x :: q ++ [q0]) with ((p ++ x :: q) ++ [q0]) in E by now rewrite <- app_assoc. apply app_inj_tail in E as [-> <-]. right. split.
    + intros m Hm X. apply N. apply informs_snoc. right. now exists m.
    + exists p, x, q. split; [reflexivity|]. split; [exact I|]. split; [exact J|]. intros G. apply N. apply informs_snoc. now left.
Qed.
Lemma dirs_snoc n df cs i a l : Dirs cds n df cs l ->
  (isOpt cds "clear-search-paths" (i, a) -> ~ isOpt cds n (i, a) -> Dirs cds n df (cs ++ [(i, a)]) []) /\
  (~ isOpt cds "clear-search-paths" (i, a) -> forall t, a = Some t -> isOpt cds n (i, a) -> Dirs cds n df (cs ++ [(i, a)]) (l ++ [t])) /\
  (~ isOpt cds "clear-search-paths" (i, a) -> ~ isOpt cds n (i, a) -> Dirs cds n df (cs ++ [(i, a)]) l).
Proof.
  intros H. split; [|split].
  - intros C N. right. exists cs, (i, a), []. split; [reflexivity|]. split; [exact C|]. split; [apply given_nil|reflexivity].
  - intros C t -> N. assert (B : isOptB cds n (i, Some t) = true) by now apply isOptB_spec. destruct H as [(G & ->)|(p & c & q & -> & Hc & G & ->)].
    + left. split; [rewrite given_snoc; tauto|]. rewrite args_snoc, B. now rewrite app_assoc.
    + right. exists p, c, (q ++ [(i, Some t)]). split; [now rewrite <- app_assoc|]. split; [exact Hc|]. split; [rewrite given_snoc; tauto|]. now rewrite args_snoc, B.
  - intros C N. assert (B : isOptB cds n (i, a) = false) by (destruct (isOptB cds n (i, a)) eqn:E; [apply isOptB_spec in E; tauto|reflexivity]). destruct H as [(G & ->)|(p & c & q & -> & Hc & G & ->)].
    + left. split; [rewrite given_snoc; tauto|]. rewrite args_snoc, B. now rewrite app_nil_r.
    + right. exists p, c, (q ++ [(i, a)]). split; [now rewrite <- app_assoc|]. split; [exact Hc|]. split; [rewrite given_snoc; tauto|]. now rewrite args_snoc, B, app_nil_r.
Qed.

Section Main.
Context {D img proc : Type} (strtod : list Z -> D) (isZero : D -> bool) (zero : D)
        (canOpen : list Z -> bool) (elfDump dwarfDump : settings (D := D) -> list Z -> wr) (version : list Z)
        (killOk : Z -> bool) (attach : settings (D := D) -> option img -> Z -> res proc) (fileType : settings (D := D) -> list Z -> res Z)
        (core : settings (D := D) -> option img -> list Z -> res proc) (openImg : settings (D := D) -> list Z -> res (option img))
        (native : settings (D := D) -> proc -> nat -> wr) (pyTrace : settings (D := D) -> proc -> nat -> list Z * res bool) (interrupted : nat -> bool)
        (child : settings (D := D) -> option img -> list Z -> wr) (argv0 : list Z).
(** What the settings are after the options [calls]: a switch is on if its option is given; a number, delay, name or output file is the last given, or its
    default; directories add up; and an option that prints something sets the exit status. *)
Record Means (calls : list call) (s : settings (D := D)) : Prop := mkMeans {
  mSw : forall x, sOn s x = true <-> Given cds (swName x) calls;
  mDirs : forall d, Dirs cds (dirName d) (dirDefault d) calls (sDirs s d);
  mDepth0 : ~ Given cds "depth" calls -> sDepth s = 2 ^ 31 - 1;
  mDepth : forall t v, Last cds "depth" calls t -> IntText t v -> sDepth s = v;
  mFrames0 : ~ Given cds "max-frames" calls -> sFrames s = 30;
  mFrames : forall t v, Last cds "max-frames" calls t -> IntText t v -> sFrames s = v;
  mDelay0 : ~ Given cds "constant" calls -> sDelay s = zero;
  mDelay : forall t, Last cds "constant" calls t -> sDelay s = strtod t;
  mExec0 : ~ Given cds "executable" calls -> sExec s = [];
  mExec : forall t, Last cds "executable" calls t -> sExec s = t;
  mCmd0 : ~ Given cds "command" calls -> sCommand s = [];
  mCmd : forall t, Last cds "command" calls t -> sCommand s = t;
  mOut0 : ~ Given cds "output" calls -> sOut s = Stdout;
  mOut : forall t, Last cds "output" calls t -> canOpen t = true -> sOut s = ToFile t;
  mVerbose : sVerbose s = times cds "verbose" calls;
  mExit0 : ~ Informs cds calls -> sExit s = -1;
  mExit : forall n, LastInfo cds calls n -> sExit s = if string_dec n "help" then 64 else 0 }.
Lemma means_nil : Means [] (initial zero).
Proof.
  constructor; try reflexivity; try (intros t v X; destruct (last_nil _ _ X)); try (intros t X; destruct (last_nil _ _ X)).
  - intros x. cbn. split; [discriminate|]. intros X. destruct (given_nil _ X).
  - intros d. left. split; [apply given_nil|]. now destruct d.
  - intros n (p & c & q & E & _). now destruct p.
Qed.
Notation act' := (act strtod canOpen elfDump dwarfDump version argv0).
Notation run := (runCalls strtod canOpen elfDump dwarfDump version argv0).
Ltac killpair H := repeat match type of H with
  | context [match ?w with (_, _) => _ end] => destruct w as [? ?] eqn:?
  | context [match ?w with Ok _ => _ | Throw => _ | UB => _ | OutOfFuel => _ end] => destruct w eqn:?
  end.
Lemma act_fields help x a s ev s' : act' help x a s = (ev, Ok s') ->
  (takesArg x = true -> a <> None) /\
  (forall y, sOn s' y = true <-> sOn s y = true \/ x = Switch y) /\
  (x = ClearDirs -> forall d, sDirs s' d = []) /\ (forall d, x = PushDir d -> exists t, a = Some t /\ sDirs s' d = sDirs s d ++ [t]) /\ (forall d, x <> ClearDirs -> x <> PushDir d -> sDirs s' d = sDirs s d) /\
  (x = SetDepth -> exists t, a = Some t /\ sDepth s' = convertInt t) /\ (x <> SetDepth -> sDepth s' = sDepth s) /\
  (x = SetFrames -> exists t, a = Some t /\ sFrames s' = convertInt t) /\ (x <> SetFrames -> sFrames s' = sFrames s) /\
  (x = SetDelay -> exists t, a = Some t /\ sDelay s' = strtod t) /\ (x <> SetDelay -> sDelay s' = sDelay s) /\
  (x = SetExec -> exists t, a = Some t /\ sExec s' = t) /\ (x <> SetExec -> sExec s' = sExec s) /\
  (x = SetCommand -> exists t, a = Some t /\ sCommand s' = t) /\ (x <> SetCommand -> sCommand s' = sCommand s) /\
  (x = SetOutput -> exists t, a = Some t /\ sOut s' = if canOpen t then ToFile t else Nowhere) /\ (x <> SetOutput -> sOut s' = sOut s) /\
  sVerbose s' = sVerbose s + (if action_eq_dec x Verbose then 1 else 0) /\
  (x = Help -> sExit s' = 64) /\ (x = Version \/ x = ElfDump \/ x = DwarfDump -> sExit s' = 0) /\
  (x <> Help -> x <> Version -> x <> ElfDump -> x <> DwarfDump -> sExit s' = sExit s).
Proof.
  destruct s as [dirs on delay depth frames exit verbose exec command out]. intros H.
  assert (Sw : forall y z (b : bool), (if sw_eq_dec z y then true else b) = true <-> b = true \/ Switch z = Switch y).
  { intros y z b. destruct (sw_eq_dec z y) as [->|n]; [tauto|]. split; [tauto|]. intros [X|X]; [exact X|congruence]. }
  destruct x; cbn [act onText] in H; try (destruct a as [t|]; [|discriminate H]); cbn [onText] in H; killpair H; try discriminate H; injection H as <- <-; cbn [sOn sDirs sDepth sFrames sDelay sExec sCommand sOut sVerbose sExit];
    (split; [first [discriminate|intros _; discriminate]|]); (split; [first [exact (fun y => Sw y _ _)|intros y; split; [tauto|intros [X|X]; [exact X|discriminate]]]|]);
    (split; [first [discriminate|reflexivity]|]);
    (split; [first [intros d' [= ->]; exists t; split; [reflexivity|]; destruct (dir_eq_dec d' d'); [reflexivity|congruence]|discriminate]|]);
    (split; [first [intros d' X1 X2; destruct (dir_eq_dec d d'); [congruence|reflexivity]|intros d' X1 X2; first [reflexivity|congruence]]|]);
    repeat (split; [first [discriminate|reflexivity|intros _; exists t; split; reflexivity|intros _; reflexivity|intros X; congruence|intros [X|[X|X]]; discriminate|cbn; lia]|]); try (intros; first [reflexivity|congruence]).
Qed.
Lemma info_in : In (actName Help) infoOpts /\ In (actName Version) infoOpts /\ In (actName ElfDump) infoOpts /\ In (actName DwarfDump) infoOpts.
Proof. cbn. repeat split; tauto. Qed.
Lemma means_step help cs s i a o ev s' : nth_error table i = Some o -> Means cs s -> act' help (pAct o) a s = (ev, Ok s') -> Means (cs ++ [(i, a)]) s'.
Proof.
  intros E M H. pose proof (fun x => isOpt_act i a o x E) as IO. destruct (act_fields _ _ _ _ _ _ H) as (F0 & F1 & F2 & F3 & F4 & F5 & F6 & F7 & F8 & F9 & F10 & F11 & F12 & F13 & F14 & F15 & F16 & F17 & F18 & F19 & F20).
  assert (G0 : forall x, ~ Given cds (actName x) (cs ++ [(i, a)]) -> ~ Given cds (actName x) cs /\ pAct o <> x).
  { intros x N. rewrite given_snoc, IO in N. tauto. }
  assert (L0 : forall x t, Last cds (actName x) (cs ++ [(i, a)]) t -> (pAct o = x -> a = Some t) /\ (pAct o <> x -> Last cds (actName x) cs t)).
  { intros x t L. destruct (last_snoc _ _ _ _ _ L) as [L1 L2]. rewrite IO in L1, L2. split; assumption. }
  constructor.
  - intros x. rewrite F1, given_snoc, (mSw _ _ M x). change (swName x) with (actName (Switch x)). rewrite IO. reflexivity.
  - intros d. destruct (dirs_snoc _ _ _ i a _ (mDirs _ _ M d)) as (D1 & D2 & D3). pose proof (IO ClearDirs) as I1. pose proof (IO (PushDir d)) as I2. cbn [actName] in I1, I2.
    destruct (action_eq_dec (pAct o) ClearDirs) as [C|C]; [rewrite (F2 C); apply D1; [now apply I1|intros X; apply I2 in X; congruence]|]. destruct (action_eq_dec (pAct o) (PushDir d)) as [P|P]; [destruct (F3 d P) as (t & -> & ->); apply D2; [intros X; apply I1 in X; congruence|reflexivity|now apply I2]|]. rewrite (F4 d C P). apply D3; intros X; [apply I1 in X|apply I2 in X]; congruence.
  - intros N. destruct (G0 SetDepth N) as [N1 N2]. rewrite (F6 N2). exact (mDepth0 _ _ M N1).
  - intros t v L V. destruct (L0 SetDepth t L) as [L1 L2]. destruct (action_eq_dec (pAct o) SetDepth) as [X|X]; [destruct (F5 X) as (t' & -> & ->); specialize (L1 X); injection L1 as ->; now apply C173_numbers|rewrite (F6 X); exact (mDepth _ _ M t v (L2 X) V)].
  - intros N. destruct (G0 SetFrames N) as [N1 N2]. rewrite (F8 N2). exact (mFrames0 _ _ M N1).
  - intros t v L V. destruct (L0 SetFrames t L) as [L1 L2]. destruct (action_eq_dec (pAct o) SetFrames) as [X|X]; [destruct (F7 X) as (t' & -> & ->); specialize (L1 X); injection L1 as ->; now apply C173_numbers|rewrite (F8 X); exact (mFrames _ _ M t v (L2 X) V)].
  - intros N. destruct (G0 SetDelay N) as [N1 N2]. rewrite (F10 N2). exact (mDelay0 _ _ M N1).
  - intros t L. destruct (L0 SetDelay t L) as [L1 L2]. destruct (action_eq_dec (pAct o) SetDelay) as [X|X]; [destruct (F9 X) as (t' & -> & ->); specialize (L1 X); now injection L1 as ->|rewrite (F10 X); exact (mDelay _ _ M t (L2 X))].
  - intros N. destruct (G0 SetExec N) as [N1 N2]. rewrite (F12 N2). exact (mExec0 _ _ M N1).
  - intros t L. destruct (L0 SetExec t L) as [L1 L2]. destruct (action_eq_dec (pAct o) SetExec) as [X|X]; [destruct (F11 X) as (t' & -> & ->); specialize (L1 X); now injection L1 as ->|rewrite (F12 X); exact (mExec _ _ M t (L2 X))].
  - intros N. destruct (G0 SetCommand N) as [N1 N2]. rewrite (F14 N2). exact (mCmd0 _ _ M N1).
  - intros t L. destruct (L0 SetCommand t L) as [L1 L2]. destruct (action_eq_dec (pAct o) SetCommand) as [X|X]; [destruct (F13 X) as (t' & -> & ->); specialize (L1 X); now injection L1 as ->|rewrite (F14 X); exact (mCmd _ _ M t (L2 X))].
  - intros N. destruct (G0 SetOutput N) as [N1 N2]. rewrite (F16 N2). exact (mOut0 _ _ M N1).
  - intros t L C. destruct (L0 SetOutput t L) as [L1 L2]. destruct (action_eq_dec (pAct o) SetOutput) as [X|X]; [destruct (F15 X) as (t' & -> & ->); specialize (L1 X); injection L1 as ->; now rewrite C|rewrite (F16 X); exact (mOut _ _ M t (L2 X) C)].
  - rewrite F17, (mVerbose _ _ M). unfold times. rewrite filter_app, zlen_app. cbn [filter]. destruct (action_eq_dec (pAct o) Verbose) as [X|X].
    + apply (IO Verbose) in X. apply isOptB_spec in X. cbn [actName] in X. rewrite X. reflexivity.
    + destruct (isOptB cds "verbose" (i, a)) eqn:B; [apply isOptB_spec in B; apply (IO Verbose) in B; congruence|reflexivity].
  - intros N. rewrite informs_snoc in N. assert (Nx : forall x, In (actName x) infoOpts -> pAct o <> x) by (intros x Hx X; apply N; right; exists (actName x); split; [exact Hx|now apply IO]).
    rewrite F20; [apply (mExit0 _ _ M); intros X; apply N; now left|apply (Nx Help)|apply (Nx Version)|apply (Nx ElfDump)|apply (Nx DwarfDump)]; apply info_in.
  - intros n L. apply lastinfo_snoc in L as [[I J]|[N L]].
    + destruct J as [<-|[<-|[<-|[<-|[]]]]].
      * apply (IO Help) in I. now apply F18.
      * apply (IO Version) in I. apply F19. now left.
      * apply (IO ElfDump) in I. apply F19. right. now left.
      * apply (IO DwarfDump) in I. apply F19. right. now right.
    + assert (Nx : forall x, In (actName x) infoOpts -> pAct o <> x) by (intros x Hx X; apply (N (actName x) Hx); now apply IO).
      rewrite F20; [exact (mExit _ _ M n L)|apply (Nx Help)|apply (Nx Version)|apply (Nx ElfDump)|apply (Nx DwarfDump)]; apply info_in.
Qed.
Lemma run_app help p : forall q s, run help (p ++ q) s = match run help p s with (ev, Ok s') => (ev ++ fst (run help q s'), snd (run help q s')) | w => w end.
Proof.
  induction p as [|[i a] p IH]; intros q s; cbn [app runCalls].
  - now destruct (run help q s) as [ev z].
  - destruct (nth_error table i) as [o|]; [|reflexivity]. destruct (act' help (pAct o) a s) as [ev [s1| | |]]; try reflexivity. rewrite IH. destruct (run help p s1) as [ev1 [s2| | |]]; try reflexivity. cbn [fst snd]. now rewrite app_assoc.
Qed.
(** What the options print: the help text on standard output, the version on standard error, a dump of an image to the output in force at that
    point; and an output file is emptied. *)
Record Prints (help : list Z) (calls : list call) (evs : list (list event)) : Prop := mkPrints {
  prLen : length evs = length calls;
  prEach : forall p c q e, calls = p ++ c :: q -> nth_error evs (length p) = Some e -> exists s, Means p s /\
    (isOpt cds "help" c -> e = [Wrote Stdout help]) /\ (isOpt cds "version" c -> e = [OnErr (version ++ [10])]) /\
    (isOpt cds "elf-dump" c -> exists t, snd c = Some t /\ e = [Wrote (sOut s) (fst (elfDump s t))]) /\
    (isOpt cds "dwarf-dump" c -> exists t, snd c = Some t /\ e = [Wrote (sOut s) (fst (dwarfDump s t))]) /\
    (isOpt cds "output" c -> exists t, snd c = Some t /\ e = if canOpen t then [Truncated t] else []) /\
    ((forall n, In n infoOpts -> ~ isOpt cds n c) -> ~ isOpt cds "output" c -> e = []) }.
Lemma run_ok help calls : forall ev s, run help calls (initial zero) = (ev, Ok s) -> Means calls s /\ exists evs, ev = List.concat evs /\ Prints (fst (usage argv0 help)) calls evs.
Proof.
  induction calls as [|[i a] cs IH] using rev_ind; intros ev s H.
  - cbn [runCalls] in H. injection H as <- <-. split; [exact means_nil|]. exists []. split; [reflexivity|]. constructor; [reflexivity|]. intros p c q e E. now destruct p.
  - rewrite run_app in H. destruct (run help cs (initial zero)) as [ev1 [s1| | |]] eqn:R1; try discriminate H. cbn [runCalls] in H.
    destruct (nth_error table i) as [o|] eqn:E; [|discriminate H]. destruct (act' help (pAct o) a s1) as [ev2 [s2| | |]] eqn:A; try discriminate H. cbn [fst snd] in H. rewrite app_nil_r in H. injection H as <- <-.
    destruct (IH ev1 s1 eq_refl) as (M & evs & -> & [P1 P2]). split; [exact (means_step _ _ _ _ _ _ _ _ E M A)|]. exists (evs ++ [ev2]). split; [rewrite concat_app; cbn [List.concat]; now rewrite app_nil_r|].
    constructor; [rewrite !app_length; cbn; lia|]. intros p c q e Ec Ne. destruct q as [|q0 q] using rev_ind.
    + apply app_inj_tail in Ec as [<- <-]. rewrite nth_error_app2 in Ne by lia. rewrite P1, Nat.sub_diag in Ne. injection Ne as <-. exists s1. split; [exact M|]. pose proof (fun x => isOpt_act i a o x E) as IO.
      pose proof (IO Help) as J1. pose proof (IO Version) as J2. pose proof (IO ElfDump) as J3. pose proof (IO DwarfDump) as J4. pose proof (IO SetOutput) as J5. cbn [actName] in J1, J2, J3, J4, J5.
      split; [|split; [|split; [|split; [|split]]]].
      * intros X. apply J1 in X. rewrite X in A. destruct s1. cbn [act] in A. destruct (usage argv0 help) as [t [ | | |]]; try discriminate A. now injection A as <- <-.
      * intros X. apply J2 in X. rewrite X in A. destruct s1. cbn [act] in A. now injection A as <- <-.
      * intros X. apply J3 in X. rewrite X in A. destruct s1 eqn:Es. cbn [act] in A. destruct a as [t|]; [|discriminate A]. cbn [onText] in A. rewrite <- Es in *. exists t. split; [reflexivity|]. destruct (elfDump s1 t) as [t' [ | | |]]; try discriminate A. injection A as <- <-. now rewrite Es.
      * intros X. apply J4 in X. rewrite X in A. destruct s1 eqn:Es. cbn [act] in A. destruct a as [t|]; [|discriminate A]. cbn [onText] in A. rewrite <- Es in *. exists t. split; [reflexivity|]. destruct (dwarfDump s1 t) as [t' [ | | |]]; try discriminate A. injection A as <- <-. now rewrite Es.
      * intros X. apply J5 in X. rewrite X in A. destruct s1. cbn [act] in A. destruct a as [t|]; [|discriminate A]. cbn [onText] in A. exists t. split; [reflexivity|]. now injection A as <- <-.
      * intros X Y. assert (Nx : forall x, In (actName x) infoOpts -> pAct o <> x) by (intros x Hx Z0; apply (X (actName x) Hx); now apply IO). destruct info_in as (I1 & I2 & I3 & I4). pose proof (Nx Help I1). pose proof (Nx Version I2). pose proof (Nx ElfDump I3). pose proof (Nx DwarfDump I4).
        assert (pAct o <> SetOutput) by (intros Z0; apply Y; now apply J5). destruct s1. destruct (pAct o); cbn [act] in A; try congruence; try (destruct a as [t|]; [|discriminate A]); cbn [onText] in A; now injection A as <- <-.
    + clear IHq. replace (p ++ c :: q ++ [q0]) with ((p ++ c :: q) ++ [q0]) in Ec by now rewrite <- app_assoc. apply app_inj_tail in Ec as [-> <-]. rewrite nth_error_app1 in Ne by (rewrite P1, app_length; cbn; lia). exact (P2 p c q e eq_refl Ne).
Qed.
(** the calls of a command line have arguments where the options take them *)
Definition wfCall (c : call) : Prop := exists d, nth_error cds (fst c) = Some d /\ (oArg d = true <-> snd c <> None).
Lemma letters_wf l cs : letters cds l cs -> Forall wfCall cs.
Proof. induction 1 as [|i d l cs Hi Hs Ha Hl IH]; constructor; [|exact IH]. exists d. split; [exact Hi|]. cbn. rewrite Ha. split; [discriminate|congruence]. Qed.
Lemma stands_nth n i d : stands cds n i d -> nth_error cds i = Some d.
Proof. now intros []. Qed.
Lemma item_wf a ca : item cds a ca -> Forall wfCall ca.
Proof.
  assert (W : forall i d v, nth_error cds i = Some d -> oArg d = true -> wfCall (i, Some v)) by (intros i d v Hi Ha; exists d; split; [exact Hi|]; cbn; rewrite Ha; split; [discriminate|reflexivity]).
  intros [n i d Hi Ha|n i d v Hi Ha|n i d v Hi Ha|l cs Hl Hn|l cs i d v Hl Hi Hs Ha Hv|l cs i d v Hl Hi Hs Ha|x Ha].
  - constructor; [|constructor]. exists d. split; [exact (stands_nth _ _ _ Hi)|]. cbn. rewrite Ha. split; [discriminate|congruence].
  - constructor; [|constructor]. exact (W i d v (stands_nth _ _ _ Hi) Ha).
  - constructor; [|constructor]. exact (W i d v (stands_nth _ _ _ Hi) Ha).
  - exact (letters_wf l cs Hl).
  - apply Forall_app. split; [exact (letters_wf l cs Hl)|]. constructor; [|constructor]. exact (W i d v Hi Ha).
  - apply Forall_app. split; [exact (letters_wf l cs Hl)|]. constructor; [|constructor]. exact (W i d v Hi Ha).
  - constructor.
Qed.
Lemma line_wf a calls ops : line cds a calls ops -> Forall wfCall calls.
Proof. induction 1 as [|ops|a b cb ops Ha _ IH|a b ca cb ops Hi Hn _ IH]; try constructor; [exact IH|]. apply Forall_app. split; [exact (item_wf a ca Hi)|exact IH]. Qed.
Lemma items_wf a calls : items cds a calls -> Forall wfCall calls.
Proof. induction 1 as [|a b ca cb Ha _ IH]; [constructor|]. apply Forall_app. split; [exact (item_wf a ca Ha)|exact IH]. Qed.
(** The images to be dumped can be. *)
Definition DumpsWork (calls : list call) : Prop :=
  (forall s t, In t (argsOf cds "elf-dump" calls) -> snd (elfDump s t) = Ok tt) /\ (forall s t, In t (argsOf cds "dwarf-dump" calls) -> snd (dwarfDump s t) = Ok tt).
Lemma run_succeeds help calls : snd help = Ok tt -> Forall wfCall calls -> DumpsWork calls -> forall s, exists ev s', run help calls s = (ev, Ok s').
Proof.
  intros Hh F. induction F as [|[i a] cs (d & Hd & Ha) _ IH]; intros [W1 W2] s; [now exists [], s|]. cbn [fst snd] in Hd, Ha. destruct (cds_nth i d Hd) as (o & E & ->). cbn [runCalls]. rewrite E.
  assert (Wc : DumpsWork cs). { split; intros s0 t Ht; [apply W1|apply W2]; unfold argsOf in *; cbn [flat_map]; apply in_app_iff; now right. }
  pose proof table_names as Ft. rewrite Forall_forall in Ft. destruct (Ft o (nth_error_In _ _ E)) as [_ Ta]. rewrite Ta in Ha. pose proof (fun x => isOpt_act i a o x E) as IO.
  assert (exists ev s', act' help (pAct o) a s = (ev, Ok s')) as (ev & s' & A).
  { assert (Aw : pAct o = ElfDump \/ pAct o = DwarfDump -> exists t, a = Some t /\ (pAct o = ElfDump -> snd (elfDump s t) = Ok tt) /\ (pAct o = DwarfDump -> snd (dwarfDump s t) = Ok tt)).
    { intros X. assert (Na : a <> None) by (apply Ha; destruct X as [-> | ->]; reflexivity). destruct a as [t|]; [|congruence]. exists t. split; [reflexivity|].
      split; intros Y; [apply W1; apply (IO ElfDump) in Y|apply W2; apply (IO DwarfDump) in Y]; apply isOptB_spec in Y; cbn [actName] in Y; unfold argsOf; cbn [flat_map snd]; rewrite Y; now left. }
    assert (Us : exists t, usage argv0 help = (t, Ok tt)) by (destruct help as [t z]; cbn in Hh; subst z; unfold usage; rewrite !at_emit; eexists; reflexivity).
    destruct s as [dirs on delay depth frames exit verbose exec command out]. destruct (pAct o) eqn:X; cbn [takesArg] in Ha; cbn [act];
      try (destruct a as [t|]; [|destruct (proj1 Ha eq_refl eq_refl)]; cbn [onText]); try (eexists; eexists; reflexivity).
    - destruct (Aw (or_introl eq_refl)) as (t' & [= <-] & Y & _). specialize (Y eq_refl). destruct (elfDump _ t) as [x z]. cbn in Y. subst z. eexists; eexists; reflexivity.
    - destruct (Aw (or_intror eq_refl)) as (t' & [= <-] & _ & Y). specialize (Y eq_refl). destruct (dwarfDump _ t) as [x z]. cbn in Y. subst z. eexists; eexists; reflexivity.
    - destruct Us as (t & ->). eexists; eexists; reflexivity. }
  rewrite A. destruct (IH Wc s') as (ev' & s'' & ->). eexists; eexists; reflexivity.
Qed.
(** the help text of pstack *)
Definition helpText : list Z := flat_map (fun o => entry (defOf o) (metaOf o) (pHelp o)) table.
Definition usageText : list Z :=
  lit "usage: " ++ argv0 ++ lit " <[ exe ] <PID | core> >+" ++ [10; 10] ++
  lit "print a stack trace of PID or core. If specified, assume image was created from" ++ [10] ++
  lit " execing `exe`, otherwise, the executable is inferred from the process or core" ++ [10; 10] ++ lit "available options:" ++ [10] ++ helpText ++ [10].
Lemma usage_ok : usage argv0 (helpText, Ok tt) = (usageText, Ok tt).
Proof. unfold usage. rewrite at_emit. unfold andThen, emit. cbn [fst snd]. unfold usageText. rewrite <- !app_assoc. reflexivity. Qed.
Notation emain' := (emain strtod isZero zero canOpen elfDump dwarfDump version killOk attach fileType core openImg native pyTrace interrupted child argv0).
Notation main' := (Options.main strtod isZero zero canOpen elfDump dwarfDump version killOk attach fileType core openImg native pyTrace interrupted child argv0).
Notation after := (afterOptions isZero killOk attach fileType core openImg native pyTrace interrupted child argv0).
Lemma emain_line n args calls ops : line cds args calls ops -> DumpsWork calls -> exists evs s, Means calls s /\ Prints usageText calls evs /\
  emain' n args = (List.concat evs ++ fst (after n (helpText, Ok tt) s ops), snd (after n (helpText, Ok tt) s ops)).
Proof.
  intros L W. destruct C172_pstack_table as [_ Hok]. destruct (C172_help_text table Hok) as (f & Ef & Hd). destruct (build_shape cds Hok) as (f' & Ef' & S1 & S2 & S3). unfold cds in Ef' at 1. rewrite Ef in Ef'. injection Ef' as <-.
  destruct (line_ok cds Hok _ _ _ L) as [P O0]. unfold emain. rewrite Ef, Hd, S3, P. fold helpText.
  destruct (run_succeeds (helpText, Ok tt) calls eq_refl (line_wf _ _ _ L) W (initial zero)) as (ev & s & R). rewrite R. destruct (run_ok _ _ _ _ R) as (M & evs & -> & Pr). rewrite usage_ok in Pr. cbn [fst] in Pr.
  exists evs, s. split; [exact M|]. split; [exact Pr|]. rewrite S1, S2, O0. now destruct (after n (helpText, Ok tt) s ops).
Qed.
(** The output files named by the options: each is emptied when its option is met. *)
Lemma truncs calls evs : Prints usageText calls evs -> ~ Informs cds calls -> List.concat evs = map Truncated (filter canOpen (argsOf cds "output" calls)).
Proof.
  revert evs. induction calls as [|c cs IH] using rev_ind; intros evs [P1 P2] N.
  - destruct evs; [reflexivity|discriminate].
  - destruct evs as [|e evs] using rev_ind; [rewrite app_length in P1; cbn in P1; lia|]. clear IHevs. rewrite !app_length in P1. cbn in P1. rewrite informs_snoc in N.
    rewrite concat_app. cbn [List.concat]. rewrite app_nil_r. destruct c as [i a]. rewrite args_snoc, filter_app, map_app. f_equal.
    + apply IH; [|intros X; apply N; now left]. constructor; [lia|]. intros p x q e' -> Ne. apply (P2 p x (q ++ [(i, a)])); [now rewrite <- app_assoc|]. rewrite nth_error_app1; [exact Ne|]. apply nth_error_Some. congruence.
    + destruct (P2 cs (i, a) [] e eq_refl) as (s & _ & _ & _ & _ & _ & E5 & E6); [rewrite nth_error_app2 by lia; replace (length cs - length evs)%nat with 0%nat by lia; reflexivity|].
      destruct (isOptB cds "output" (i, a)) eqn:B.
      * apply isOptB_spec in B. destruct (E5 B) as (t & Et & ->). cbn [snd] in Et. subst a. cbn [filter]. destruct (canOpen t); reflexivity.
      * rewrite E6; [reflexivity|intros n Hn X; apply N; right; now exists n|intros X; apply isOptB_spec in X; congruence].
Qed.
Lemma zlen_zero {A} (l : list A) : (zlen l =? 0) = true <-> l = [].
Proof. destruct l as [|x l]; [split; reflexivity|]. rewrite zlen_cons. pose proof (zlen_nonneg l). split; [lia|discriminate]. Qed.
Lemma zlen_nz {A} (l : list A) : l <> [] -> (zlen l =? 0) = false.
Proof. intros H. destruct (zlen l =? 0) eqn:E; [apply zlen_zero in E; congruence|reflexivity]. Qed.
Lemma wrong_wf b cb : wrong cds b cb -> Forall wfCall cb.
Proof. intros [ | | | |l cs c r rest Hl _ _|l cs i d Hl _ _ _]; try constructor; exact (letters_wf _ _ Hl). Qed.
(** The executable: the one given with -e, if any. *)
Definition ExecIs (calls : list call) (s : settings (D := D)) (e : option img) : Prop :=
  (~ Given cds "executable" calls /\ e = None) \/ (exists t, Last cds "executable" calls t /\ t <> [] /\ openImg s t = Ok e).
Lemma exec_after calls s e : Means calls s -> ExecIs calls s e -> (if zlen (sExec s) =? 0 then Ok None else openImg s (sExec s)) = Ok e.
Proof. intros M [[N ->]|(t & L & Ht & Ho)]; [now rewrite (mExec0 _ _ M N)|]. now rewrite (mExec _ _ M t L), (zlen_nz t Ht). Qed.
(** A command line without options that print something or run a command, with operands: the operands are traced as C125 says, in the order given, with the settings
    the options mean; the traces go to the output, and the status tells of failures. *)
Theorem C174_trace : forall n args calls ops, line cds args calls ops -> ~ Informs cds calls -> ~ Given cds "command" calls -> ops <> [] ->
  exists s, Means calls s /\ forall e, ExecIs calls s e -> forall text failed,
  argLoop killOk (attach s) (fileType s) (core s) (openImg s) (native s) (pyTrace s) interrupted n (mkMO (sOn s DoPython) (sOn s AllStacks) (negb (isZero (sDelay s)))) e 0 ops = (text, failed, Ok tt) ->
  main' n args = (map Truncated (filter canOpen (argsOf cds "output" calls)) ++ Wrote (sOut s) text :: map Failed failed, Ok (exitStatus failed)).
Proof.
  intros n args calls ops L N C Ho.
  assert (W : DumpsWork calls).
  { split; intros s t Ht; exfalso; apply N; unfold argsOf in Ht; apply in_flat_map in Ht as (c & Hc & X); [exists "elf-dump"%string|exists "dwarf-dump"%string]; (split; [cbn; tauto|]); exists c; (split; [exact Hc|]); apply isOptB_spec.
    - destruct (isOptB cds "elf-dump" c); [reflexivity|destruct X].
    - destruct (isOptB cds "dwarf-dump" c); [reflexivity|destruct X]. }
  destruct (emain_line n args calls ops L W) as (evs & s & M & P & E). exists s. split; [exact M|]. intros e He text failed A. unfold Options.main. rewrite E. unfold afterOptions. rewrite (mExit0 _ _ M N). cbn [Z.eqb negb].
  rewrite (exec_after calls s e M He). rewrite (mCmd0 _ _ M C). change (zlen (@nil Z)) with 0. cbn [Z.eqb negb]. rewrite (zlen_nz ops Ho), A. cbn [fst snd bind]. now rewrite (truncs calls evs P N).
Qed.
(** With an option that prints something and exits nothing is traced, whatever else is on the command line: each prints its text (Prints), and the last one determines the exit
    status: 64 after --help, 0 after the others. *)
Theorem C174_information : forall n args calls ops, line cds args calls ops -> DumpsWork calls -> Informs cds calls ->
  exists evs, Prints usageText calls evs /\ forall o, LastInfo cds calls o -> main' n args = (List.concat evs, Ok (if string_dec o "help" then 64 else 0)).
Proof.
  intros n args calls ops L W I. destruct (emain_line n args calls ops L W) as (evs & s & M & P & E). exists evs. split; [exact P|]. intros o Lo. unfold Options.main. rewrite E. unfold afterOptions. rewrite (mExit _ _ M o Lo).
  destruct (string_dec o "help"); cbn [Z.eqb negb fst snd]; now rewrite app_nil_r.
Qed.
(** A command (-x) is run and traced instead of the operands. *)
Theorem C174_command : forall n args calls ops t, line cds args calls ops -> ~ Informs cds calls -> Last cds "command" calls t -> t <> [] ->
  exists s, Means calls s /\ forall e, ExecIs calls s e -> snd (child s e t) = Ok tt ->
  main' n args = (map Truncated (filter canOpen (argsOf cds "output" calls)) ++ [Wrote (sOut s) (fst (child s e t))], Ok 0).
Proof.
  intros n args calls ops t L N C Ht.
  assert (W : DumpsWork calls).
  { split; intros s x Hx; exfalso; apply N; unfold argsOf in Hx; apply in_flat_map in Hx as (c & Hc & X); [exists "elf-dump"%string|exists "dwarf-dump"%string]; (split; [cbn; tauto|]); exists c; (split; [exact Hc|]); apply isOptB_spec.
    - destruct (isOptB cds "elf-dump" c); [reflexivity|destruct X].
    - destruct (isOptB cds "dwarf-dump" c); [reflexivity|destruct X]. }
  destruct (emain_line n args calls ops L W) as (evs & s & M & P & E). exists s. split; [exact M|]. intros e He A. unfold Options.main. rewrite E. unfold afterOptions. rewrite (mExit0 _ _ M N). cbn [Z.eqb negb].
  rewrite (exec_after calls s e M He). rewrite (mCmd _ _ M t C). rewrite (zlen_nz t Ht). cbn [negb]. destruct (child s e t) as [x z]. cbn [snd] in A. subst z. cbn [fst snd bind]. now rewrite (truncs calls evs P N).
Qed.
(** Without operands the usage is printed on standard error and the status is 64. *)
Theorem C174_no_operands : forall n args calls, line cds args calls [] -> ~ Informs cds calls -> ~ Given cds "command" calls -> ~ Given cds "executable" calls ->
  main' n args = (map Truncated (filter canOpen (argsOf cds "output" calls)) ++ [OnErr usageText], Ok 64).
Proof.
  intros n args calls L N C X0.
  assert (W : DumpsWork calls).
  { split; intros s x Hx; exfalso; apply N; unfold argsOf in Hx; apply in_flat_map in Hx as (c & Hc & X); [exists "elf-dump"%string|exists "dwarf-dump"%string]; (split; [cbn; tauto|]); exists c; (split; [exact Hc|]); apply isOptB_spec.
    - destruct (isOptB cds "elf-dump" c); [reflexivity|destruct X].
    - destruct (isOptB cds "dwarf-dump" c); [reflexivity|destruct X]. }
  destruct (emain_line n args calls [] L W) as (evs & s & M & P & E). unfold Options.main. rewrite E. unfold afterOptions. rewrite (mExit0 _ _ M N). cbn [Z.eqb negb].
  rewrite (mExec0 _ _ M X0), (mCmd0 _ _ M C). change (zlen (@nil Z)) with 0. change (zlen (@nil (list Z))) with 0. cbn [Z.eqb negb]. rewrite usage_ok. cbn [fst snd bind]. now rewrite (truncs calls evs P N).
Qed.
(** An executable given with -e that cannot be opened: nothing is traced, status 70. *)
Theorem C174_bad_executable : forall n args calls ops t, line cds args calls ops -> ~ Informs cds calls -> Last cds "executable" calls t -> t <> [] ->
  exists s, Means calls s /\ (openImg s t = Throw -> main' n args = (map Truncated (filter canOpen (argsOf cds "output" calls)) ++ [Fatal], Ok 70)).
Proof.
  intros n args calls ops t L N C Ht.
  assert (W : DumpsWork calls).
  { split; intros s x Hx; exfalso; apply N; unfold argsOf in Hx; apply in_flat_map in Hx as (c & Hc & X); [exists "elf-dump"%string|exists "dwarf-dump"%string]; (split; [cbn; tauto|]); exists c; (split; [exact Hc|]); apply isOptB_spec.
    - destruct (isOptB cds "elf-dump" c); [reflexivity|destruct X].
    - destruct (isOptB cds "dwarf-dump" c); [reflexivity|destruct X]. }
  destruct (emain_line n args calls ops L W) as (evs & s & M & P & E). exists s. split; [exact M|]. intros A. unfold Options.main. rewrite E. unfold afterOptions. rewrite (mExit0 _ _ M N). cbn [Z.eqb negb].
  rewrite (mExec _ _ M t C), (zlen_nz t Ht), A. cbn [fst snd]. now rewrite app_nil_r, (truncs calls evs P N).
Qed.
(** A command line that is wrong somewhere: what precedes has its effects, the options are listed on standard error, nothing is traced, status 70. *)
Theorem C174_wrong_line : forall n a ca b cb, items cds a ca -> wrong cds b cb -> DumpsWork (ca ++ cb) ->
  exists evs, Prints usageText (ca ++ cb) evs /\ main' n (a ++ b) = (List.concat evs ++ [OnErr helpText; Fatal], Ok 70).
Proof.
  intros n a ca b cb Ha Hb W. destruct C172_pstack_table as [_ Hok]. destruct (C172_help_text table Hok) as (f & Ef & Hd). destruct (C56_rejects cds Hok) as (f' & Ef' & R0). unfold cds in Ef'. rewrite Ef in Ef'. injection Ef' as <-.
  unfold Options.main, emain. rewrite Ef, Hd, (R0 a ca b cb Ha Hb). fold helpText.
  destruct (run_succeeds (helpText, Ok tt) (ca ++ cb) eq_refl) with (s := initial zero) as (ev & s & R); [apply Forall_app; split; [exact (items_wf a ca Ha)|exact (wrong_wf b cb Hb)]|exact W|]. rewrite R. destruct (run_ok _ _ _ _ R) as (M & evs & -> & Pr). rewrite usage_ok in Pr. cbn [fst] in Pr.
  exists evs. split; [exact Pr|]. cbn [bind]. now rewrite <- app_assoc.
Qed.
(** The full property is false for -o.  If the file cannot be opened, nobody is told: the traces are lost and the status is that of the traces. *)
Theorem C174_output_lost_refuted : forall n t ops, canOpen t = false -> ops <> [] -> Forall isOperand ops -> exists s, sOut s = Nowhere /\ forall text,
  argLoop killOk (attach s) (fileType s) (core s) (openImg s) (native s) (pyTrace s) interrupted n (mkMO (sOn s DoPython) (sOn s AllStacks) (negb (isZero (sDelay s)))) None 0 ops = (text, [], Ok tt) ->
  main' n ([45; 111] :: t :: ops) = ([Wrote Nowhere text], Ok 0).
Proof.
  intros n t ops C Ho Fo. destruct C172_pstack_table as [_ Hok]. destruct (C172_help_text table Hok) as (f & Ef & Hd). destruct (build_shape cds Hok) as (f' & Ef' & S1 & S2 & S3). unfold cds in Ef' at 1. rewrite Ef in Ef'. injection Ef' as <-.
  assert (L : line cds ([45; 111] :: t :: ops) [(27%nat, Some t)] ops).
  { apply (LnOpt cds [[45; 111]; t] ops [(27%nat, Some t)] []); [|discriminate|].
    - apply (IShortNext cds [] [] 27 (mkO (lit "output") 111 true) t); try reflexivity; [constructor|discriminate].
    - clear Ho. induction Fo as [|x r Hx _ IH]; constructor; assumption. }
  destruct (line_ok cds Hok _ _ _ L) as [P O0]. eexists. split; cycle 1.
  - intros text A. unfold Options.main, emain. rewrite Ef, Hd, S3, P. fold helpText. cbn [runCalls nth_error table pAct opt_ act initial onText]. rewrite C. rewrite S1, S2, O0. unfold afterOptions. cbn [sExit Z.eqb Pos.eqb negb sExec sCommand]. change (zlen (@nil Z)) with 0. cbn [Z.eqb negb]. rewrite (zlen_nz ops Ho). unfold initial in A. rewrite A. reflexivity.
  - reflexivity.
Qed.
(** And a dump is written to where the output went when its option was met: -d F -o O writes to standard output and leaves O empty. *)
Theorem C174_output_order_refuted : forall n f o, canOpen o = true -> (forall s, snd (elfDump s f) = Ok tt) -> exists s, Means [] s /\
  main' n [[45; 100]; f; [45; 111]; o] = ([Wrote Stdout (fst (elfDump s f)); Truncated o], Ok 0).
Proof.
  intros n f o C W. destruct C172_pstack_table as [_ Hok]. destruct (C172_help_text table Hok) as (fl & Ef & Hd). destruct (build_shape cds Hok) as (f' & Ef' & S1 & S2 & S3). unfold cds in Ef' at 1. rewrite Ef in Ef'. injection Ef' as <-.
  assert (L : line cds ([[45; 100]; f] ++ [[45; 111]; o] ++ []) ([(6%nat, Some f)] ++ [(27%nat, Some o)] ++ []) []).
  { apply LnOpt; [|discriminate|apply LnOpt; [|discriminate|constructor]].
    - apply (IShortNext cds [] [] 6 (mkO (lit "elf-dump") 100 true) f); try reflexivity; [constructor|discriminate].
    - apply (IShortNext cds [] [] 27 (mkO (lit "output") 111 true) o); try reflexivity; [constructor|discriminate]. }
  destruct (line_ok cds Hok _ _ _ L) as [P O0]. exists (initial zero). split; [exact means_nil|]. cbn [app] in P, O0. unfold Options.main, emain. rewrite Ef, Hd, S3, P. fold helpText. cbn [runCalls nth_error table pAct opt_ act initial onText]. fold (initial zero).
  specialize (W (initial zero)). destruct (elfDump (initial zero) f) as [x z]. cbn [snd] in W. subst z. cbn [fst snd onText runCalls nth_error table pAct opt_ act]. rewrite C. rewrite S1, S2, O0. reflexivity.
Qed.
End Main.
(** pstack -a --depth=7 -M 5 1234 -v core: the settings, and the command line as a line *)
Example C174_case : let args := [lit "-a"; lit "--depth=7"; lit "-M"; lit "5"; lit "1234"; lit "-v"; lit "core"] in
  let calls := [(11%nat, None); (8%nat, Some (lit "7")); (9%nat, Some (lit "5")); (14%nat, None)] in
  line cds args calls [lit "1234"; lit "core"] /\ ~ Informs cds calls /\ ~ Given cds "command" calls /\ Given cds "args" calls /\ Last cds "depth" calls (lit "7") /\ times cds "verbose" calls = 1.
Proof.
  cbv zeta. assert (NG : forall n (calls : list call), forallb (fun c => negb (isOptB cds n c)) calls = true -> ~ Given cds n calls).
  { intros n calls F (c & Hc & I). rewrite forallb_forall in F. specialize (F c Hc). apply isOptB_spec in I. rewrite I in F. discriminate. }
  split; [|split; [|split; [|split; [|split]]]].
  - apply (LnOpt cds [lit "-a"] _ [(11%nat, None)]); [|discriminate|].
    { apply (IShort cds [97] [(11%nat, None)]); [|discriminate]. apply (LCons cds 11 (mkO (lit "args") 97 false)); try reflexivity; [discriminate|constructor]. }
    apply (LnOpt cds [lit "--depth=7"] _ [(8%nat, Some (lit "7"))]); [|discriminate|].
    { apply (ILongEq cds (lit "depth") 8 (mkO (lit "depth") 114 true) (lit "7")); [apply SExact; reflexivity|reflexivity]. }
    apply (LnOpt cds [lit "-M"; lit "5"] _ [(9%nat, Some (lit "5"))]); [|discriminate|].
    { apply (IShortNext cds [] [] 9 (mkO (lit "max-frames") 77 true) (lit "5")); try reflexivity; [constructor|discriminate]. }
    apply LnOp; [left; intros r X; discriminate X|]. apply (LnOpt cds [lit "-v"] _ [(14%nat, None)]); [|discriminate|].
    { apply (IShort cds [118] [(14%nat, None)]); [|discriminate]. apply (LCons cds 14 (mkO (lit "verbose") 118 false)); try reflexivity; [discriminate|constructor]. }
    apply LnOp; [left; intros r X; discriminate X|constructor].
  - intros (n & [<-|[<-|[<-|[<-|[]]]]] & G); revert G; apply NG; vm_compute; reflexivity.
  - apply NG. vm_compute. reflexivity.
  - exists (11%nat, None). split; [now left|]. apply isOptB_spec. vm_compute. reflexivity.
  - exists [(11%nat, None)], 8%nat, [(9%nat, Some (lit "5")); (14%nat, None)]. split; [reflexivity|]. split; [apply isOptB_spec; vm_compute; reflexivity|]. apply NG. vm_compute. reflexivity.
  - vm_compute. reflexivity.
Qed.
Print Assumptions C172_help_text.
Print Assumptions C172_pstack_table.
Print Assumptions C173_numbers.
Print Assumptions C173_not_a_number_refuted.
Print Assumptions C173_trailing_refuted.
Print Assumptions C173_range_refuted.
Print Assumptions C173_leading_zero_refuted.
Print Assumptions C174_trace.
Print Assumptions C174_information.
Print Assumptions C174_command.
Print Assumptions C174_no_operands.
Print Assumptions C174_bad_executable.
Print Assumptions C174_wrong_line.
Print Assumptions C174_output_lost_refuted.
Print Assumptions C174_output_order_refuted.
