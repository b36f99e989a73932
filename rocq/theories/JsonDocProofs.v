(** Proofs about JSON documents. *)
From Coq Require Import Ascii String.
From Verif Require Import Base Json JsonSpec JsonProofs MapsSpec Args ArgsSpec ArgsProofs HdmpProofs FrameText FrameTextSpec JsonDoc JsonDocSpec.

(** ** What is printed *)
Fixpoint pItems (sep : list Z) (l : list jval) : res (list Z) :=
  match l with [] => Ok [] | v :: r => let* a := jprint v in let* b := pItems [44; 10] r in Ok (sep ++ a ++ b) end.
Fixpoint pMembers (next sep : list Z) (l : list (list Z * jval)) : res (list Z) :=
  match l with
  | [] => Ok []
  | (k, v) :: r => let* a := printString k in let* b := jprint v in let* c := pMembers next next r in Ok (sep ++ (a ++ [58] ++ b) ++ c)
  end.
Lemma jprint_list l : jprint (VList l) = let* t := pItems [] l in Ok (txt "[ " ++ t ++ txt " ]").
Proof. reflexivity. Qed.
Lemma jprint_seq l : jprint (VSeq l) = let* t := pItems [] l in Ok (txt "[ " ++ t ++ txt "]").
Proof. reflexivity. Qed.
Definition members' (next : list Z) := fix members (sep : list Z) (l : list (list Z * jval)) : res (list Z) :=
        match l with
        | [] => Ok []
        | (k, v) :: r => let* a := printString k in let* b := jprint v in let* c := members next r in Ok (sep ++ (a ++ [58] ++ b) ++ c)
        end.
Lemma members_eq next l : forall sep, members' next sep l = pMembers next sep l.
Proof. induction l as [|[k v] l IH]; intros sep; [reflexivity|]. cbn. destruct (printString k); cbn [bind]; try reflexivity. destruct (jprint v); cbn [bind]; try reflexivity. unfold members' in IH. now rewrite IH. Qed.
Lemma jprint_map l : jprint (VMap l) = let* t := pMembers [44; 10] [] l in Ok ([123] ++ t ++ [125]).
Proof. rewrite <- members_eq. reflexivity. Qed.
Lemma jprint_obj l : jprint (VObj l) = let* t := pMembers [44; 32] [] l in Ok (txt "{ " ++ t ++ txt " }").
Proof. rewrite <- members_eq. reflexivity. Qed.

Lemma intText_decimal64 v : - 2 ^ 63 <= v < 2 ^ 64 -> decimal (intText v) v.
Proof.
  intros R. unfold intText, decimal. destruct (v <? 0) eqn:E; [right|left].
  - split; [lia|]. eexists; split; [reflexivity|]. rewrite decText_num by lia. apply numText_canonical; [lia|lia|]. change (10 ^ Z.of_nat 20) with 100000000000000000000. lia.
  - split; [lia|]. rewrite decText_num by lia. apply numText_canonical; [lia|lia|]. change (10 ^ Z.of_nat 20) with 100000000000000000000. lia.
Qed.
Lemma print_plain s t : plainText s t -> exists o, printString s = Ok o /\ jsonString o t.
Proof.
  intros (cps & H1 & H2 & -> & ->). eexists. split; [now apply print_text|]. exists (flat_map escOne cps). split; [reflexivity|]. now apply text_json.
Qed.
Scheme means_i := Induction for means Sort Prop with meanL_i := Induction for meanL Sort Prop with meanM_i := Induction for meanM Sort Prop.
Combined Scheme means_all from means_i, meanL_i, meanM_i.

Lemma ws_sp : ws [32]. Proof. constructor; [now left|constructor]. Qed.
Lemma ws_nl : ws [10]. Proof. constructor; [unfold isWs; auto|constructor]. Qed.
Lemma print_means :
  (forall v x, means v x -> exists t, jprint v = Ok t /\ jsonDoc t x) /\
  (forall l x, meanL l x -> forall sep, exists t, pItems sep l = Ok t /\ (l = [] -> x = [] /\ t = []) /\
     (l <> [] -> exists t', t = sep ++ t' /\ forall w w', ws w -> ws w' -> jsonElems (w ++ t' ++ w') x)) /\
  (forall l x, meanM l x -> forall w0 sep, ws w0 -> exists t, pMembers ([44] ++ w0) sep l = Ok t /\ (l = [] -> x = [] /\ t = []) /\
     (l <> [] -> exists t', t = sep ++ t' /\ forall w w', ws w -> ws w' -> jsonMembers (w ++ t' ++ w') x)).
Proof.
  apply means_all.
  - exists (txt "null"). split; [reflexivity|apply DNull].
  - intros b. exists (if b then txt "true" else txt "false"). split; [reflexivity|]. destruct b; constructor.
  - intros n R. exists (intText n). split; [reflexivity|]. constructor. now apply intText_decimal64.
  - intros s t P. destruct (print_plain s t P) as (o & E & J). exists o. split; [exact E|now constructor].
  - intros l x M IH. destruct (IH []) as (t & E & E0 & E1). rewrite jprint_list, E. cbn [bind]. eexists. split; [reflexivity|].
    change (txt "[ " ++ t ++ txt " ]") with ([91] ++ ([32] ++ t ++ [32; 93])). replace ([32] ++ t ++ [32; 93]) with (([32] ++ t ++ [32]) ++ [93]) by (rewrite <- !app_assoc; reflexivity). destruct l as [|v l].
    + destruct (E0 eq_refl) as [-> ->]. apply DArrEmpty. repeat constructor.
    + destruct (E1 ltac:(discriminate)) as (t' & -> & J). apply DArr. apply J; apply ws_sp.
  - intros l x M IH. destruct (IH [10] [] ws_nl) as (t & E & E0 & E1). rewrite jprint_map. cbn [app] in E. rewrite E. cbn [bind]. eexists. split; [reflexivity|].
    destruct l as [|v l].
    + destruct (E0 eq_refl) as [-> ->]. apply (DObjEmpty []). constructor.
    + destruct (E1 ltac:(discriminate)) as (t' & -> & J). apply DObj. cbn [app]. specialize (J [] [] (Forall_nil _) (Forall_nil _)). cbn [app] in J. rewrite app_nil_r in J. exact J.
  - intros l x M IH. destruct (IH [32] [] ws_sp) as (t & E & E0 & E1). rewrite jprint_obj. cbn [app] in E. rewrite E. cbn [bind]. eexists. split; [reflexivity|].
    change (txt "{ " ++ t ++ txt " }") with ([123] ++ ([32] ++ t ++ [32; 125])). replace ([32] ++ t ++ [32; 125]) with (([32] ++ t ++ [32]) ++ [125]) by (rewrite <- !app_assoc; reflexivity). destruct l as [|v l].
    + destruct (E0 eq_refl) as [-> ->]. apply DObjEmpty. repeat constructor.
    + destruct (E1 ltac:(discriminate)) as (t' & -> & J). apply DObj. apply J; apply ws_sp.
  - intros l x M IH. destruct (IH []) as (t & E & E0 & E1). rewrite jprint_seq, E. cbn [bind]. eexists. split; [reflexivity|].
    change (txt "[ " ++ t ++ txt "]") with ([91] ++ ([32] ++ t ++ [93])). replace ([32] ++ t ++ [93]) with (([32] ++ t ++ []) ++ [93]) by (rewrite app_nil_r, <- !app_assoc; reflexivity). destruct l as [|v l].
    + destruct (E0 eq_refl) as [-> ->]. apply DArrEmpty. repeat constructor.
    + destruct (E1 ltac:(discriminate)) as (t' & -> & J). apply DArr. apply J; [apply ws_sp|constructor].
  - intros sep. exists []. split; [reflexivity|]. split; [now split|]. easy.
  - intros v x l y Mv (a & Ea & Ja) Ml IH sep. destruct (IH [44; 10]) as (b & Eb & B0 & B1). cbn [pItems]. rewrite Ea, Eb. cbn [bind]. eexists. split; [reflexivity|]. split; [easy|]. intros _.
    exists (a ++ b). split; [reflexivity|]. intros w w' W W'. destruct l as [|v2 l].
    + destruct (B0 eq_refl) as [-> ->]. rewrite app_nil_r. now apply ElLast.
    + destruct (B1 ltac:(discriminate)) as (b' & -> & J). replace (w ++ (a ++ [44; 10] ++ b') ++ w') with (w ++ a ++ [] ++ [44] ++ ([10] ++ b' ++ w')) by (cbn [app]; rewrite <- !app_assoc; reflexivity).
      apply ElCons; [exact W|exact Ja|constructor|]. apply J; [apply ws_nl|exact W'].
  - intros w0 sep _. exists []. split; [reflexivity|]. split; [now split|]. easy.
  - intros k t v x l y Pk Mv (a & Ea & Ja) Ml IH w0 sep W0. destruct (print_plain k t Pk) as (ko & Ek & Jk). destruct (IH w0 ([44] ++ w0) W0) as (b & Eb & B0 & B1). cbn [pMembers]. rewrite Ek, Ea. cbn [bind]. rewrite Eb. cbn [bind]. eexists. split; [reflexivity|]. split; [easy|]. intros _.
    exists ((ko ++ [58] ++ a) ++ b). split; [reflexivity|]. intros w w' W W'. destruct l as [|v2 l].
    + destruct (B0 eq_refl) as [-> ->]. rewrite app_nil_r. replace (w ++ (ko ++ [58] ++ a) ++ w') with (w ++ ko ++ [] ++ [58] ++ [] ++ a ++ w') by (cbn [app]; rewrite <- !app_assoc; reflexivity). apply MeLast; try assumption; constructor.
    + destruct (B1 ltac:(discriminate)) as (b' & -> & J). replace (w ++ ((ko ++ [58] ++ a) ++ ([44] ++ w0) ++ b') ++ w') with (w ++ ko ++ [] ++ [58] ++ [] ++ a ++ [] ++ [44] ++ (w0 ++ b' ++ w')) by (cbn [app]; rewrite <- !app_assoc; cbn [app]; rewrite <- !app_assoc; reflexivity).
      apply MeCons; try assumption; try constructor. apply J; assumption.
Qed.

(** ** A text can be understood in one way only *)
Lemma cons_inj (a b : Z) l m : a :: l = b :: m -> a = b /\ l = m.
Proof. intros E. split; [exact (f_equal (hd 0) E)|exact (f_equal (@tl Z) E)]. Qed.
Lemma utf8_prefix cp cp' x y : scalar cp -> scalar cp' -> utf8 cp ++ x = utf8 cp' ++ y -> cp = cp' /\ x = y.
Proof.
  intros [R _] [R' _]. unfold utf8.
  destruct (cp <? 128) eqn:A1; [|destruct (cp <? 2048) eqn:A2; [|destruct (cp <? 65536) eqn:A3]];
  (destruct (cp' <? 128) eqn:B1; [|destruct (cp' <? 2048) eqn:B2; [|destruct (cp' <? 65536) eqn:B3]]);
  cbn [app]; intros E; repeat match goal with H : _ :: _ = _ :: _ |- _ => apply cons_inj in H as [? H] end; Z.div_mod_to_equations; (first [split; [lia|assumption]|exfalso; lia]).
Qed.
Lemma utf8_head cp x : scalar cp -> 32 <= cp -> cp <> 34 -> cp <> 92 -> exists c r, utf8 cp ++ x = c :: r /\ c <> 34 /\ c <> 92.
Proof.
  intros [R _] L N1 N2. unfold utf8. destruct (cp <? 128) eqn:A1; [|destruct (cp <? 2048) eqn:A2; [|destruct (cp <? 65536) eqn:A3]]; cbn [app]; eexists; eexists; (split; [reflexivity|]); Z.div_mod_to_equations; lia.
Qed.
Lemma isHex_det c d d' : isHex c d -> isHex c d' -> d = d'.
Proof. unfold isHex. lia. Qed.
Lemma short_det x c c' : In (x, c) shortEscape -> In (x, c') shortEscape -> c = c' /\ x <> 117.
Proof. cbn. intros H1 H2. repeat (destruct H1 as [H1|H1]; [injection H1; intros; subst; clear H1; repeat (destruct H2 as [H2|H2]; [injection H2; intros; try lia; subst; split; lia|]); contradiction|]). contradiction. Qed.
Lemma chars_det b t : jsonChars b t -> forall b' t' x y, jsonChars b' t' -> b ++ 34 :: x = b' ++ 34 :: y -> b = b' /\ t = t' /\ x = y.
Proof.
  induction 1 as [|cp b t Sc L N1 N2 J IH|c cp b t I J IH|a1 a2 a3 a4 d1 d2 d3 d4 r t X1 X2 X3 X4 J IH]; intros b' t' x y J' E.
  - destruct J' as [|cp b t Sc L N1 N2 J|c cp b t I J|a1 a2 a3 a4 d1 d2 d3 d4 r t X1 X2 X3 X4 J].
    + cbn in E. injection E as ->. auto.
    + rewrite <- app_assoc in E. destruct (utf8_head cp (b ++ 34 :: y) Sc L N1 N2) as (c & r & F & C1 & C2). rewrite F in E. cbn in E. congruence.
    + cbn in E. discriminate.
    + cbn in E. discriminate.
  - rewrite <- app_assoc in E. destruct J' as [|cp' b' t' Sc' L' N1' N2' J'|c cp' b' t' I J'|a1 a2 a3 a4 d1 d2 d3 d4 r t' X1 X2 X3 X4 J'].
    + destruct (utf8_head cp (b ++ 34 :: x) Sc L N1 N2) as (c & r & F & C1 & C2). rewrite F in E. cbn in E. congruence.
    + rewrite <- app_assoc in E. apply utf8_prefix in E as [-> E]; try assumption. destruct (IH _ _ _ _ J' E) as (-> & -> & ->). auto.
    + destruct (utf8_head cp (b ++ 34 :: x) Sc L N1 N2) as (c' & r & F & C1 & C2). rewrite F in E. cbn in E. congruence.
    + destruct (utf8_head cp (b ++ 34 :: x) Sc L N1 N2) as (c' & r' & F & C1 & C2). rewrite F in E. cbn in E. congruence.
  - destruct J' as [|cp' b' t' Sc' L' N1' N2' J'|c' cp' b' t' I' J'|a1 a2 a3 a4 d1 d2 d3 d4 r t' X1 X2 X3 X4 J'].
    + cbn in E. discriminate.
    + rewrite <- app_assoc in E. destruct (utf8_head cp' (b' ++ 34 :: y) Sc' L' N1' N2') as (c' & r & F & C1 & C2). rewrite F in E. cbn in E. congruence.
    + cbn [app] in E. injection E as Ec E. subst c'. destruct (short_det _ _ _ I I') as [-> _]. destruct (IH _ _ _ _ J' E) as (-> & -> & ->). auto.
    + cbn [app] in E. injection E as Ec E. destruct (short_det _ _ _ I I) as [_ Q]. congruence.
  - destruct J' as [|cp' b' t' Sc' L' N1' N2' J'|c' cp' b' t' I' J'|e1 e2 e3 e4 f1 f2 f3 f4 r' t' Y1 Y2 Y3 Y4 J'].
    + cbn in E. discriminate.
    + rewrite <- app_assoc in E. destruct (utf8_head cp' (b' ++ 34 :: y) Sc' L' N1' N2') as (c' & r' & F & C1 & C2). rewrite F in E. cbn in E. congruence.
    + cbn [app] in E. injection E as Ec E. destruct (short_det _ _ _ I' I') as [_ Q]. congruence.
    + cbn [app] in E. injection E as E1 E2 E3 E4 E. subst e1 e2 e3 e4. destruct (IH _ _ _ _ J' E) as (-> & -> & ->).
      rewrite (isHex_det _ _ _ X1 Y1), (isHex_det _ _ _ X2 Y2), (isHex_det _ _ _ X3 Y3), (isHex_det _ _ _ X4 Y4). auto.
Qed.
Lemma str_det k t : jsonString k t -> forall k' t' x y, jsonString k' t' -> k ++ x = k' ++ y -> k = k' /\ t = t' /\ x = y.
Proof.
  intros (b & -> & J) k' t' x y (b' & -> & J') E. cbn [app] in E. rewrite <- !app_assoc in E. cbn [app] in E. injection E as E. destruct (chars_det _ _ J _ _ _ _ J' E) as (-> & -> & ->). auto.
Qed.

(** numbers *)
Definition isDigit (c : Z) : Prop := 48 <= c <= 57.
Definition stops (x : list Z) : Prop := match x with [] => True | c :: _ => ~ isDigit c end.
Lemma numeral_digits s v : numeral 10 s v -> s <> [] /\ Forall isDigit s.
Proof.
  induction 1 as [c d D|s v c d N [IH1 IH2] D]; (split; [now destruct s || easy|]).
  - constructor; [unfold isDigit; destruct D; lia|constructor].
  - apply Forall_app. split; [exact IH2|]. constructor; [unfold isDigit; destruct D; lia|constructor].
Qed.
Lemma digits_split a : forall b x y, Forall isDigit a -> Forall isDigit b -> stops x -> stops y -> a ++ x = b ++ y -> a = b /\ x = y.
Proof.
  induction a as [|c a IH]; intros b x y Fa Fb Sx Sy E.
  - destruct b as [|d b]; [auto|]. cbn in E. subst x. cbn in Sx. apply Forall_cons_iff in Fb as [F _]. contradiction.
  - apply Forall_cons_iff in Fa as [F1 F2]. destruct b as [|d b]; cbn [app] in E.
    + subst y. cbn in Sy. contradiction.
    + injection E as -> E. apply Forall_cons_iff in Fb as [G1 G2]. destruct (IH b x y F2 G2 Sx Sy E) as [-> ->]. auto.
Qed.
Lemma numeral_det s v v' : numeral 10 s v -> numeral 10 s v' -> v = v'.
Proof.
  intros N. revert v'. induction N as [c d D|s v c d N IH D]; intros v' N'.
  - inversion N' as [c0 d0 D0 E0|s0 v0 c0 d0 N0 D0 E0 E1]; subst.
    + destruct D, D0. lia.
    + apply app_eq_unit in E0. apply numeral_digits in N0 as [Ne _]. destruct E0 as [[-> _]|[_ E0]]; [easy|discriminate].
  - inversion N' as [c0 d0 D0 E0|s0 v0 c0 d0 N0 D0 E0 E1]; subst.
    + symmetry in E0. apply app_eq_unit in E0. apply numeral_digits in N as [Ne _]. destruct E0 as [[-> _]|[_ E0]]; [easy|discriminate].
    + apply app_inj_tail in E0 as [-> ->]. rewrite (IH v0 N0). destruct D, D0. lia.
Qed.
Lemma dec_det s v : decimal s v -> forall s' v' x y, decimal s' v' -> stops x -> stops y -> s ++ x = s' ++ y -> s = s' /\ v = v' /\ x = y.
Proof.
  intros H s' v' x y H' Sx Sy E. unfold decimal, canonical in *.
  destruct H as [(P & N & _)|(P & r & -> & N & _)], H' as [(P' & N' & _)|(P' & r' & -> & N' & _)].
  - pose proof (numeral_digits _ _ N) as [_ D]. pose proof (numeral_digits _ _ N') as [_ D']. destruct (digits_split _ _ _ _ D D' Sx Sy E) as [-> ->]. split; [reflexivity|]. split; [now apply (numeral_det s')|reflexivity].
  - pose proof (numeral_digits _ _ N) as [Ne D]. destruct s as [|c s]; [easy|]. cbn in E. injection E as -> E. apply Forall_cons_iff in D as [D _]. unfold isDigit in D. lia.
  - pose proof (numeral_digits _ _ N') as [Ne D]. destruct s' as [|c s']; [easy|]. cbn in E. injection E as <- E. apply Forall_cons_iff in D as [D _]. unfold isDigit in D. lia.
  - cbn in E. injection E as E. pose proof (numeral_digits _ _ N) as [_ D]. pose proof (numeral_digits _ _ N') as [_ D']. destruct (digits_split _ _ _ _ D D' Sx Sy E) as [-> ->]. split; [reflexivity|]. pose proof (numeral_det _ _ _ N N'). split; [lia|reflexivity].
Qed.

(** the first character of a value tells its kind *)
Definition heads (x : jvalue) (c : Z) : Prop :=
  match x with
  | XNull => c = 110 | XBool true => c = 116 | XBool false => c = 102 | XNum _ => c = 45 \/ isDigit c | XStr _ => c = 34 | XArr _ => c = 91 | XObj _ => c = 123
  end.
Lemma doc_head t x : jsonDoc t x -> exists c r, t = c :: r /\ heads x c.
Proof.
  intros [ | | |s n D|s u (b & -> & J)|w W|b l J|w W|b l J]; try (eexists; eexists; split; [reflexivity|]; cbn; auto; fail).
  destruct D as [(P & N & _)|(P & r & -> & N & _)].
  - apply numeral_digits in N as [Ne F]. destruct s as [|c s]; [easy|]. apply Forall_cons_iff in F as [F _]. exists c, s. split; [reflexivity|]. now right.
  - eexists; eexists. split; [reflexivity|]. now left.
Qed.
Lemma heads_ws x c : heads x c -> ~ isWs c /\ c <> 44 /\ c <> 93 /\ c <> 125 /\ c <> 58.
Proof. unfold isWs. destruct x as [|[|]|n|s|l|l]; cbn; unfold isDigit; lia. Qed.
Lemma ws_split a : forall b c d x y, ws a -> ws b -> ~ isWs c -> ~ isWs d -> a ++ c :: x = b ++ d :: y -> a = b /\ c = d /\ x = y.
Proof.
  induction a as [|e a IH]; intros b c d x y Wa Wb C D E.
  - destruct b as [|f b]; cbn in E; [injection E as -> ->; auto|]. injection E as -> E. apply Forall_cons_iff in Wb as [F _]. contradiction.
  - apply Forall_cons_iff in Wa as [F1 F2]. destruct b as [|f b]; cbn [app] in E.
    + injection E as -> E. contradiction.
    + injection E as -> E. apply Forall_cons_iff in Wb as [G1 G2]. destruct (IH b c d x y F2 G2 C D E) as (-> & -> & ->). auto.
Qed.
Lemma ws_stops w c x : ws w -> ~ isDigit c -> stops (w ++ c :: x).
Proof. intros W C. destruct w as [|d w]; [exact C|]. apply Forall_cons_iff in W as [W _]. cbn. unfold isWs, isDigit in *. lia. Qed.
Scheme doc_i := Induction for jsonDoc Sort Prop with elems_i := Induction for jsonElems Sort Prop with members_i := Induction for jsonMembers Sort Prop.
Combined Scheme doc_all from doc_i, elems_i, members_i.
Lemma wsdoc_split w v t s x y X Y : ws w -> ws v -> jsonDoc t x -> jsonDoc s y -> w ++ t ++ X = v ++ s ++ Y -> w = v /\ t ++ X = s ++ Y.
Proof.
  intros W V J K E. destruct (doc_head _ _ J) as (c & t1 & -> & Hc). destruct (doc_head _ _ K) as (d & s1 & -> & Hd). cbn [app] in E |- *.
  apply ws_split in E as (-> & -> & ->); [auto|assumption..|now apply (heads_ws x)|now apply (heads_ws y)].
Qed.
Lemma wsstr_split w v t s x y X Y : ws w -> ws v -> jsonString t x -> jsonString s y -> w ++ t ++ X = v ++ s ++ Y -> w = v /\ t ++ X = s ++ Y.
Proof. intros W V (b & -> & _) (b' & -> & _) E. cbn [app] in E |- *. apply ws_split in E as (-> & _ & ->); [auto|assumption..|unfold isWs; lia|unfold isWs; lia]. Qed.
Lemma elems_head b l : jsonElems b l -> exists w c r, b = w ++ c :: r /\ ws w /\ ~ isWs c /\ c <> 93.
Proof.
  intros [w t w' v W J W'|w t w' v b2 l2 W J W' J2]; destruct (doc_head _ _ J) as (c & t1 & -> & Hc); pose proof (heads_ws _ _ Hc) as (A1 & A2 & A3 & A4 & A5).
  - exists w, c, (t1 ++ w'). auto.
  - exists w, c, (t1 ++ w' ++ [44] ++ b2). auto.
Qed.
Lemma members_head b l : jsonMembers b l -> exists w c r, b = w ++ c :: r /\ ws w /\ ~ isWs c /\ c <> 125.
Proof.
  assert (N : ~ isWs 34 /\ 34 <> 125) by (unfold isWs; lia).
  intros [w k kt w1 w2 t w3 v W (b1 & -> & Jk) W1 W2 J W3|w k kt w1 w2 t w3 v b2 l2 W (b1 & -> & Jk) W1 W2 J W3 J2]; exists w, 34; eexists; (split; [reflexivity|]); tauto.
Qed.
Ltac reassoc E := repeat first [rewrite <- app_assoc in E | progress cbn [app] in E].
Lemma doc_det :
  (forall t x, jsonDoc t x -> forall t' x' r r', jsonDoc t' x' -> stops r -> stops r' -> t ++ r = t' ++ r' -> t = t' /\ x = x' /\ r = r') /\
  (forall b l, jsonElems b l -> forall b' l' r r', jsonElems b' l' -> b ++ 93 :: r = b' ++ 93 :: r' -> b = b' /\ l = l' /\ r = r') /\
  (forall b l, jsonMembers b l -> forall b' l' r r', jsonMembers b' l' -> b ++ 125 :: r = b' ++ 125 :: r' -> b = b' /\ l = l' /\ r = r').
Proof.
  assert (NW : ~ isWs 93 /\ ~ isWs 125 /\ ~ isWs 44 /\ ~ isWs 58) by (unfold isWs; lia). destruct NW as (N93 & N125 & N44 & N58).
  assert (D93 : ~ isDigit 93 /\ ~ isDigit 125 /\ ~ isDigit 44) by (unfold isDigit; lia). destruct D93 as (D93 & D125 & D44).
  assert (HH : forall t x t' x' r r', jsonDoc t x -> jsonDoc t' x' -> t ++ r = t' ++ r' -> exists c, heads x c /\ heads x' c).
  { intros t x t' x' r r' J J' E. destruct (doc_head _ _ J) as (c & t1 & -> & Hc). destruct (doc_head _ _ J') as (d & s1 & -> & Hd). cbn in E. injection E as -> _. eauto. }
  apply doc_all.
  - intros t' x' r r' J' _ _ E. destruct (HH _ _ _ _ _ _ DNull J' E) as (c & H1 & H2). cbn in H1. subst c. destruct J'; cbn in H2; unfold isDigit in H2; try lia. apply app_inv_head in E. auto.
  - intros t' x' r r' J' _ _ E. destruct (HH _ _ _ _ _ _ DTrue J' E) as (c & H1 & H2). cbn in H1. subst c. destruct J'; cbn in H2; unfold isDigit in H2; try lia. apply app_inv_head in E. auto.
  - intros t' x' r r' J' _ _ E. destruct (HH _ _ _ _ _ _ DFalse J' E) as (c & H1 & H2). cbn in H1. subst c. destruct J'; cbn in H2; unfold isDigit in H2; try lia. apply app_inv_head in E. auto.
  - intros t n D t' x' r r' J' S1 S2 E. destruct (HH _ _ _ _ _ _ (DNum _ _ D) J' E) as (c & H1 & H2). cbn in H1. unfold isDigit in H1. destruct J'; cbn in H2; unfold isDigit in H2; try lia.
    destruct (dec_det _ _ D _ _ _ _ H S1 S2 E) as (-> & -> & ->). auto.
  - intros t s D t' x' r r' J' S1 S2 E. destruct (HH _ _ _ _ _ _ (DStr _ _ D) J' E) as (c & H1 & H2). cbn in H1. destruct J'; cbn in H2; unfold isDigit in H2; try lia.
    destruct (str_det _ _ D _ _ _ _ H E) as (-> & -> & ->). auto.
  - intros w W t' x' r r' J' S1 S2 E. destruct (HH _ _ _ _ _ _ (DArrEmpty _ W) J' E) as (c & H1 & H2). cbn in H1. destruct J' as [ | | | | |w' W'|b' l' J'|w' W'|b' l' J']; cbn in H2; unfold isDigit in H2; try lia.
    + reassoc E. apply cons_inj in E as [_ E]. apply ws_split in E as (-> & _ & ->); auto.
    + destruct (elems_head _ _ J') as (v & d & q & -> & V & Nd & N2). reassoc E. apply cons_inj in E as [_ E]. apply ws_split in E as (_ & E2 & _); auto. congruence.
  - intros b l J IH t' x' r r' J' S1 S2 E. destruct (HH _ _ _ _ _ _ (DArr _ _ J) J' E) as (c & H1 & H2). cbn in H1. destruct J' as [ | | | | |w' W'|b' l' J'|w' W'|b' l' J']; cbn in H2; unfold isDigit in H2; try lia.
    + destruct (elems_head _ _ J) as (v & d & q & -> & V & Nd & N2). reassoc E. apply cons_inj in E as [_ E]. apply ws_split in E as (_ & E2 & _); auto. congruence.
    + reassoc E. apply cons_inj in E as [_ E]. destruct (IH _ _ _ _ J' E) as (-> & -> & ->). auto.
  - intros w W t' x' r r' J' S1 S2 E. destruct (HH _ _ _ _ _ _ (DObjEmpty _ W) J' E) as (c & H1 & H2). cbn in H1. destruct J' as [ | | | | |w' W'|b' l' J'|w' W'|b' l' J']; cbn in H2; unfold isDigit in H2; try lia.
    + reassoc E. apply cons_inj in E as [_ E]. apply ws_split in E as (-> & _ & ->); auto.
    + destruct (members_head _ _ J') as (v & d & q & -> & V & Nd & N2). reassoc E. apply cons_inj in E as [_ E]. apply ws_split in E as (_ & E2 & _); auto. congruence.
  - intros b l J IH t' x' r r' J' S1 S2 E. destruct (HH _ _ _ _ _ _ (DObj _ _ J) J' E) as (c & H1 & H2). cbn in H1. destruct J' as [ | | | | |w' W'|b' l' J'|w' W'|b' l' J']; cbn in H2; unfold isDigit in H2; try lia.
    + destruct (members_head _ _ J) as (v & d & q & -> & V & Nd & N2). reassoc E. apply cons_inj in E as [_ E]. apply ws_split in E as (_ & E2 & _); auto. congruence.
    + reassoc E. apply cons_inj in E as [_ E]. destruct (IH _ _ _ _ J' E) as (-> & -> & ->). auto.
  - intros w t w' v W J IH W' b' l' r r' K E. destruct K as [u s u' y U K U'|u s u' y b2 l2 U K U' K2]; reassoc E; destruct (wsdoc_split _ _ _ _ _ _ _ _ W U J K E) as [-> E2]; first [destruct (IH _ _ _ _ K (ws_stops _ _ _ W' D93) (ws_stops _ _ _ U' D93) E2) as (-> & -> & E3)|destruct (IH _ _ _ _ K (ws_stops _ _ _ W' D93) (ws_stops _ _ _ U' D44) E2) as (-> & -> & E3)].
    + apply ws_split in E3 as (-> & _ & ->); auto.
    + apply ws_split in E3 as (_ & E4 & _); auto. discriminate.
  - intros w t w' v b l W J IH W' J2 IH2 b' l' r r' K E. destruct K as [u s u' y U K U'|u s u' y b2 l2 U K U' K2]; reassoc E; destruct (wsdoc_split _ _ _ _ _ _ _ _ W U J K E) as [-> E2]; first [destruct (IH _ _ _ _ K (ws_stops _ _ _ W' D44) (ws_stops _ _ _ U' D93) E2) as (-> & -> & E3)|destruct (IH _ _ _ _ K (ws_stops _ _ _ W' D44) (ws_stops _ _ _ U' D44) E2) as (-> & -> & E3)].
    + apply ws_split in E3 as (_ & E4 & _); auto. discriminate.
    + apply ws_split in E3 as (-> & _ & E4); auto. destruct (IH2 _ _ _ _ K2 E4) as (-> & -> & ->). auto.
  - intros w k kt w1 w2 t w3 v W Jk W1 W2 J IH W3 b' l' r r' K E. destruct K as [u q qt u1 u2 s u3 y U Kk U1 U2 K U3|u q qt u1 u2 s u3 y b2 l2 U Kk U1 U2 K U3 K2]; reassoc E;
      destruct (wsstr_split _ _ _ _ _ _ _ _ W U Jk Kk E) as [-> E2]; destruct (str_det _ _ Jk _ _ _ _ Kk E2) as (-> & -> & E3); apply ws_split in E3 as (-> & _ & E3); try assumption;
      destruct (wsdoc_split _ _ _ _ _ _ _ _ W2 U2 J K E3) as [-> E4]; first [destruct (IH _ _ _ _ K (ws_stops _ _ _ W3 D125) (ws_stops _ _ _ U3 D125) E4) as (-> & -> & E5)|destruct (IH _ _ _ _ K (ws_stops _ _ _ W3 D125) (ws_stops _ _ _ U3 D44) E4) as (-> & -> & E5)].
    + apply ws_split in E5 as (-> & _ & ->); auto.
    + apply ws_split in E5 as (_ & E6 & _); auto. discriminate.
  - intros w k kt w1 w2 t w3 v b l W Jk W1 W2 J IH W3 J2 IH2 b' l' r r' K E. destruct K as [u q qt u1 u2 s u3 y U Kk U1 U2 K U3|u q qt u1 u2 s u3 y b2 l2 U Kk U1 U2 K U3 K2]; reassoc E;
      destruct (wsstr_split _ _ _ _ _ _ _ _ W U Jk Kk E) as [-> E2]; destruct (str_det _ _ Jk _ _ _ _ Kk E2) as (-> & -> & E3); apply ws_split in E3 as (-> & _ & E3); try assumption;
      destruct (wsdoc_split _ _ _ _ _ _ _ _ W2 U2 J K E3) as [-> E4]; first [destruct (IH _ _ _ _ K (ws_stops _ _ _ W3 D44) (ws_stops _ _ _ U3 D125) E4) as (-> & -> & E5)|destruct (IH _ _ _ _ K (ws_stops _ _ _ W3 D44) (ws_stops _ _ _ U3 D44) E4) as (-> & -> & E5)].
    + apply ws_split in E5 as (_ & E6 & _); auto. discriminate.
    + apply ws_split in E5 as (-> & _ & E6); auto. destruct (IH2 _ _ _ _ K2 E6) as (-> & -> & ->). auto.
Qed.
Lemma doc_unique t x y : jsonDoc t x -> jsonDoc t y -> y = x.
Proof. intros J K. destruct (proj1 doc_det t x J t y [] [] K I I eq_refl) as (_ & -> & _). reflexivity. Qed.
