(** Proofs about the JSON of stacks. *)
From Coq Require Import Ascii String.
From Verif Require Import Base Json JsonSpec Args ArgsSpec FrameText FrameTextSpec JsonDoc JsonDocSpec JsonDocProofs DumpProofs JsonStack JsonStackSpec.

(** On a stream in decimal, [p] writes a document that says [x] and leaves the stream as it was. *)
Definition writes (p : pr) (x : jvalue) : Prop := exists t, p false = (t, Ok tt, false) /\ jsonDoc t x.

Lemma escapeS_ok f : forall l h t, escape f l = Ok t -> exists h', escapeS f l h = (t, Ok tt, h').
Proof.
  induction f as [|f IH]; intros l h t E; [discriminate|]. cbn [escape escapeS] in *. destruct l as [|c r]; [inversion E; subst; eauto|].
  assert (P : forall s h, (let* t := escape f r in Ok (s ++ t)) = Ok t -> exists h', andThenS (put s) (escapeS f r) h = (t, Ok tt, h')).
  { intros s h0 Q. destruct (escape f r) as [u| | |] eqn:Eu; try discriminate. injection Q as <-. destruct (IH r h0 u Eu) as (h' & Eh). exists h'. unfold andThenS, put. now rewrite Eh. }
  repeat match type of E with (if ?c then _ else _) = _ => destruct c end; try (now apply P).
  destruct (leadByte c) as [count v]. destruct (contBytes (Z.to_nat (count - 1)) v r) as [[v' r']| | |]; try discriminate. cbn [bind] in E.
  destruct (escape f r') as [u| | |] eqn:Eu; try discriminate. injection E as <-. destruct (IH r' true u Eu) as (h' & Eh). exists h'. unfold andThenS, put. rewrite Eh. now rewrite <- app_assoc.
Qed.
Lemma strS_ok s t h : plainText s t -> exists o, strS s h = (o, Ok tt, h) /\ jsonString o t.
Proof.
  intros P. destruct (print_plain s t P) as (o & E & J). exists o. split; [|exact J]. unfold printString in E. destruct (escape (S (length s)) s) as [u| | |] eqn:Eu; try discriminate. injection E as <-.
  unfold strS. destruct (escapeS_ok _ _ h _ Eu) as (h' & ->). reflexivity.
Qed.
Lemma writes_str s x : textSays s x -> writes (strS s) x.
Proof. intros (t & P & ->). destruct (strS_ok s t false P) as (o & E & J). exists o. split; [exact E|now constructor]. Qed.
Lemma writes_int n : word n -> writes (intS n) (XNum n).
Proof. intros W. exists (intText n). split; [reflexivity|]. constructor. now apply intText_decimal64. Qed.
Lemma writes_bool b : writes (boolS b) (XBool b).
Proof. eexists. split; [reflexivity|]. destruct b; constructor. Qed.
Lemma writes_opt {X} (p : X -> pr) (says : X -> jvalue -> Prop) o x : (forall v y, says v y -> writes (p v) y) -> orNull says o x -> writes (optS p o) x.
Proof. intros H P. destruct o as [v|]; cbn in P |- *; [now apply H|]. subst x. eexists. split; [reflexivity|constructor]. Qed.

Lemma itemsS_ok l xs : Forall2 writes l xs -> forall sep, exists t, itemsS sep l false = (t, Ok tt, false) /\ (l = [] -> xs = [] /\ t = []) /\
  (l <> [] -> exists t', t = sep ++ t' /\ forall w w', ws w -> ws w' -> jsonElems (w ++ t' ++ w') xs).
Proof.
  intros H. induction H as [|p x l xs (a & Ea & Ja) Hl IH]; intros sep.
  - exists []. split; [reflexivity|]. split; [now split|easy].
  - destruct (IH [44; 10]) as (b & Eb & B0 & B1). cbn [itemsS]. unfold andThenS, put. rewrite Ea, Eb. eexists. split; [reflexivity|]. split; [easy|]. intros _.
    exists (a ++ b). split; [reflexivity|]. intros w w' W W'. destruct l as [|v2 l].
    + destruct (B0 eq_refl) as [-> ->]. rewrite app_nil_r. now apply ElLast.
    + destruct (B1 ltac:(discriminate)) as (b' & -> & J). replace (w ++ (a ++ [44; 10] ++ b') ++ w') with (w ++ a ++ [] ++ [44] ++ ([10] ++ b' ++ w')) by (cbn [app]; rewrite <- !app_assoc; reflexivity).
      apply ElCons; [exact W|exact Ja|constructor|]. apply J; [apply ws_nl|exact W'].
Qed.
Lemma writes_list l xs : Forall2 writes l xs -> writes (listS l) (XArr xs).
Proof.
  intros H. destruct (itemsS_ok l xs H []) as (t & E & E0 & E1). unfold writes, listS, andThenS, put. rewrite E. eexists. split; [reflexivity|].
  change (txt "[ " ++ t ++ txt " ]") with ([91] ++ ([32] ++ t ++ [32; 93])). replace ([32] ++ t ++ [32; 93]) with (([32] ++ t ++ [32]) ++ [93]) by (rewrite <- !app_assoc; reflexivity). destruct l as [|v l].
  - destruct (E0 eq_refl) as [-> ->]. apply DArrEmpty. repeat constructor.
  - destruct (E1 ltac:(discriminate)) as (t' & -> & J). apply DArr. apply J; apply ws_sp.
Qed.
Definition field_ (f : list Z * pr) (m : list Z * jvalue) : Prop := plainText (fst f) (fst m) /\ writes (snd f) (snd m).
Lemma fieldsS_ok l xs : Forall2 field_ l xs -> forall sep, exists t, fieldsS sep l false = (t, Ok tt, false) /\ (l = [] -> xs = [] /\ t = []) /\
  (l <> [] -> exists t', t = sep ++ t' /\ forall w w', ws w -> ws w' -> jsonMembers (w ++ t' ++ w') xs).
Proof.
  intros H. induction H as [|[k p] [kt x] l xs [Pk (a & Ea & Ja)] Hl IH]; intros sep.
  - exists []. split; [reflexivity|]. split; [now split|easy].
  - cbn [fst snd] in *. destruct (strS_ok k kt false Pk) as (ko & Ek & Jk). destruct (IH [44; 32]) as (b & Eb & B0 & B1). cbn [fieldsS]. unfold andThenS, put. rewrite Ek, Ea, Eb. eexists. split; [reflexivity|]. split; [easy|]. intros _.
    exists ((ko ++ [58] ++ a) ++ b). split; [now rewrite <- !app_assoc|]. intros w w' W W'. destruct l as [|v2 l].
    + destruct (B0 eq_refl) as [-> ->]. rewrite app_nil_r. replace (w ++ (ko ++ [58] ++ a) ++ w') with (w ++ ko ++ [] ++ [58] ++ [] ++ a ++ w') by (cbn [app]; rewrite <- !app_assoc; reflexivity). apply MeLast; try assumption; constructor.
    + destruct (B1 ltac:(discriminate)) as (b' & -> & J). replace (w ++ ((ko ++ [58] ++ a) ++ [44; 32] ++ b') ++ w') with (w ++ ko ++ [] ++ [58] ++ [] ++ a ++ [] ++ [44] ++ ([32] ++ b' ++ w')) by (repeat (cbn [app]; rewrite <- ?app_assoc); reflexivity).
      apply MeCons; try assumption; try constructor. apply J; [apply ws_sp|assumption].
Qed.
Lemma writes_obj l xs : Forall2 field_ l xs -> writes (objS l) (XObj xs).
Proof.
  intros H. destruct (fieldsS_ok l xs H []) as (t & E & E0 & E1). unfold writes, objS. rewrite E. eexists. split; [reflexivity|].
  change (txt "{ " ++ t ++ txt " }") with ([123] ++ ([32] ++ t ++ [32; 125])). replace ([32] ++ t ++ [32; 125]) with (([32] ++ t ++ [32]) ++ [125]) by (rewrite <- !app_assoc; reflexivity). destruct l as [|v l].
  - destruct (E0 eq_refl) as [-> ->]. apply DObjEmpty. repeat constructor.
  - destruct (E1 ltac:(discriminate)) as (t' & -> & J). apply DObj. apply J; apply ws_sp.
Qed.
Ltac members := repeat (apply Forall2_cons || apply Forall2_nil); try (split; [cbn [fst fs member]; ascii|cbn [snd fs member]]).
Lemma F2_map {X Y} (P : X -> Y -> Prop) (p : X -> pr) (Q : pr -> Y -> Prop) l ys : (forall x y, P x y -> Q (p x) y) -> Forall2 P l ys -> Forall2 Q (map p l) ys.
Proof. intros H F. induction F; cbn [map]; constructor; auto. Qed.
Lemma writes_sym s x : symSays s x -> writes (symS s) x.
Proof. intros (n & N & W1 & W2 & W3 & W4 & W5 & ->). apply writes_obj. members; first [now apply writes_str|now apply writes_int]. Qed.
Lemma writes_place s x : placeSays s x -> writes (placeS s) x.
Proof. intros (n & N & W1 & ->). apply writes_obj. members; first [now apply writes_str|now apply writes_int]. Qed.
Lemma writes_frame f x : frameSays f x -> known f -> writes (frameS f) x.
Proof.
  intros (p & die & sym & src & E & W1 & W2 & W3 & TD & TS & TP & ->) K. unfold known in K. rewrite E in K. replace (pfOffset p =? 2 ^ 64 - 1) with false by lia.
  unfold frameS. rewrite E. apply writes_obj. members.
  - now apply writes_int. - now apply writes_int. - apply writes_bool. - now apply writes_str. - now apply writes_int. - apply (writes_opt symS symSays); [exact writes_sym|exact TS].
  - apply writes_list. apply (F2_map placeSays); [exact writes_place|exact TP].
Qed.
Lemma thrType_kind t : thrType t = lit (kindOf t).
Proof.
  unfold thrType, kindOf. destruct (t =? 0) eqn:E0; [apply Z.eqb_eq in E0; subst; reflexivity|]. destruct (t =? 1) eqn:E1; [apply Z.eqb_eq in E1; subst; reflexivity|].
  destruct (t =? 2) eqn:E2; [apply Z.eqb_eq in E2; subst; reflexivity|]. destruct t as [|[q|[q|q|]|]|q]; try reflexivity; discriminate.
Qed.
Lemma writes_kind t : writes (strS (thrType t)) (XStr (lit (kindOf t))).
Proof.
  apply writes_str. rewrite thrType_kind. exists (lit (kindOf t)). split; [|reflexivity]. rewrite <- thrType_kind. unfold thrType. repeat match goal with |- context [if ?c then _ else _] => destruct c end; ascii.
Qed.

Lemma writes_thread l x : threadSays l x -> Forall known (jlStack l) -> writes (lwpS l) x.
Proof.
  intros (info & name & stack & W & TN & TF & TI & ->) K. unfold lwpS. apply writes_obj. apply Forall2_app.
  - destruct (jlInfo l) as [i|]; [|subst info; constructor]. destruct TI as (W1 & W2 & ->). members; [now apply writes_int|apply writes_kind|now apply writes_int].
  - members; [now apply writes_int|apply (writes_opt strS textSays); [exact writes_str|exact TN]|]. apply writes_list.
    revert K. clear -TF. induction TF as [|f x fs xs Hf H IH]; intros K; cbn [map]; [constructor|]. apply Forall_cons_iff in K as [K1 K2]. constructor; [now apply writes_frame|now apply IH].
Qed.
Lemma writes_process ls x : stacksSay ls x -> Forall (fun l => Forall known (jlStack l)) ls -> writes (processS ls) x.
Proof.
  intros (xs & F & ->) K. apply writes_list. revert K. induction F as [|l x ls xs Hl H IH]; intros K; cbn [map]; [constructor|]. apply Forall_cons_iff in K as [K1 K2]. constructor; [now apply writes_thread|now apply IH].
Qed.

