(** C142-C145: the stacks as JSON (pstack -j). *)
From Coq Require Import Ascii String.
From Verif Require Import Base Json JsonSpec MapsSpec Args ArgsSpec ArgsProofs HdmpProofs JsonProofs FrameText FrameTextSpec JsonDoc JsonDocSpec JsonDocProofs DumpProofs JsonStack JsonStackSpec JsonStackProofs.

(** C142: for one process the output is one JSON text, it says what the threads and frames are, and it can be read in no other way. *)
Theorem C142_json_stacks_partial ls x : stacksSay ls x -> Forall (fun l => Forall known (jlStack l)) ls ->
  exists t, processS ls false = (t, Ok tt, false) /\ jsonDoc t x /\ forall y, jsonDoc t y -> y = x.
Proof. intros H K. destruct (writes_process ls x H K) as (t & E & J). exists t. split; [exact E|]. split; [exact J|]. intros y Y. exact (doc_unique t x y J Y). Qed.
Print Assumptions C142_json_stacks_partial.
Definition frame1 : jframe := mkJF 4198400 (Ok (mkPF (lit "ns::f") 16 [])) false 4194304 (Some (mkSym (lit "_ZN2ns1fEv") 4080 64 18 0 14)) [(lit "a.cc", 12); (lit "b.h", 3)].
Definition frame2 : jframe := mkJF 140000 (Ok (mkPF [] 2 [])) true 0 None [].
Definition thread1 : jlwp := mkJL (Some (mkThr 140737 1 0)) 1234 (Some [195; 169; 10]) [frame1; frame2].
Definition frame1x : jvalue := XObj [member "ip" (XNum 4198400); member "offset" (XNum 16); member "trampoline" (XBool false); member "die" (XStr (lit "ns::f")); member "loadaddr" (XNum 4194304);
  member "symbol" (XObj [member "st_name" (XStr (lit "_ZN2ns1fEv")); member "st_value" (XNum 4080); member "st_size" (XNum 64); member "st_info" (XNum 18); member "st_other" (XNum 0); member "st_shndx" (XNum 14)]);
  member "source" (XArr [XObj [member "file" (XStr (lit "a.cc")); member "line" (XNum 12)]; XObj [member "file" (XStr (lit "b.h")); member "line" (XNum 3)]])].
Definition frame2x : jvalue := XObj [member "ip" (XNum 140000); member "offset" (XNum 2); member "trampoline" (XBool true); member "die" (XStr []); member "loadaddr" (XNum 0); member "symbol" XNull; member "source" (XArr [])].
Definition thread1x : jvalue := XObj [member "ti_tid" (XNum 140737); member "ti_type" (XStr (lit "TD_THR_USER")); member "ti_pri" (XNum 0); member "ti_lid" (XNum 1234); member "name" (XStr [233; 10]); member "ti_stack" (XArr [frame1x; frame2x])].
Example C142_nonvacuous : stacksSay [thread1; mkJL None 7 None []] (XArr [thread1x; XObj [member "ti_lid" (XNum 7); member "name" XNull; member "ti_stack" (XArr [])]]) /\
  Forall (fun l => Forall known (jlStack l)) [thread1; mkJL None 7 None []].
Proof.
  assert (T : forall s, Forall (fun c => 32 <= c < 127) s -> textSays s (XStr s)) by (intros s F; exists s; split; [now apply ascii_plain|reflexivity]).
  split.
  - eexists. split; [|reflexivity]. constructor; [|constructor; [|constructor]].
    + exists [member "ti_tid" (XNum 140737); member "ti_type" (XStr (lit "TD_THR_USER")); member "ti_pri" (XNum 0)], (XStr [233; 10]), [frame1x; frame2x]. cbn [thread1 jlInfo jlId jlName jlStack thTid thPri thType].
      split; [unfold word; lia|]. split; [exists [233; 10]; split; [|reflexivity]; exists [233; 10]; repeat split; try reflexivity; repeat (apply Forall_cons || apply Forall_nil); unfold scalar; lia|].
      split; [|split; [split; [unfold word; lia|split; [unfold word; lia|reflexivity]]|reflexivity]]. constructor; [|constructor; [|constructor]].
      * eexists _, (XStr (lit "ns::f")), _, [XObj [member "file" (XStr (lit "a.cc")); member "line" (XNum 12)]; XObj [member "file" (XStr (lit "b.h")); member "line" (XNum 3)]]. split; [reflexivity|]. cbn [frame1 jfIP jfReloc pfOffset pfName jfSym jfSource].
        split; [unfold word; lia|]. split; [unfold word; lia|]. split; [unfold word; lia|]. split; [apply T; repeat constructor; cbn; lia|].
        split; [exists (XStr (lit "_ZN2ns1fEv")); cbn [syName syValue sySize syInfo syOther syShndx]; split; [apply T; repeat constructor; cbn; lia|]; repeat (split; [unfold word; lia|]); reflexivity|].
        split; [|reflexivity]. constructor; [|constructor; [|constructor]]; eexists; cbn [fst snd]; (split; [apply T; repeat constructor; cbn; lia|]); split; [unfold word; lia|reflexivity|unfold word; lia|reflexivity].
      * eexists _, (XStr []), XNull, []. split; [reflexivity|]. cbn [frame2 jfIP jfReloc pfOffset pfName jfSym jfSource].
        split; [unfold word; lia|]. split; [unfold word; lia|]. split; [unfold word; lia|]. split; [apply T; constructor|]. split; [reflexivity|]. split; [constructor|reflexivity].
    + exists [], XNull, []. cbn [jlInfo jlId jlName jlStack]. split; [unfold word; lia|]. split; [reflexivity|]. split; [constructor|]. split; reflexivity.
  - repeat constructor; cbn; lia.
Qed.
(** Refuted where the offset in the function is not known: every such frame is shown with the offset 18446744073709551615, not null. *)
Theorem C142_unknown_offset_refuted f x p : frameSays f x -> jfPF f = Ok p -> pfOffset p = 2 ^ 64 - 1 ->
  exists t y die sym src, frameS f false = (t, Ok tt, false) /\ jsonDoc t y /\ ~ jsonDoc t x /\
    y = XObj [member "ip" (XNum (jfIP f)); member "offset" (XNum 18446744073709551615); member "trampoline" (XBool (jfTramp f)); member "die" die;
              member "loadaddr" (XNum (jfReloc f)); member "symbol" sym; member "source" src].
Proof.
  intros (p' & die & sym & src & E & W1 & W2 & W3 & TD & TS & TP & ->) E' K. rewrite E in E'. injection E' as ->.
  assert (R : writes (frameS f) (XObj [member "ip" (XNum (jfIP f)); member "offset" (XNum (pfOffset p)); member "trampoline" (XBool (jfTramp f)); member "die" die; member "loadaddr" (XNum (jfReloc f)); member "symbol" sym; member "source" (XArr src)])).
  { unfold frameS. rewrite E. apply writes_obj. members.
    - now apply writes_int. - now apply writes_int. - apply writes_bool. - now apply writes_str. - now apply writes_int. - apply (writes_opt symS symSays); [exact writes_sym|exact TS].
    - apply writes_list. apply (F2_map placeSays); [exact writes_place|exact TP]. }
  destruct R as (t & Et & J). exists t. eexists _, die, sym, (XArr src). split; [exact Et|]. split; [exact J|]. rewrite K. split; [|reflexivity].
  intros J2. pose proof (doc_unique _ _ _ J J2) as Q. rewrite K in Q. rewrite Z.eqb_refl in Q. unfold member in Q. injection Q as Q. discriminate.
Qed.
Print Assumptions C142_unknown_offset_refuted.

(** C143: for several processes each has its own document, in order ... *)
Theorem C143_documents_in_order ps xs : Forall2 stacksSay ps xs -> Forall (fun ls => Forall (fun l => Forall known (jlStack l)) ls) ps ->
  exists ts, runS ps false = (List.concat ts, Ok tt, false) /\ Forall2 jsonDoc ts xs.
Proof.
  intros H. induction H as [|ls x ps xs Hl H IH]; intros K; [exists []; split; [reflexivity|constructor]|]. apply Forall_cons_iff in K as [K1 K2].
  destruct (writes_process ls x Hl K1) as (t & E & J). destruct (IH K2) as (ts & Es & Js). exists (t :: ts). cbn [runS List.concat]. rewrite E, Es. split; [reflexivity|now constructor].
Qed.
Print Assumptions C143_documents_in_order.
(** ... Refuted: but for two or more, what is written is no JSON text. *)
Theorem C143_several_processes_refuted p q ps xs : Forall2 stacksSay (p :: q :: ps) xs -> Forall (fun ls => Forall (fun l => Forall known (jlStack l)) ls) (p :: q :: ps) ->
  forall z, ~ jsonDoc (fst (fst (runS (p :: q :: ps) false))) z.
Proof.
  intros H K z Z. destruct (C143_documents_in_order _ _ H K) as (ts & E & F). rewrite E in Z. cbn [fst] in Z.
  inversion H as [|? x ? xs' _ H2]; subst. inversion H2 as [|? y ? xs2 (ys & _ & ->) _]; subst. inversion F as [|t ? ts' ? J F2]; subst. inversion F2 as [|u ? ts2 ? J2 F3]; subst.
  cbn [List.concat] in Z. destruct (doc_head _ _ J2) as (c & r & -> & Hc). cbn in Hc. subst c.
  destruct (proj1 doc_det t x J (t ++ (91 :: r) ++ List.concat ts2) z ((91 :: r) ++ List.concat ts2) [] Z) as (_ & _ & Q).
  - cbn. unfold isDigit. lia. - exact I. - now rewrite app_nil_r. - discriminate.
Qed.
Print Assumptions C143_several_processes_refuted.
Example C143_nonvacuous : Forall2 stacksSay [[]; [mkJL None 7 None []]] [XArr []; XArr [XObj [member "ti_lid" (XNum 7); member "name" XNull; member "ti_stack" (XArr [])]]] /\
  runS [[]; [mkJL None 7 None []]] false = (lit "[  ][ { ""ti_lid"":7, ""name"":null, ""ti_stack"":[  ] } ]", Ok tt, false).
Proof.
  split; [|vm_compute; reflexivity]. constructor; [exists []; split; [constructor|reflexivity]|]. constructor; [|constructor]. eexists. split; [|reflexivity]. constructor; [|constructor].
  exists [], XNull, []. cbn [jlInfo jlId jlName jlStack]. split; [unfold word; lia|]. split; [reflexivity|]. split; [constructor|]. split; reflexivity.
Qed.

(** C144 is false: if one frame of one thread cannot be described, what is written for the process is no JSON text. *)
Lemma ends_app (P : Z) a b : b <> [] -> (exists u, b = u ++ [P]) -> exists u, a ++ b = u ++ [P].
Proof. intros _ (u & ->). exists (a ++ u). now rewrite app_assoc. Qed.
Lemma obj_throws l h t h' : objS l h = (t, Throw, h') -> exists u, t = u ++ [125].
Proof.
  unfold objS. destruct (fieldsS [] l h) as [[u [| | |]] h2]; intros E; try discriminate. injection E as <- <-. exists (txt "{ " ++ u ++ [32]). rewrite <- !app_assoc. reflexivity.
Qed.
Lemma items_throw ls : forall sep h t h', itemsS sep (map lwpS ls) h = (t, Throw, h') -> exists u, t = u ++ [125].
Proof.
  induction ls as [|l ls IH]; intros sep h t h' E; cbn [map itemsS] in E; [discriminate|]. unfold andThenS, put in E.
  destruct (lwpS l h) as [[a [[]| | |]] h1] eqn:El; try discriminate.
  - destruct (itemsS [44; 10] (map lwpS ls) h1) as [[b r] h2] eqn:Ei. inversion E; subst. destruct (IH _ _ _ _ Ei) as (u & ->). exists (sep ++ a ++ u). now rewrite <- !app_assoc.
  - inversion E; subst. destruct (obj_throws _ _ _ _ El) as (u & ->). exists (sep ++ u). now rewrite app_assoc.
Qed.
Theorem C144_one_bad_frame_refuted ls t h h' : processS ls h = (t, Throw, h') -> forall x, ~ jsonDoc t x.
Proof.
  unfold processS, listS. intros E x J. unfold andThenS, put in E. destruct (itemsS [] (map lwpS ls) h) as [[b [[]| | |]] h2] eqn:Ei; try discriminate. inversion E; subst. destruct (items_throw _ _ _ _ _ Ei) as (u & ->). clear E Ei.
  change (txt "[ " ++ u ++ [125]) with (91 :: 32 :: u ++ [125]) in J. destruct (doc_head _ _ J) as (c & r & Q & H). injection Q as <- <-.
  assert (L : forall a : list Z, 91 :: 32 :: u ++ [125] = a ++ [93] -> False).
  { intros a Q. change (91 :: 32 :: u ++ [125]) with ((91 :: 32 :: u) ++ [125]) in Q. apply app_inj_tail in Q as [_ Q]. discriminate. }
  remember (91 :: 32 :: u ++ [125]) as T eqn:ET. destruct J as [| | |s n D|s n D|w W|b l D|w W|b l D]; try discriminate; try (cbn in H; unfold isDigit in H; lia).
  - apply (L ([91] ++ w)). rewrite <- app_assoc. now symmetry.
  - apply (L ([91] ++ b)). rewrite <- app_assoc. now symmetry.
Qed.
Print Assumptions C144_one_bad_frame_refuted.
(** the first thread and the first frame are fine; the second frame fails, and the third thread is not shown at all *)
Example C144_case : exists t h, processS [thread1; mkJL None 8 None [frame1; mkJF 5 Throw false 0 None []; frame2]; mkJL None 9 None []] false = (t, Throw, h).
Proof. eexists _, _. vm_compute. reflexivity. Qed.

(** C145 is false: after a process one of whose names is no proper UTF-8 (here the thread's name, an e with an accent followed by half a character), the
    numbers of the next process are written in hexadecimal. *)
Lemma num_le s v w : numeral 10 s v -> numeral 16 s w -> v <= w /\ 0 <= v.
Proof.
  intros N. revert w. induction N as [c d [D1 D2]|s v c d N IH [D1 D2]]; intros w M.
  - inversion M as [c' d' [E1 E2] Q|s' v' c' d' M' [E1 E2] Q]; subst; [lia|]. destruct s' as [|? [|]]; try discriminate. inversion M' as [|s0 ? ? ? ? ? Q0]; subst. now destruct s0.
  - inversion M as [c' d' [E1 E2] Q|s' v' c' d' M' [E1 E2] Q]; subst.
    + destruct s as [|? [|]]; try discriminate. inversion N as [|s0 ? ? ? ? ? Q0]; subst. now destruct s0.
    + apply app_inj_tail in Q as [-> ->]. destruct (IH _ M'). lia.
Qed.
Theorem C145_hex_after_error_refuted id : 10 <= id < 2 ^ 31 ->
  exists a b, runS [[mkJL None 1 (Some [195; 169; 195; 65]) []]; [mkJL None id None []]] false = (a ++ lit """ti_lid"":" ++ hexText 16 id ++ b, Ok tt, true) /\
    a = lit "[ { ""ti_lid"":1, ""name"":""\u00e9 }[ { " /\ ~ decimal (hexText 16 id) id.
Proof.
  intros R. exists (lit "[ { ""ti_lid"":1, ""name"":""\u00e9 }[ { "), (lit ", ""name"":null, ""ti_stack"":[  ] } ]"). split; [|split; [reflexivity|]].
  - replace (hexText 16 id) with (hexText 16 (u64 id)) by (rewrite u64_id; [reflexivity|unfold isU64, W64; lia]). 
    assert (E1 : processS [mkJL None 1 (Some [195; 169; 195; 65]) []] false = (lit "[ { ""ti_lid"":1, ""name"":""\u00e9 }", @Throw unit, true)) by (vm_compute; reflexivity).
    assert (E2 : processS [mkJL None id None []] true = (lit "[ { ""ti_lid"":" ++ hexText 16 (u64 id) ++ lit ", ""name"":null, ""ti_stack"":[  ] } ]", Ok tt, true)) by (cbv -[hexText u64]; fold (@app Z); rewrite ?app_nil_r, <- ?app_assoc; reflexivity).
    cbn [runS]. rewrite E1, E2. rewrite app_nil_r. reflexivity.
  - intros D. assert (N : numeral 10 (hexText 16 id) id) by (destruct D as [(_ & N & _)|(Q & _)]; [exact N|lia]). clear D.
    destruct (Z_lt_ge_dec id 16) as [L|L].
    + rewrite hexText_lt16 in N by lia. unfold hexChar in N. replace (id <? 10) with false in N by lia. inversion N as [c d [D1 D2] Q|s' v' c' d' M' [E1 E2] Q]; subst; [lia|]. destruct s' as [|? [|]]; try discriminate. inversion M' as [|s0 ? ? ? ? ? Q0]; subst. now destruct s0.
    + rewrite hexText_ge16 in N by lia. remember (hexText 15 (id / 16) ++ [hexChar (id mod 16)]) as T eqn:ET. destruct N as [c d [D1 D2]|s' v' c' d' M' [E1 E2]].
      * lia.
      * apply app_inj_tail in ET as [-> ->]. set (id := v' * 10 + d') in *.
        assert (C : canonical 16 (hexText 15 (id / 16)) (id / 16)) by (rewrite hexText_num; apply numText_canonical; [lia|lia|change (16 ^ Z.of_nat 15) with 1152921504606846976; lia]). destruct C as [C _].
        destruct (num_le _ _ _ M' C). unfold hexChar in E2. destruct (id mod 16 <? 10) eqn:?; lia.
Qed.
Print Assumptions C145_hex_after_error_refuted.
