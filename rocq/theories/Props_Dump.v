(** C137-C139: JSON documents, and the dump of call frame instructions. *)
From Coq Require Import Ascii String.
From Verif Require Import Base LebSpec LebProofs DwarfReader Cfi CfiSpec CfiProofs Json JsonSpec Args FrameText FrameTextSpec JsonDoc JsonDocSpec JsonDocProofs Dump DumpSpec DumpProofs.

(** C137: what is printed is a JSON text, it says what was given, and it can be read in no other way. *)
Theorem C137_documents v x : means v x -> exists t, jprint v = Ok t /\ jsonDoc t x /\ forall y, jsonDoc t y -> y = x.
Proof.
  intros M. destruct (proj1 print_means v x M) as (t & E & J). exists t. repeat split; [exact E|exact J|]. intros y Y. exact (doc_unique t x y J Y).
Qed.
(** a list of two objects, one with a string that must be escaped and one with a list *)
Definition doc1 : jval :=
  VList [VObj [(txt "name", VStr [97; 34; 10; 195; 169]); (txt "n", VInt (-5))]; VMap [(txt "k", VList []); (txt "z", VList [VNull; VBool true])]].
Definition doc1x : jvalue :=
  XArr [XObj [(txt "name", XStr [97; 34; 10; 233]); (txt "n", XNum (-5))]; XObj [(txt "k", XArr []); (txt "z", XArr [XNull; XBool true])]].
Example C137_nonvacuous : means doc1 doc1x /\ exists t, jprint doc1 = Ok t /\ jsonDoc t doc1x.
Proof.
  assert (M : means doc1 doc1x).
  { repeat first [apply mList | apply mObj | apply mMap | apply mlNil | apply mlCons | apply mmNil | apply mmCons; [ascii| |] | apply mNull | apply mBool | apply mInt; lia].
    apply mStr. exists [97; 34; 10; 233]. repeat split; try reflexivity; repeat (apply Forall_cons || apply Forall_nil); unfold scalar; lia. }
  split; [exact M|]. destruct (C137_documents doc1 doc1x M) as (t & E & J & _). now exists t.
Qed.

(** C138: a program of call frame instructions is shown as a JSON list with one object for each instruction, in order, with the instruction's name and the
    values of its operands. *)
Theorem C138_cfa_dump data before after p : Forall isByte data -> zlen data + 32 < W64 -> data = before ++ encodeXs p ++ after ->
  Forall operands p -> Forall shownRight p ->
  exists v t, dumpInsns data (zlen before) (zlen before + zlen (encodeXs p)) = Ok v /\ jprint v = Ok t /\
    jsonDoc t (XArr (insnDocs (zlen before) p)) /\ forall y, jsonDoc t y -> y = XArr (insnDocs (zlen before) p).
Proof.
  intros Hd Hw E Ho Hs.
  assert (At : at_ data (zlen before) (encodeXs p)).
  { split; [apply zlen_nonneg|]. exists after. rewrite E. apply zdrop_app_zlen. }
  destruct (insns_means data (zlen before) p Hd Hw Ho Hs At) as (v & Ev & M).
  destruct (C137_documents _ _ M) as (t & Et & J & U). exists v, t. repeat split; assumption.
Qed.
Definition prog1 : list xinsn :=
  [Std (SDefCfa 7 8); Std (SOffset 16 1); Std (SAdvanceLoc 4); GnuArgsSize 300; Std (SValExpression 6 [1; 2; 3]); Std SRemember; Std (SOffsetExtSf 17 (-2)); Std (SAdvanceLoc4 70000); Std (SDefCfaSf 7 3); Std SNop].
Example C138_nonvacuous : Forall operands prog1 /\ Forall shownRight prog1 /\ Forall isByte ([0] ++ encodeXs prog1 ++ [0]) /\
  insnDoc 1 (Std (SDefCfa 7 8)) = XObj [(lit "type", XStr (lit "DW_CFA_def_cfa")); (lit "reg", XNum 7); (lit "offset", XNum 8)] /\
  exists v, dumpInsns ([0] ++ encodeXs prog1 ++ [0]) 1 (1 + zlen (encodeXs prog1)) = Ok v.
Proof.
  split; [unfold prog1; repeat (apply Forall_cons; [cbn; unfold word64, sword64; (lia || exact I)|]); apply Forall_nil|].
  split; [unfold prog1; repeat (apply Forall_cons; [cbn; (lia || exact I)|]); apply Forall_nil|].
  split; [|split; [reflexivity|exists (match dumpInsns ([0] ++ encodeXs prog1 ++ [0]) 1 (1 + zlen (encodeXs prog1)) with Ok v => v | _ => VNull end); vm_compute; reflexivity]].
  apply Forall_forall. intros b H. assert (F : forallb (fun b => (0 <=? b) && (b <? 256)) ([0] ++ encodeXs prog1 ++ [0]) = true) by (vm_compute; reflexivity).
  rewrite forallb_forall in F. specialize (F b H). unfold isByte. lia.
Qed.

(** C139: operands that are shown as other numbers, and instructions that cannot be shown. *)
(** a negative factored offset is shown as a number that is not negative *)
Theorem C139_signed_shown_unsigned_refuted data before after r n :
  zlen data + 32 < W64 -> data = before ++ encodeX (Std (SDefCfaSf r n)) ++ after -> word64 r -> - 2 ^ 63 <= n < 0 ->
  exists m, 0 <= m /\ dumpInsn data (zlen before) =
    Ok (VObj [(txt "type", VStr (txt "DW_CFA_def_cfa_sf")); (txt "register", VInt r); (txt "offset", VInt m)], zlen before + zlen (encodeX (Std (SDefCfaSf r n)))).
Proof.
  intros Hw E Hr Hn. pose proof (zlen_nonneg before) as P0.
  assert (At : at_ data (zlen before) (18 :: uleb r ++ sleb n)).
  { split; [exact P0|]. exists after. rewrite E. apply zdrop_app_zlen. }
  change (18 :: uleb r ++ sleb n) with ([18] ++ uleb r ++ sleb n) in At. apply at_app in At as [A1 A2]. apply at_app in A2 as [A2 A3]. change (zlen [18]) with 1 in *.
  unfold dumpInsn. rewrite (getu8_at _ _ _ A1) by lia. cbn [bind]. change (Z.land 18 192) with 0. cbn [Z.eqb Pos.eqb]. unfold two. rewrite (getuleb_at _ _ r A2) by (unfold word64 in Hr; unfold W64; lia). cbn [bind].
  destruct (encodeS_shape 10 n) as (pre & b & He & Hc & Hb & Hd & Hl).
  { change (128 ^ (Z.of_nat 10 - 1)) with (2 ^ 63). change (2^63) with 9223372036854775808 in *. lia. }
  { lia. }
  destruct A3 as [_ [rest A3]]. unfold getuleb at 1. rewrite A3. unfold sleb at 1. rewrite He, <- app_assoc. cbn [app]. rewrite leb_unsigned by (try assumption; lia). cbn [bind].
  exists (u64 (digits7 (pre ++ [b]))). split; [unfold u64, W64; apply Z.mod_pos_bound; reflexivity|]. unfold done, nf. do 2 f_equal. cbn [encodeX encodeI]. rewrite zlen_cons, zlen_app. unfold sleb. rewrite He, zlen_app. change (zlen [b]) with 1. cbn [fst snd]. lia.
Qed.
(** a long advance is shown as a negative number *)
Theorem C139_advance_shown_negative_refuted data before after d :
  Forall isByte data -> zlen data + 32 < W64 -> data = before ++ encodeX (Std (SAdvanceLoc4 d)) ++ after -> 2 ^ 31 <= d < 2 ^ 32 ->
  dumpInsn data (zlen before) = Ok (VObj [(txt "type", VStr (txt "DW_CFA_advance_loc4")); (txt "arg", VInt (d - 2 ^ 32))], zlen before + 5).
Proof.
  intros Hd Hw E Hn. pose proof (zlen_nonneg before) as P0.
  assert (At : at_ data (zlen before) ([4] ++ leBytes 4 d)).
  { split; [exact P0|]. exists after. rewrite E. apply zdrop_app_zlen. }
  apply at_app in At as [A1 A2]. change (zlen [4]) with 1 in *.
  unfold dumpInsn. rewrite (getu8_at _ _ _ A1) by lia. cbn [bind]. change (Z.land 4 192) with 0. cbn [Z.eqb Pos.eqb].
  change (2 ^ 31) with 2147483648 in *. change (2 ^ 32) with 4294967296 in *.
  rewrite (getu32_at data (zlen before + 1) d) by (try assumption; unfold W32; lia). cbn [bind]. unfold done, nf, int32. replace (d <? 2147483648) with false by lia. do 2 f_equal. lia.
Qed.
(** the value rules of the standard stop the dump, wherever they are in a program *)
Theorem C139_val_offset_throws_refuted data before after p q i :
  Forall isByte data -> zlen data + 32 < W64 -> data = before ++ encodeXs (p ++ i :: q) ++ after ->
  Forall operands p -> Forall shownRight p -> (exists r n, i = ValOffset r n \/ i = ValOffsetSf r n) ->
  dumpInsns data (zlen before) (zlen before + zlen (encodeXs (p ++ i :: q))) = Throw.
Proof.
  intros Hd Hw E Ho Hs Hi. unfold dumpInsns.
  assert (At : at_ data (zlen before) (encodeXs (p ++ i :: q))).
  { split; [apply zlen_nonneg|]. exists after. rewrite E. apply zdrop_app_zlen. }
  assert (Hl : zlen (encodeXs (p ++ i :: q)) < Z.of_nat (S (List.length data))) by (pose proof (at_zlen_le _ _ _ At); unfold zlen in *; lia).
  revert Hl. generalize (S (List.length data)) as fuel. clear E. revert At. generalize (zlen before) as off.
  assert (T : forall off, at_ data off (encodeX i) -> dumpInsn data off = Throw).
  { intros off A. destruct Hi as (r & n & [ -> | -> ]); cbn [encodeX] in A.
    - change (20 :: uleb r ++ uleb n) with ([20] ++ uleb r ++ uleb n) in A. apply at_app in A as [A1 _]. unfold dumpInsn. rewrite (getu8_at _ _ _ A1) by lia. cbn [bind]. change (Z.land 20 192) with 0. reflexivity.
    - change (21 :: uleb r ++ sleb n) with ([21] ++ uleb r ++ sleb n) in A. apply at_app in A as [A1 _]. unfold dumpInsn. rewrite (getu8_at _ _ _ A1) by lia. cbn [bind]. change (Z.land 21 192) with 0. reflexivity. }
  induction p as [|j p IH]; intros off At fuel Hl; cbn [app] in *.
  - unfold encodeXs in *. cbn [flat_map] in *. apply at_app in At as [A1 _]. pose proof (encodeX_pos i). rewrite zlen_app in *. pose proof (zlen_nonneg (flat_map encodeX q)).
    destruct fuel; [lia|]. cbn [dumpLoop]. replace (off =? off + (zlen (encodeX i) + zlen (flat_map encodeX q))) with false by lia. now rewrite (T off A1).
  - inversion Ho; inversion Hs; subst. unfold encodeXs in *. cbn [flat_map] in *. apply at_app in At as [A1 A2]. pose proof (encodeX_pos j). rewrite zlen_app in *. pose proof (zlen_nonneg (flat_map encodeX (p ++ i :: q))).
    destruct fuel; [lia|]. cbn [dumpLoop]. replace (off =? off + (zlen (encodeX j) + zlen (flat_map encodeX (p ++ i :: q)))) with false by lia.
    rewrite (dump_encode data off j) by assumption. cbn [bind].
    replace (off + (zlen (encodeX j) + zlen (flat_map encodeX (p ++ i :: q)))) with (off + zlen (encodeX j) + zlen (flat_map encodeX (p ++ i :: q))) by lia.
    specialize (IH ltac:(assumption) ltac:(assumption) (off + zlen (encodeX j)) A2 fuel ltac:(lia)).
    destruct (dumpLoop fuel data (off + zlen (encodeX j)) (off + zlen (encodeX j) + zlen (flat_map encodeX (p ++ i :: q)))); cbn [bind] in *; try discriminate; reflexivity.
Qed.
(** a block whose length wraps around makes the dump go on for ever *)
Theorem C139_dump_does_not_end_refuted : exists data end_, Forall isByte data /\ forall fuel, dumpLoop fuel data 0 end_ = OutOfFuel.
Proof.
  exists (15 :: uleb (2 ^ 64 - 11)), 11. split; [repeat constructor; unfold isByte; lia|]. 
  assert (E : exists v, dumpInsn (15 :: uleb (2 ^ 64 - 11)) 0 = Ok (v, 0)) by (eexists; vm_compute; reflexivity). destruct E as [v E].
  induction fuel as [|f IH]; [reflexivity|]. cbn [dumpLoop]. change (0 =? 11) with false. cbv iota. rewrite E. cbn [bind]. now rewrite IH.
Qed.
Example C139_nonvacuous :
  dumpInsn (encodeX (Std (SDefCfaSf 7 (-2)))) 0 = Ok (VObj [(txt "type", VStr (txt "DW_CFA_def_cfa_sf")); (txt "register", VInt 7); (txt "offset", VInt 126)], 3) /\
  dumpInsn (encodeX (Std (SAdvanceLoc4 (2 ^ 31)))) 0 = Ok (VObj [(txt "type", VStr (txt "DW_CFA_advance_loc4")); (txt "arg", VInt (- 2 ^ 31))], 5) /\
  dumpInsns (encodeXs [Std SNop; ValOffset 7 1; Std SNop]) 0 5 = Throw.
Proof. vm_compute. repeat split. Qed.
Print Assumptions C137_documents.
Print Assumptions C138_cfa_dump.
Print Assumptions C139_signed_shown_unsigned_refuted.
Print Assumptions C139_advance_shown_negative_refuted.
Print Assumptions C139_val_offset_throws_refuted.
Print Assumptions C139_dump_does_not_end_refuted.
