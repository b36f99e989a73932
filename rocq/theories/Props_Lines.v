(** Properties C22 and C23: line number information. *)
From Verif Require Import Base Leb LebSpec DwarfReader Cfi CfiSpec CfiProofs ExprProofs Lines LinesSpec LinesProofs.

(** C23.  A version 2-4 unit, encoded at [off]: the code recovers the directory and file tables and
    the rows it stores are those of the DWARF state machine ([matrix]) in every register except
    prologue_end, epilogue_begin and discriminator.
    Partial: those three registers, DW_LNS_fixed_advance_pc unless minimum_instruction_length is 1,
    and programs using opcodes the code does not know; see the refutations. *)
Theorem C23_line_matrix_v4_partial : forall data e fuel off long ver maxOps p lens dirs files prog,
  Forall isByte data -> zlen data + 32 < W64 -> 2 <= ver < 5 -> (long = true -> 2 < ver) -> isByte maxOps -> wfParams p lens ->
  Forall (wfLn p) prog -> (existsb isFixed prog = true -> pMin p = 1) -> (length data < fuel)%nat ->
  (long = false -> zlen data < 4294967280) ->
  Forall (fun s => s <> [] /\ isText s) dirs -> Forall wfFile files ->
  at_ data off (encodeUnit long ver (fixedPart ver maxOps p lens ++ tables4 dirs files) (encodeProg prog)) ->
  exists rows, lineBuild fuel data e off = Ok (mkLI ([46] :: dirs) (mkFile [117; 110; 107; 110; 111; 119; 110] 0 0 0 :: map fileOf files) rows (pDefStmt p) (pOpBase p) (0 :: lens)) /\
    Forall2 agree rows (matrix p (sreg0 p) prog).
Proof. exact lineBuild4. Qed.
Print Assumptions C23_line_matrix_v4_partial.

(** The same for version 5, whose tables are self-describing: every entry has a path (given inline
    or in one of the string sections), files may have a directory index, other fields are strings
    or 16-byte blocks; the unit and the line table use the same DWARF format. *)
Theorem C23_line_matrix_v5_partial : forall data e fuel off long maxOps p lens dfmt dirs ffmt files prog,
  let olen := if (long : bool) then 8%nat else 4%nat in
  Forall isByte data -> zlen data + 32 < W64 -> isByte maxOps -> wfParams p lens ->
  Forall (wfLn p) prog -> (existsb isFixed prog = true -> pMin p = 1) ->
  (length prog < fuel)%nat -> (length dirs < fuel)%nat -> (length files < fuel)%nat ->
  (long = false -> zlen data < 4294967280) ->
  seLen e = Z.of_nat olen ->
  Forall (fun f => u32ok (fst f) /\ u32ok (snd f)) dfmt -> Forall (fun f => u32ok (fst f) /\ u32ok (snd f)) ffmt ->
  zlen dirs < 2 ^ 31 -> zlen files < 2 ^ 64 ->
  Forall (fun d => fmtOf d = dfmt /\ Forall (dirField e olen) d /\ (exists v, In (1, v) d) /\
      (forall s, entryPath (seLineStr e) (seStr e) d s -> s <> [])) dirs ->
  Forall (fun d => fmtOf d = ffmt /\ Forall (fileField e olen) d /\ (exists v, In (1, v) d)) files ->
  at_ data off (encodeUnit long 5 (fixedPart 5 maxOps p lens ++ tables5 olen dfmt dirs ffmt files) (encodeProg prog)) ->
  exists ds fs rows, lineBuild fuel data e off = Ok (mkLI ds fs rows (pDefStmt p) (pOpBase p) (0 :: lens)) /\
    Forall2 (entryPath (seLineStr e) (seStr e)) dirs ds /\ Forall2 (fileRel e) files fs /\
    Forall2 agree rows (matrix p (sreg0 p) prog).
Proof. exact lineBuild5. Qed.
Print Assumptions C23_line_matrix_v5_partial.

(** Concrete units. *)
Definition C23_p : sparams := mkSP 1 true (-5) 14 13.
Definition C23_lens : list Z := [0; 1; 1; 1; 1; 0; 0; 0; 1; 0; 0; 1].
Definition C23_prog : list linsn :=
  [LSetAddress 4096; LAdvanceLine 9; LCopy; LSpecial 100; LSetFile 2; LSetColumn 7; LNegateStmt; LConstAddPc; LSpecial 255;
   LFixedAdvancePc 300; LAdvancePc 8; LEndSequence; LSetAddress 8192; LBasicBlock; LSpecial 18; LAdvancePc 16; LEndSequence].
Definition C23_dirs : list (list Z) := [[47; 117]; [97]].
Definition C23_files : list sfile := [mkSF [97; 46; 99] 0 0 0; mkSF [98; 46; 104] 2 5 6].
Definition C23_unit4 : list Z := encodeUnit false 4 (fixedPart 4 1 C23_p C23_lens ++ tables4 C23_dirs C23_files) (encodeProg C23_prog).
Definition C23_env : strEnv := mkSE 4 ([0; 0; 0] ++ cstr [97; 98]) [] (fun _ => Throw).
Example C23_nonvacuous4 : forall rest, at_ ([9; 9] ++ C23_unit4 ++ rest) 2 C23_unit4 /\ wfParams C23_p C23_lens /\
  Forall (wfLn C23_p) C23_prog /\ Forall wfFile C23_files /\
  match lineBuild 200 ([9; 9] ++ C23_unit4) C23_env 2 with
  | Ok li => map lAddr (liMatrix li) = [4096; 4102; 4136; 4444; 8192; 8208] /\ map lLine (liMatrix li) = [10; 8; 7; 7; 1; 1] /\
             map lFile (liMatrix li) = [1; 1; 2; 2; 1; 1] /\ map fName (liFiles li) = [[117; 110; 107; 110; 111; 119; 110]; [97; 46; 99]; [98; 46; 104]]
  | _ => False
  end.
Proof.
  intros rest. split; [split; [lia|exists rest; reflexivity]|]. split; [|split; [|split]].
  - unfold wfParams, C23_p, C23_lens. cbn. repeat split; try lia. repeat constructor; unfold isByte; lia.
  - repeat constructor; unfold std, C23_p; cbn; lia.
  - repeat constructor; unfold u32ok; cbn; try lia; discriminate.
  - vm_compute. repeat split.
Qed.
Definition C23_d5 : list (list field) := [[(1, VLineStrp 3)]; [(1, VLineStrp 3)]].
Definition C23_f5 : list (list field) := [[(1, VString [120]); (2, VUdata 1); (5, VData16 (repeat 7 16))]; [(1, VLineStrp 3); (2, VUdata 0); (5, VData16 (repeat 8 16))]].
Definition C23_unit5 : list Z :=
  encodeUnit false 5 (fixedPart 5 1 C23_p C23_lens ++ tables5 4 [(1, 31)] C23_d5 [(1, 31); (2, 15); (5, 30)] (skipn 1 C23_f5)) (encodeProg C23_prog).
Example C23_nonvacuous5 :
  match lineBuild 200 C23_unit5 C23_env 0 with
  | Ok li => map lAddr (liMatrix li) = [4096; 4102; 4136; 4444; 8192; 8208] /\ liDirs li = [[97; 98]; [97; 98]] /\
             map fName (liFiles li) = [[97; 98]]
  | _ => False
  end /\
  Forall (fun d => fmtOf d = [(1, 31)] /\ Forall (dirField C23_env 4) d /\ (exists v, In (1, v) d) /\
      (forall s, entryPath (seLineStr C23_env) (seStr C23_env) d s -> s <> [])) C23_d5.
Proof.
  split; [vm_compute; repeat split|].
  assert (S : strAt (seLineStr C23_env) 3 [97; 98]).
  { split; [repeat constructor; lia|]. exists [0; 0; 0], []. split; reflexivity. }
  assert (A : fmtOf [(1, VLineStrp 3)] = [(1, 31)] /\ Forall (dirField C23_env 4) [(1, VLineStrp 3)] /\ (exists v, In (1, v) [(1, VLineStrp 3)]) /\
      (forall s, entryPath (seLineStr C23_env) (seStr C23_env) [(1, VLineStrp 3)] s -> s <> [])).
  { split; [reflexivity|]. split; [|split].
    - repeat constructor; cbn; try lia. exists [97; 98]. now constructor.
    - exists (VLineStrp 3). now left.
    - intros s (v & [Hv|[]] & Hs) ->. inversion Hv; subst. inversion Hs as [| |]; subst.
      match goal with H : strAt _ _ [] |- _ => destruct H as (_ & pre & post & E & L) end.
      do 4 (destruct pre as [|? pre]; [discriminate L || discriminate E|]). cbn in L. unfold zlen in L. cbn in L. lia. }
  constructor; [exact A|constructor; [exact A|constructor]].
Qed.

(** The loop over the program ends for every input. *)
Theorem C23_program_terminates : forall data h end_ fuel off s, 0 <= hAddrSize h -> 0 <= off -> (length data < fuel)%nat ->
  lineLoop fuel data h end_ off s <> OutOfFuel.
Proof.
  intros data h end_ fuel0 off0 s0 Hsz. revert fuel0 off0 s0.
  assert (GU : forall o n v o', getuint data o n = Ok (v, o') -> o' = o + n).
  { intros o n v o' H. unfold getuint in H. destruct (n >? 16); [discriminate|]. destruct (secBytes data o n); cbn [bind] in H; try discriminate; now inversion H. }
  assert (ADV : forall off s s' r o, 0 <= off -> lineStep data h off s = Ok (s', r, o) -> off < o /\ off < zlen data).
  { intros off s s' r o H0. unfold lineStep. intros H.
    repeat match type of H with
    | (if ?b then _ else _) = _ => destruct b; try discriminate H
    | bind (dropArgs ?a ?b ?c) _ = _ => destruct (dropArgs a b c); discriminate H
    | bind ?x _ = Ok _ => let E := fresh "E" in destruct x as [[? ?]| | |] eqn:E; cbn [bind] in H; try discriminate H
    end; inversion H; subst;
    repeat match goal with
    | E : getu8 _ _ = Ok _ |- _ => apply getu8_adv in E; destruct E as [? ->]
    | E : getu16 _ _ = Ok _ |- _ => apply getu16_adv in E
    | E : getuleb _ _ = Ok _ |- _ => apply getuleb_adv in E
    | E : getsleb _ _ = Ok _ |- _ => apply getsleb_adv in E
    | E : getuint _ _ _ = Ok _ |- _ => apply GU in E
    end; try lia. }
  assert (DA : forall n off, dropArgs n data off <> OutOfFuel).
  { induction n as [|n IH]; intros off; cbn [dropArgs]; [discriminate|]. apply bind_fuel; [apply getuleb_fuel|]. intros [? ?]. apply IH. }
  assert (NF : forall off s, lineStep data h off s <> OutOfFuel).
  { intros off s. unfold lineStep. apply bind_fuel; [apply getu8_fuel|]. intros [c o1].
    repeat match goal with
    | |- (if ?b then _ else _) <> _ => destruct b
    | |- bind (dropArgs _ _ _) _ <> OutOfFuel => apply bind_fuel; [apply DA|intros ?; discriminate]
    | |- bind _ _ <> OutOfFuel => apply bind_fuel; [|intros [? ?]]
    | |- getuleb _ _ <> _ => apply getuleb_fuel
    | |- getsleb _ _ <> _ => apply getsleb_fuel
    | |- getu8 _ _ <> _ => apply getu8_fuel
    | |- getu16 _ _ <> _ => apply getu16_fuel
    | |- getuint _ _ _ <> _ => apply getuint_fuel
    end; try discriminate. }
  assert (T : forall fuel off s, 0 <= off -> Z.max 0 (zlen data - off) < Z.of_nat fuel -> lineLoop fuel data h end_ off s <> OutOfFuel).
  { induction fuel as [|fuel IH]; intros off s H0 Hf; [lia|]. cbn [lineLoop]. destruct (off <? end_); [|discriminate].
    destruct (lineStep data h off s) as [[[s' r] o]| | |] eqn:E; cbn [bind]; try discriminate; [|now apply NF in E].
    apply ADV in E; [|exact H0]. apply bind_fuel; [apply IH; lia|]. intros; destruct r; discriminate. }
  intros fuel off s H0 Hf. apply T; [exact H0|]. unfold zlen. lia.
Qed.
Print Assumptions C23_program_terminates.

(** The flags that must be cleared after each row are not: the second row of
    [prologue_end; copy; copy] claims to end the prologue too. *)
Theorem C23_flags_refuted : exists prog, Forall (wfLn C23_p) prog /\
  match lineLoop 50 (encodeProg prog) (hdrOf C23_p C23_lens) (zlen (encodeProg prog)) 0 (lstate0 (hdrOf C23_p C23_lens)) with
  | Ok rows => map lProEnd rows <> map rPro (matrix C23_p (sreg0 C23_p) prog) /\ map lDiscr rows <> map rDiscr (matrix C23_p (sreg0 C23_p) prog)
  | _ => False
  end.
Proof.
  exists [LPrologueEnd; LSetDiscriminator 3; LCopy; LCopy]. split; [repeat constructor; unfold std, C23_p; cbn; lia|].
  vm_compute. split; discriminate.
Qed.
Print Assumptions C23_flags_refuted.
(** DW_LNS_fixed_advance_pc is scaled by minimum_instruction_length, which it must not be. *)
Theorem C23_fixed_advance_refuted : exists p prog, wfParams p C23_lens /\ Forall (wfLn p) prog /\
  match lineLoop 50 (encodeProg prog) (hdrOf p C23_lens) (zlen (encodeProg prog)) 0 (lstate0 (hdrOf p C23_lens)) with
  | Ok rows => map lAddr rows <> map rAddr (matrix p (sreg0 p) prog)
  | _ => False
  end.
Proof.
  exists (mkSP 4 true (-5) 14 13), [LFixedAdvancePc 8; LCopy]. split; [|split].
  - unfold wfParams, C23_lens. cbn. repeat split; try lia. repeat constructor; unfold isByte; lia.
  - repeat constructor; unfold std; cbn; lia.
  - vm_compute. discriminate.
Qed.
Print Assumptions C23_fixed_advance_refuted.
(** Opcodes the standard says to skip (an unknown standard opcode with its declared operands, an
    unknown extended opcode with its length, DW_LNE_define_file) discard the whole table. *)
Theorem C23_unknown_opcode_refuted :
  let h := mkLH 1 true (-5) 14 14 (0 :: C23_lens ++ [1]) 8 in
  lineLoop 50 ([13; 5] ++ encodeProg [LCopy]) h 3 0 (lstate0 h) = Throw /\
  lineLoop 50 (ext 128 [1; 2] ++ encodeProg [LCopy]) h 6 0 (lstate0 h) = Throw /\
  lineLoop 50 (ext 3 [97; 0; 0; 0; 0] ++ encodeProg [LCopy]) h 9 0 (lstate0 h) = Throw.
Proof. vm_compute. repeat split. Qed.
Print Assumptions C23_unknown_opcode_refuted.
(** A header with line_range 0 divides by zero. *)
Theorem C23_line_range_refuted : forall data h off s b, getu8 data off = Ok (b, off + 1) -> hOpBase h <= b -> hLineRange h = 0 ->
  lineStep data h off s = UB.
Proof. intros data h off s b E H1 H2. unfold lineStep. rewrite E. cbn [bind]. replace (b >=? hOpBase h) with true by lia. now rewrite H2. Qed.
Print Assumptions C23_line_range_refuted.
(** A file entry with a time stamp in the usual form (DW_FORM_udata) discards the whole table. *)
Theorem C23_timestamp_refuted :
  lineBuild 200 (encodeUnit false 5 (fixedPart 5 1 C23_p C23_lens ++ tables5 4 [(1, 8)] [[(1, VString [47])]] [(1, 8); (3, 15)] [[(1, VString [97]); (3, VUdata 5)]])
                  (encodeProg C23_prog)) C23_env 0 = Throw.
Proof. vm_compute. reflexivity. Qed.
Print Assumptions C23_timestamp_refuted.

(** C22.  Over any stored matrix whose last row ends a sequence and whose rows refer to existing
    files and directories: the answer is a row that covers the address within one sequence, and
    there is none only if no row covers it.
    Partial: a matrix whose last row does not end a sequence (see below). *)
Definition refsOk (li : lineInfo) : Prop :=
  Forall (fun r => exists f d, znth (lFile r) (liFiles li) = Some f /\ znth (fDir f) (liDirs li) = Some d) (liMatrix li).
Definition terminated (rows : list lstate) : Prop := rows = [] \/ exists l x, rows = l ++ [x] /\ lEnd x = true.
Theorem C22_source_lookup_partial : forall verbose li addr, terminated (liMatrix li) -> refsOk li ->
  match sourceFromAddr true verbose li addr with
  | Ok (Some (name, line)) => exists r f d, covered lAddr lEnd (liMatrix li) addr r /\
      znth (lFile r) (liFiles li) = Some f /\ znth (fDir f) (liDirs li) = Some d /\
      name = (if verbose then d ++ [47] ++ fName f else fName f) /\ line = s32 (lLine r)
  | Ok None => forall r, ~ covered lAddr lEnd (liMatrix li) addr r
  | _ => False
  end.
Proof.
  intros verbose li addr Ht Hr. unfold sourceFromAddr. cbn [negb]. pose proof (lineScan_spec addr (liMatrix li) Ht) as S.
  destruct (lineScan addr (liMatrix li)) as [[r|]| | |]; try contradiction; cbn [bind]; [|exact S].
  assert (Hin : In r (liMatrix li)).
  { destruct S as (l1 & y & l2 & E & _). rewrite E. apply in_or_app. right. now left. }
  unfold refsOk in Hr. rewrite Forall_forall in Hr. destruct (Hr r Hin) as (f & d & Ef & Ed). rewrite Ef, Ed. exists r, f, d. auto.
Qed.
Print Assumptions C22_source_lookup_partial.
(** Joined with C23: the answer comes from a row of the DWARF matrix of the unit's program. *)
Theorem C22_source_of_program : forall p prog li verbose addr name line,
  Forall2 agree (liMatrix li) (matrix p (sreg0 p) prog) -> terminated (liMatrix li) -> refsOk li ->
  Forall (fun r => 0 <= rAddr r < 2 ^ 64 /\ 0 <= rLine r < 2 ^ 31) (matrix p (sreg0 p) prog) ->
  sourceFromAddr true verbose li addr = Ok (Some (name, line)) ->
  exists r f d, covered rAddr rEnd (matrix p (sreg0 p) prog) addr r /\ line = rLine r /\
    znth (rFile r) (liFiles li) = Some f /\ znth (fDir f) (liDirs li) = Some d /\ name = (if verbose then d ++ [47] ++ fName f else fName f).
Proof.
  intros p prog li verbose addr name line F Ht Hr Hb H.
  pose proof (C22_source_lookup_partial verbose li addr Ht Hr) as S. rewrite H in S.
  destruct S as (m & f & d & (l1 & y & l2 & E & En & Ha) & Ef & Ed & Nm & Ln). rewrite E in F.
  apply Forall2_app_inv_l in F. destruct F as (s1 & s2 & F1 & F2 & Es). inversion F2 as [|? r ? ? A1 F3 E1 E2]; subst.
  inversion F3 as [|? z ? ? A2 F4 E3 E4]; subst. rewrite Es in *. 
  assert (Hr1 : 0 <= rAddr r < 2 ^ 64 /\ 0 <= rLine r < 2 ^ 31) by (rewrite Forall_forall in Hb; apply Hb; apply in_or_app; right; now left).
  assert (Hz1 : 0 <= rAddr z < 2 ^ 64) by (rewrite Forall_forall in Hb; apply Hb; apply in_or_app; right; right; now left).
  destruct A1 as (A11 & A12 & A13 & _ & _ & _ & A17 & _). destruct A2 as (A21 & _).
  rewrite Z.mod_small in A11, A21 by tauto.
  exists r, f, d. split; [exists s1, z, l'0; repeat split; [congruence|lia|lia]|]. split.
  - rewrite A13. destruct Hr1 as [_ Hl]. change (2 ^ 31) with 2147483648 in Hl. change (2 ^ 32) with 4294967296.
    unfold s32, sgn, W32. rewrite Z.mod_mod by lia. rewrite Z.mod_small by lia. replace (rLine r <? 4294967296 / 2) with true by lia. reflexivity.
  - rewrite <- A12. auto.
Qed.
Print Assumptions C22_source_of_program.
Example C22_nonvacuous :
  match lineBuild 200 ([9; 9] ++ C23_unit4) C23_env 2 with
  | Ok li => terminated (liMatrix li) /\ refsOk li /\ sourceFromAddr true false li 4103 = Ok (Some ([97; 46; 99], 8)) /\
             sourceFromAddr true true li 4136 = Ok (Some ([97; 47; 98; 46; 104], 7)) /\ sourceFromAddr true false li 5000 = Ok None
  | _ => False
  end.
Proof.
  destruct (lineBuild 200 ([9; 9] ++ C23_unit4) C23_env 2) as [li| | |] eqn:E; vm_compute in E; try discriminate.
  injection E as <-. split; [|split; [|vm_compute; repeat split]].
  - right. match goal with |- exists l x, ?m = _ /\ _ => exists (removelast m), (last m (lstate0 (hdrOf C23_p []))) end.
    split; vm_compute; reflexivity.
  - unfold refsOk. cbn [liMatrix liFiles liDirs]. repeat constructor; vm_compute; eexists _, _; split; reflexivity.
Qed.
(** Reading past the end of the table for an unterminated sequence. *)
Theorem C22_unterminated_refuted : forall addr r li, lEnd r = false -> liMatrix li = [r] -> sourceFromAddr true false li addr = UB.
Proof. intros addr r li H E. unfold sourceFromAddr. rewrite E. cbn [negb lineScan]. now rewrite H. Qed.
Print Assumptions C22_unterminated_refuted.
