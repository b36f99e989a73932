(** Properties of the dump of line tables, public names, macro headers, units, and the debug information of an image. *)
From Coq Require Import Ascii String Permutation Sorted.
From Verif Require Import Base Reader Leb LebSpec LebProofs DwarfReader DwarfReaderProofs ReaderSpec CfiSpec CfiProofs CfiProofs2 Cursor ExprProofs Lines LinesSpec LinesProofs Props_Lines Pubnames PubnamesSpec PubnamesProofs Props_Pubnames Macros Units UnitsSpec UnitsProofs
  Die DieSpec DieProofs DieNav DieTree DieHist Props_Die DieAttr DieAttrSpec DieAttrProofs Args ArgsSpec FrameText FrameTextSpec FrameTextProofs JsonDoc JsonDocSpec JsonDocProofs Dump DumpProofs Props_Dump DumpCfi DumpTables DumpDie DumpDieSpec DumpDieProofs DumpElfProofs Props_DumpDie
  DumpUnit DumpUnitSpec DumpUnitProofs.
From Verif Require MacrosSpec MacrosProofs.
Open Scope Z_scope.

Lemma bytesB l : forallb (fun b => (0 <=? b) && (b <? 256)) l = true -> Forall isByte l.
Proof. intros F. rewrite forallb_forall in F. apply Forall_forall. intros b Hb. specialize (F b Hb). unfold isByte. lia. Qed.

(** C155: a line table, of versions 2 to 5, is printed as a JSON text that says the default of is_stmt, the number of opcodes and their lengths, the files with their
    directories and times, the directories, and for every row of the program in order its file, line and address; and the text can be read in no other way. *)
Theorem C155_line_table_dump_partial e data off t : lineAt e data off t -> linesShowable e t -> exists N, forall fuel, (N <= fuel)%nat ->
  exists li v tx x, lineBuild fuel data e off = Ok li /\ dumpLines li = Ok v /\ jprint v = Ok tx /\ jsonDoc tx x /\ (forall y, jsonDoc tx y -> y = x) /\ linesDoc e t x.
Proof.
  intros A Sh. exists (S (List.length data + lineSize t))%nat. intros fuel Hf. destruct (lines_ok e data off t fuel A Sh ltac:(lia) ltac:(lia)) as (li & v & x & E1 & E2 & M & D).
  destruct (C137_documents _ _ M) as (tx & Et & J & Un). exists li, v, tx, x. auto 8.
Qed.
Print Assumptions C155_line_table_dump_partial.
Definition exLine4 : sline := Line4 false 4 1 C23_p C23_lens C23_dirs C23_files C23_prog.
Lemma exLine4_at : lineAt C23_env ([9; 9] ++ C23_unit4) 2 exLine4.
Proof.
  destruct (C23_nonvacuous4 []) as (_ & W & L & F & _). split; [|split; [apply bytesB; vm_compute; reflexivity|split; [vm_compute; reflexivity|split; [intros _; vm_compute; reflexivity|split; [lia|exists []; vm_compute; reflexivity]]]]].
  split; [exact W|]. split; [exact L|]. split; [reflexivity|]. cbn. split; [lia|]. split; [discriminate|]. split; [unfold isByte; lia|]. split; [|exact F]. repeat constructor; try discriminate; lia.
Qed.
Lemma exLine4_show : linesShowable C23_env exLine4.
Proof.
  split.
  - assert (F : forallb (fun r => (0 <=? rLine r) && (rLine r <? 4294967296) && (0 <=? rAddr r) && (rAddr r <? 18446744073709551616)) (lineRows exLine4) = true) by (vm_compute; reflexivity).
    rewrite forallb_forall in F. apply Forall_forall. intros r I. specialize (F r I). pw. lia.
  - intros ds fs T. inversion T; subst. split; [|split].
    + repeat constructor; eexists; apply asciiB_plain; reflexivity.
    + repeat constructor; eexists; apply asciiB_plain; reflexivity.
    + assert (F : forallb (fun r => (0 <=? rFile r) && (rFile r <? 3)) (lineRows exLine4) = true) by (vm_compute; reflexivity).
      rewrite forallb_forall in F. apply Forall_forall. intros r I. specialize (F r I). cbn [C23_files map]. change (zlen _) with 3. lia.
Qed.
Example C155_nonvacuous : lineAt C23_env ([9; 9] ++ C23_unit4) 2 exLine4 /\ linesShowable C23_env exLine4.
Proof. split; [exact exLine4_at|exact exLine4_show]. Qed.
(** The same for version 5: two files, with their directories, and no times. *)
Definition exDirs5 : list (list field) := [[(1, VString [47])]; [(1, VString [105])]].
Definition exFiles5 : list (list field) := [[(1, VString [97]); (2, VUdata 0)]; [(1, VString [98; 98]); (2, VUdata 1)]].
Definition exProg5 : list linsn := [LSetAddress 4096; LAdvanceLine 9; LCopy; LAdvancePc 8; LEndSequence].
Definition exLine5 : sline := Line5 false 1 C23_p C23_lens [(1, 8)] exDirs5 [(1, 8); (2, 15)] exFiles5 exProg5.
Lemma path1 a b x rest s : (forall v, ~ In (1, v) rest) -> entryPath a b ((1, VString x) :: rest) s -> s = x.
Proof. intros N (v & [Hv|Hv] & Hs); [|destruct (N _ Hv)]. injection Hv as <-. now inversion Hs. Qed.
Example C155_nonvacuous5 : lineAt C23_env (lineBytes exLine5) 0 exLine5 /\ linesShowable C23_env exLine5.
Proof.
  split.
  - split; [|split; [apply bytesB; vm_compute; reflexivity|split; [vm_compute; reflexivity|split; [intros _; vm_compute; reflexivity|split; [lia|exists []; vm_compute; reflexivity]]]]].
    destruct (C23_nonvacuous4 []) as (_ & W & _). split; [exact W|]. split; [repeat constructor; unfold std, C23_p; cbn; lia|]. split; [discriminate|]. cbn. split; [unfold isByte; lia|]. split; [reflexivity|].
    split; [repeat constructor; unfold u32ok; cbn; lia|]. split; [repeat constructor; unfold u32ok; cbn; lia|]. split; [vm_compute; reflexivity|]. split; [vm_compute; reflexivity|]. split.
    + assert (G : forall c, 0 < c < 256 -> fmtOf [(1, VString [c])] = [(1, 8)] /\ Forall (dirField C23_env 4) [(1, VString [c])] /\ (exists v, In (1, v) [(1, VString [c])]) /\ (forall s, entryPath (seLineStr C23_env) (seStr C23_env) [(1, VString [c])] s -> s <> [])).
      { intros c Hc. split; [reflexivity|]. split; [|split; [exists (VString [c]); now left|intros s P; apply path1 in P; [now subst|intros v []]]].
        constructor; [|constructor]. split; [repeat constructor; lia|]. cbn [fst Z.eqb Pos.eqb snd]. exists [c]. constructor. repeat constructor; lia. }
      constructor; [apply G; lia|constructor; [apply G; lia|constructor]].
    + assert (G : forall x n, Forall (fun c => 0 < c < 256) x -> u32ok n -> fmtOf [(1, VString x); (2, VUdata n)] = [(1, 8); (2, 15)] /\ Forall (fileField C23_env 4) [(1, VString x); (2, VUdata n)] /\ (exists v, In (1, v) [(1, VString x); (2, VUdata n)])).
      { intros x n Hx Hn. split; [reflexivity|]. split; [|exists (VString x); now left].
        constructor; [|constructor; [|constructor]]; cbn [fst Z.eqb Pos.eqb snd]; (split; [assumption|]); cbn [fst Z.eqb Pos.eqb snd]; eexists; constructor; assumption. }
      constructor; [apply G; [repeat constructor; lia|unfold u32ok; lia]|constructor; [apply G; [repeat constructor; lia|unfold u32ok; lia]|constructor]].
  - split.
    + assert (F : forallb (fun r => (0 <=? rLine r) && (rLine r <? 4294967296) && (0 <=? rAddr r) && (rAddr r <? 18446744073709551616)) (lineRows exLine5) = true) by (vm_compute; reflexivity).
      rewrite forallb_forall in F. apply Forall_forall. intros r I. specialize (F r I). pw. lia.
    + intros ds fs T. inversion T as [|? ? ? ? ? ? ? ? ? ? ? D F]; subst.
      inversion D as [|? d1 ? ? D1 D']; subst. inversion D' as [|? d2 ? ? D2 D'']; subst. inversion D''; subst.
      inversion F as [|? f1 ? ? (F1 & _) F']; subst. inversion F' as [|? f2 ? ? (F2 & _) F'']; subst. inversion F''; subst.
      apply path1 in D1; [|intros v []]. apply path1 in D2; [|intros v []]. apply path1 in F1; [|intros v [V|[]]; discriminate V]. apply path1 in F2; [|intros v [V|[]]; discriminate V]. subst.
      split; [|split].
      * repeat constructor; eexists; apply asciiB_plain; reflexivity.
      * constructor; [rewrite F1; eexists; apply asciiB_plain; reflexivity|]. constructor; [rewrite F2; eexists; apply asciiB_plain; reflexivity|constructor].
      * assert (G : forallb (fun r => (0 <=? rFile r) && (rFile r <? 2)) (lineRows exLine5) = true) by (vm_compute; reflexivity).
        rewrite forallb_forall in G. apply Forall_forall. intros r I. specialize (G r I). change (zlen _) with 2. lia.
Qed.
(** A row whose file is not in the table is a pointer past the table's end followed, whatever else there is; and a table that is as it should be otherwise can have one. *)
Theorem C155_file_number_refuted : (forall li r, In r (liMatrix li) -> zlen (liFiles li) <= lFile r -> dumpLines li = UB) /\
  exists t, lineAt C23_env (lineBytes t) 0 t /\ match lineBuild 200 (lineBytes t) C23_env 0 with Ok li => dumpLines li = UB | _ => False end.
Proof.
  split.
  - intros li r I L. unfold dumpLines. assert (G : dumpAll (rowJ (liFiles li)) (liMatrix li) = UB); [|now rewrite G].
    induction (liMatrix li) as [|x l IH]; [destruct I|]. cbn [dumpAll]. destruct I as [->|I].
    + unfold rowJ. now rewrite znth_ge by exact L.
    + rewrite (IH I). unfold rowJ. destruct (znth (lFile x) (liFiles li)); reflexivity.
  - exists (Line4 false 4 1 C23_p C23_lens [] [mkSF [97] 0 0 0] [LSetAddress 4096; LSetFile 3; LCopy; LEndSequence]). split; [|vm_compute; reflexivity].
    destruct (C23_nonvacuous4 []) as (_ & W & _). split; [|split; [apply bytesB; vm_compute; reflexivity|split; [vm_compute; reflexivity|split; [intros _; vm_compute; reflexivity|split; [lia|exists []; vm_compute; reflexivity]]]]].
    split; [exact W|]. split; [repeat constructor; unfold std, C23_p; cbn; lia|]. split; [discriminate|]. cbn. split; [lia|]. split; [discriminate|]. split; [unfold isByte; lia|]. split; [constructor|].
    constructor; [|constructor]. unfold wfFile, u32ok. cbn. repeat split; try lia; try discriminate. repeat constructor; lia.
Qed.

(** C156: the tables of public names are printed as a JSON text that says, for every unit's table in order, its length and version, where the unit is and how long, and its names with their offsets. *)
Theorem C156_pubnames_dump_partial us fuel : let data := flat_map encodePub us in
  Forall isByte data -> zlen data + 32 < W64 -> (List.length data < fuel)%nat -> Forall wfPub us -> Forall (fun u => zlen (pubBody u) < 65536) us ->
  Forall (fun u => Forall (fun n => exists y, plainText (snd n) y) (spNames u)) us ->
  exists ps tx xs, snd (pubnames fuel (Some data) None) = Ok ps /\ jprint (VList (map dumpPub ps)) = Ok tx /\ jsonDoc tx (XArr xs) /\ (forall y, jsonDoc tx y -> y = XArr xs) /\ Forall2 pubDoc us xs.
Proof.
  intros data Hd Hw F W L P. destruct (C61_pubnames_partial us fuel Hd Hw F W L) as (st & E & _). destruct (pubs_ok us W P) as (xs & D & M).
  destruct (C137_documents _ _ (mList _ _ M)) as (tx & Et & J & Un). eexists _, tx, xs. fold data in E. rewrite E. cbn [snd]. split; [reflexivity|]. auto.
Qed.
Print Assumptions C156_pubnames_dump_partial.
Example C156_nonvacuous : let us := [mkSPU 2 0 100 [(11, [109]); (42, [102; 102])]; mkSPU 2 100 50 []] in let data := flat_map encodePub us in
  Forall isByte data /\ Forall wfPub us /\ Forall (fun u => zlen (pubBody u) < 65536) us /\ Forall (fun u => Forall (fun n => exists y, plainText (snd n) y) (spNames u)) us.
Proof.
  cbv zeta. split; [apply bytesB; vm_compute; reflexivity|]. split; [|split].
  - repeat constructor; unfold W16, W32; cbn; try lia; vm_compute; reflexivity.
  - repeat constructor; vm_compute; reflexivity.
  - repeat constructor; eexists; apply asciiB_plain; reflexivity.
Qed.

(** C157: the header of a unit of .debug_macro is printed as a JSON text with its line table's offset and its vendor's opcodes by number. *)
Theorem C157_macro_header_dump_partial data off u : macroAt data off u ->
  exists m tx x, readMacros (Some data) off 5 = Ok m /\ jprint (dumpMacros m) = Ok tx /\ jsonDoc tx x /\ (forall y, jsonDoc tx y -> y = x) /\ macroDoc u x.
Proof. intros A. destruct (macro_ok data off u A) as (m & x & E & M & D). destruct (C137_documents _ _ M) as (tx & Et & J & Un). exists m, tx, x. auto. Qed.
Print Assumptions C157_macro_header_dump_partial.
Definition exMac : MacrosSpec.munit := MacrosSpec.mkMU 5 false (Some 2) (Some [(0xe2, [0x0f]); (0xe0, [0x0f; 0x08])]) [].
Lemma exMac_at : macroAt ([7] ++ MacrosSpec.encodeUnit exMac) 1 exMac.
Proof.
  split; [|split; [|split; [apply bytesB; vm_compute; reflexivity|split; [vm_compute; reflexivity|split; [lia|exists [0]; vm_compute; reflexivity]]]]].
  - unfold MacrosSpec.wfUnit. cbn. unfold W16, isByte. split; [lia|]. split; [lia|]. split; [vm_compute; reflexivity|]. repeat constructor; cbn; try lia; vm_compute; reflexivity.
  - unfold opsOnce. cbn. repeat constructor; cbn; lia.
Qed.
Example C157_nonvacuous : macroAt ([7] ++ MacrosSpec.encodeUnit exMac) 1 exMac /\
  readMacros (Some ([7] ++ MacrosSpec.encodeUnit exMac)) 1 5 = Ok (mkMH 5 2 [(0xe0, [0x0f; 0x08]); (0xe2, [0x0f])]).
Proof. split; [exact exMac_at|vm_compute; reflexivity]. Qed.
(** The version shown is 5 whatever the header's is; the operands of an opcode that is described twice are shown together;
    a line table at 2 GiB or above is shown at a negative offset, and one 1 byte below 4 GiB as if there were none. *)
Theorem C157_version_refuted data off u : MacrosSpec.wfUnit u -> Forall isByte data -> zlen data < 2 ^ 63 -> 0 <= off -> (exists rest, zdrop off data = MacrosSpec.encodeHead u ++ rest) ->
  exists m, readMacros (Some data) off 5 = Ok m /\ mhVersion m = 5 /\ mhOps m = opMap (match MacrosSpec.muTable u with Some t => t | None => [] end).
Proof.
  intros W Hd Hw Ho (rest & R). assert (HW : zlen data + 32 < W64) by (unfold W64; pw; lia).
  destruct (MacrosProofs.readD5_ok data Hd HW u off [] W) as [E _]; [rewrite app_nil_r; split; [exact Ho|exists rest; exact R]|].
  eexists. split; [unfold readMacros; change (5 >=? 5) with true; cbv iota; rewrite E; reflexivity|]. split; reflexivity.
Qed.
Theorem C157_repeated_opcode_refuted c q q' : opMap [(c, q); (c, q')] = [(c, q ++ q')].
Proof. cbn. now rewrite Z.ltb_irrefl, Z.eqb_refl. Qed.
Theorem C157_far_lines_refuted l : 2147483648 <= l < 4294967296 -> readMacros (Some (leBytes 2 5 ++ [2] ++ leBytes 4 l)) 0 5 = Ok (mkMH 5 (l - 4294967296) []).
Proof.
  intros Hl. set (data := leBytes 2 5 ++ [2] ++ leBytes 4 l). assert (Hd : Forall isByte data) by (apply Forall_app; split; [apply leBytes_byte|apply Forall_app; split; [repeat constructor; unfold isByte; lia|apply leBytes_byte]]).
  assert (Z7 : zlen data = 7) by (unfold data; rewrite !zlen_app, !leBytes_len; reflexivity). assert (HW : zlen data + 32 < W64) by (rewrite Z7; reflexivity).
  assert (HA : at_ data 0 (leBytes 2 5 ++ [2] ++ leBytes 4 l ++ [])) by (split; [lia|exists []; rewrite app_nil_r, zdrop_neg by lia; unfold data; now rewrite app_nil_r]).
  unfold readMacros. change (5 >=? 5) with true. cbv iota. unfold readD5.
  apply rd_u16 in HA as [E HA]; [|first [exact Hd|exact HW|unfold W16; lia]..]. rewrite E. cbn [bind]. cbn [app] in HA. apply rd_u8 in HA as [E2 HA]; [|exact HW]. rewrite E2. cbn [bind].
  change (Z.testbit 2 0) with false. change (Z.testbit 2 1) with true. change (Z.testbit 2 2) with false. cbv iota zeta.
  apply (rd_uint data Hd HW 4) in HA as [E3 HA]; [|lia|change (256 ^ Z.of_nat 4) with 4294967296; lia]. change (Z.of_nat 4) with 4 in *. rewrite E3. cbn [bind].
  replace (s32 l) with (l - 4294967296); [reflexivity|]. unfold s32, sgn, W32. rewrite Z.mod_small by lia. change (4294967296 / 2) with 2147483648. destruct (l <? 2147483648) eqn:Q; lia.
Qed.

(** C158: a unit, after any history of navigation in it, is printed as a JSON text that says its header (length, offset, version, size of addresses, identification,
    type), its entries (C150), its line table if it is a compilation or partial unit that has one (C155), and the header of its macros if it has any (C157); the unit's entries are then forgotten. *)
Theorem C158_unit_dump_partial info str lineStr alt sx sc ue ents dline dmacro e off u ds t d hist fuel0 :
  Forall isByte info -> zlen info < 2 ^ 63 -> 0 <= off -> (exists rest, zdrop off info = unitBytes u ++ rest) ->
  unitReady info str lineStr alt sx ents dline dmacro e off u ds t d -> Forall (validOp (fmtOfUnit u) ds (rootOf off u) t) hist -> (3 * List.length info <= fuel0)%nat ->
  exists h, readUnit info off = Ok h /\ let du := dunitOf h in let dec := decode info du (tableOf ds) in
  exists N, forall nf fuel, (N <= nf)%nat -> (N <= fuel)%nat -> exists v tx x,
    dumpUnit info str lineStr alt sx sc ue du dec ents nf dline dmacro e fuel h (runOps du dec fuel0 store0 hist) = (store0, Ok v) /\
    jprint v = Ok tx /\ jsonDoc tx x /\ (forall y, jsonDoc tx y -> y = x) /\ unitShown info str lineStr alt sx ents dline dmacro e off u ds t d x.
Proof.
  intros Hd Hw Ho Hat UR V Hf0. destruct (readUnit_spec info Hd Hw off u (proj1 UR)) as (h & E & IU); [split; assumption|]. exists h. split; [exact E|]. cbv zeta.
  pose proof UR as (_ & _ & UA & _). pose proof UA as [Uf _ _ _ _ _ _ _ _]. assert (HR : uhEnd h = finOf off u /\ uhRoot h = rootOf off u) by (pose proof IU as (_ & Q & _ & _ & _ & _ & _ & _ & Q' & _); cbn [fst snd] in *; unfold rootOf, finOf; lia).
  pose proof (dunit_ok info h off u IU Uf) as Ed. rewrite (proj1 HR), (proj2 HR) in Ed.
  destruct (unit_ok info str lineStr alt sx sc ue ents dline dmacro e h off u ds t d (runOps (dunitOf h) (decode info (dunitOf h) (tableOf ds)) fuel0 store0 hist) IU UR) as (N & HN).
  { rewrite Ed. apply (hist_Inv _ _ _ _ _ _ _ UA fuel0 Hf0 hist V). exact (Inv0 _ _ _ (Wr _ _ _ _ _ _ _ UA fuel0 Hf0)). }
  exists N. intros nf fuel Hn Hf. destruct (HN nf fuel Hn Hf) as (v & x & Ev & M & Sh). destruct (C137_documents _ _ M) as (tx & Et & J & Un). exists v, tx, x. auto.
Qed.
Print Assumptions C158_unit_dump_partial.
(** Two units: a compilation unit with a line table and macros, and a partial unit of version 5 with neither. *)
Definition exDs1 : list sdecl := [mkDecl 1 0x11 false [(0x03, 0x08, 0); (0x10, 0x17, 0); (0x2119, 0x17, 0)]].
Definition exT1 : dtree := DT 1 [AString [97]; AOffset 0x17 2; AOffset 0x17 1] [].
Definition exDs2 : list sdecl := [mkDecl 1 0x3c false [(0x03, 0x08, 0)]].
Definition exT2 : dtree := DT 1 [AString [98; 98]] [].
Definition exU1 : sunit := mkSU 4 false UCompile 0 8 (encodeT (mkFmt 4 4 8) exDs1 exT1).
Definition exU2 : sunit := mkSU 5 false UPartial 7 8 (encodeT (mkFmt 5 4 8) exDs2 exT2).
Definition exSec : list Z := sectionOf [exU1; exU2].
Definition exEnts2 (o : Z) : option entry :=
  if o =? 11 then Some (mkEntry 0 0x11 [(0x03, 0x08, 0); (0x10, 0x17, 0); (0x2119, 0x17, 0)] [VWord 12; VWord 2; VWord 1])
  else if o =? 34 then Some (mkEntry 22 0x3c [(0x03, 0x08, 0)] [VWord 35]) else None.
Definition exLineSec : list Z := [9; 9] ++ C23_unit4.
Definition exMacSec : list Z := [7] ++ MacrosSpec.encodeUnit exMac.
Lemma leaf_in f ds off c vs o x : inTree f ds off (DT c vs []) o x -> o = off /\ x = DT c vs [].
Proof. intros H. inversion H as [|? ? ko k ? ? K I]; subst; [auto|]. inversion K as [? ? l1 ? l2 E]; subst. destruct l1; discriminate E. Qed.
Lemma exEnts_all (P : Z -> entry -> Prop) : (forall e, exEnts2 11 = Some e -> P 11 e) -> (forall e, exEnts2 34 = Some e -> P 34 e) -> forall o e, exEnts2 o = Some e -> P o e.
Proof. intros A B o e E. pose proof E as E'. unfold exEnts2 in E'. destruct (o =? 11) eqn:O1; [assert (o = 11) as -> by lia; auto|]. destruct (o =? 34) eqn:O2; [assert (o = 34) as -> by lia; auto|discriminate]. Qed.
Lemma exEnts_wf : (forall o e, exEnts2 o = Some e -> wfEntry e /\ 0 <= eUnit e) /\ (forall o e, exEnts2 o = Some e -> hasNo e 0x31 \/ hasNo e 0x47).
Proof.
  split; apply exEnts_all; intros e E; vm_compute in E; injection E as <-.
  - split; [|cbn; lia]. split; [reflexivity|]. cbn [eAttrs map fst]. repeat (apply NoDup_cons; [cbn [In]; lia|]). apply NoDup_nil.
  - split; [|cbn; lia]. split; [reflexivity|]. cbn [eAttrs map fst]. repeat (apply NoDup_cons; [cbn [In]; lia|]). apply NoDup_nil.
  - left. unfold hasNo. cbn [eAttrs map fst In]. lia.
  - left. unfold hasNo. cbn [eAttrs map fst In]. lia.
Qed.
Lemma exStr0 off s pre post : exSec = pre ++ cstr s ++ post -> zlen pre = off -> forallb (fun c => (1 <=? c) && (c <? 256)) s = true -> stringAt exSec off s.
Proof. intros E1 E2 T. exists pre, post. split; [exact E1|]. split; [exact E2|]. rewrite forallb_forall in T. apply Forall_forall. intros c I. specialize (T c I). unfold isByte. lia. Qed.
Lemma exReady1 : unitReady exSec [] [] None exSx exEnts2 (Some exLineSec) (Some exMacSec) C23_env 0 exU1 exDs1 exT1 (hd (mkDecl 0 0 false []) exDs1).
Proof.
  assert (NS : forall e a v, fst (fst a) <> 1 -> sibOk 0 e a v) by (intros e a v N X; contradiction).
  assert (S1 : stringAt exSec 12 [97]) by (apply (exStr0 _ _ (firstn 12 exSec) (skipn 14 exSec)); reflexivity).
  assert (P1 : plainText [97] [97]) by (apply asciiB_plain; reflexivity).
  unfold unitReady. change (rootOf 0 exU1) with 11. change (finOf 0 exU1) with 22. change (fmtOfUnit exU1) with (mkFmt 4 4 8). cbv zeta.
  split; [|split; [vm_compute; reflexivity|split; [|split; [|split; [|split; [|split; [|split]]]]]]].
  - split; [cbn; lia|]. split; [cbn; congruence|]. split; [cbn; lia|]. split; [exact I|]. split; [intros _; vm_compute; reflexivity|apply bytesB; vm_compute; reflexivity].
  - split; [unfold wfFmt; cbn; lia|repeat constructor; cbn; lia|apply bytesB; vm_compute; reflexivity|reflexivity|lia|vm_compute; discriminate| |repeat constructor; cbn; lia|exists (firstn 11 exSec), (skipn 22 exSec); split; reflexivity].
    econstructor; [reflexivity| |reflexivity|apply WfNil]. repeat (apply Forall2_cons || apply Forall2_nil); (split; [reflexivity|]); (split; [intros y Hy; discriminate Hy|]); (split; [|apply NS; cbn; lia]); cbn [wfA]; unfold isText, isByte, offsetForms; cbn [In fVer fOff];
      try (repeat constructor; lia); try (split; [tauto|split; [lia|intros; lia]]).
  - destruct exEnts_wf as [W1 W2]. split; [exact W1|]. split; [exact W2|]. intros o e E R. unfold exEnts2 in E. destruct (o =? 11) eqn:O1; [assert (o = 11) as -> by lia; exists exT1; constructor|]. destruct (o =? 34) eqn:O2; [lia|discriminate].
  - intros o x H. apply leaf_in in H as [-> ->]. eexists. split; [reflexivity|]. split; [apply tag_in; vm_compute; reflexivity|]. cbn [sdAttrs attrsAt tCode tVals].
    split; [repeat (apply Forall_cons || apply Forall_nil); (split; [apply std_in; vm_compute; reflexivity|]); (split; [apply std_in; vm_compute; reflexivity|])|].
    + eexists. apply VDString; [lia|exact P1].
    + eexists. apply VDOffset. lia.
    + eexists. apply VDOffset. lia.
    + exists [97], [97]. split; [|exact P1]. exists (Some (11, 8, VWord 12)). split; [eapply LOwn; [reflexivity|]; exists 0%nat, 0; split; reflexivity|].
      exists (mkEntry 0 0x11 [(0x03, 0x08, 0); (0x10, 0x17, 0); (0x2119, 0x17, 0)] [VWord 12; VWord 2; VWord 1]), 12. split; [reflexivity|]. split; [reflexivity|]. right. right. left. split; [reflexivity|exact S1].
  - split; [reflexivity|]. split; unfold rootLacks; cbn; lia.
  - eexists. split; [reflexivity|]. split; [reflexivity|]. split; [reflexivity|]. repeat constructor.
  - destruct (C155_line_table_dump_partial _ _ _ _ exLine4_at exLine4_show) as (N & HN). destruct (HN N (le_n _)) as (li & v & tx & x & _ & _ & _ & _ & _ & D).
    exists [(lit "linenumbers", x)]. eapply (LPLines _ _ _ _ exLineSec 2 exLine4); [now left| |reflexivity|exact exLine4_at|exact exLine4_show|exact D].
    exists 1%nat, 0x17, 0, (AOffset 0x17 2). split; [reflexivity|]. split; [reflexivity|]. now left.
  - destruct (C157_macro_header_dump_partial _ _ _ exMac_at) as (m & tx & x & _ & _ & _ & _ & D).
    exists [(lit "macros", x)]. eapply (MPMacro _ _ _ exMacSec 1 exMac); [left|reflexivity|exact exMac_at|exact D].
    exists 2%nat, 0x17, 0, (AOffset 0x17 1). split; [reflexivity|]. split; [reflexivity|]. now left.
Qed.
Lemma exReady2 : unitReady exSec [] [] None exSx exEnts2 (Some exLineSec) (Some exMacSec) C23_env 22 exU2 exDs2 exT2 (hd (mkDecl 0 0 false []) exDs2).
Proof.
  assert (NS : forall b e a v, fst (fst a) <> 1 -> sibOk b e a v) by (intros b e a v N X; contradiction).
  assert (S1 : stringAt exSec 35 [98; 98]) by (apply (exStr0 _ _ (firstn 35 exSec) (skipn 38 exSec)); reflexivity).
  assert (P1 : plainText [98; 98] [98; 98]) by (apply asciiB_plain; reflexivity).
  unfold unitReady. change (rootOf 22 exU2) with 34. change (finOf 22 exU2) with 38. change (fmtOfUnit exU2) with (mkFmt 5 4 8). cbv zeta.
  split; [|split; [vm_compute; reflexivity|split; [|split; [|split; [|split; [|split; [|split]]]]]]].
  - split; [cbn; lia|]. split; [cbn; congruence|]. split; [cbn; lia|]. split; [reflexivity|]. split; [intros _; vm_compute; reflexivity|apply bytesB; vm_compute; reflexivity].
  - split; [unfold wfFmt; cbn; lia|repeat constructor; cbn; lia|apply bytesB; vm_compute; reflexivity|reflexivity|lia|vm_compute; discriminate| |repeat constructor; cbn; lia|exists (firstn 34 exSec), []; split; reflexivity].
    econstructor; [reflexivity| |reflexivity|apply WfNil]. repeat (apply Forall2_cons || apply Forall2_nil); (split; [reflexivity|]); (split; [intros y Hy; discriminate Hy|]); (split; [|apply NS; cbn; lia]); cbn [wfA]; unfold isText; repeat constructor; lia.
  - destruct exEnts_wf as [W1 W2]. split; [exact W1|]. split; [exact W2|]. intros o e E R. unfold exEnts2 in E. destruct (o =? 11) eqn:O1; [lia|]. destruct (o =? 34) eqn:O2; [assert (o = 34) as -> by lia; exists exT2; constructor|discriminate].
  - intros o x H. apply leaf_in in H as [-> ->]. eexists. split; [reflexivity|]. split; [apply tag_in; vm_compute; reflexivity|]. cbn [sdAttrs attrsAt tCode tVals].
    split; [repeat (apply Forall_cons || apply Forall_nil); (split; [apply std_in; vm_compute; reflexivity|]); (split; [apply std_in; vm_compute; reflexivity|])|].
    + eexists. apply VDString; [lia|exact P1].
    + exists [98; 98], [98; 98]. split; [|exact P1]. exists (Some (34, 8, VWord 35)). split; [eapply LOwn; [reflexivity|]; exists 0%nat, 0; split; reflexivity|].
      exists (mkEntry 22 0x3c [(0x03, 0x08, 0)] [VWord 35]), 35. split; [reflexivity|]. split; [reflexivity|]. right. right. left. split; [reflexivity|exact S1].
  - split; [reflexivity|]. split; unfold rootLacks; cbn; lia.
  - eexists. split; [reflexivity|]. split; [reflexivity|]. split; [reflexivity|]. repeat constructor.
  - exists []. apply LPNone. unfold rootLacks. cbn. lia.
  - exists []. apply MPNone; unfold rootLacks; cbn; lia.
Qed.
Example C158_nonvacuous : unitReady exSec [] [] None exSx exEnts2 (Some exLineSec) (Some exMacSec) C23_env 0 exU1 exDs1 exT1 (hd (mkDecl 0 0 false []) exDs1) /\
  (exists rest, zdrop 0 exSec = unitBytes exU1 ++ rest) /\ Forall isByte exSec.
Proof. split; [exact exReady1|]. split; [exists (unitBytes exU2); vm_compute; reflexivity|apply bytesB; vm_compute; reflexivity]. Qed.
(** The length of a unit of 4 GiB or more is shown modulo 2^32. *)
Theorem C158_long_unit_refuted data off u n : Forall isByte data -> zlen data < 2 ^ 63 -> suOk u -> 0 <= off -> (exists rest, zdrop off data = unitBytes u ++ rest) ->
  zlen (unitRest u) = 2 ^ 32 + n -> 0 <= n < 2 ^ 32 -> exists h, readUnit data off = Ok h /\ uhLength h = n.
Proof.
  intros Hd Hw OK Ho Hat L Hn. destruct (readUnit_spec data Hd Hw off u OK) as (h & E & IU); [split; assumption|]. exists h. split; [exact E|].
  destruct IU as (_ & _ & _ & _ & _ & _ & _ & _ & _ & Q & _). cbn [snd] in Q. rewrite Q, L. change (2 ^ 32) with 4294967296 in *. replace (4294967296 + n) with (n + 1 * 4294967296) by lia. rewrite Z_mod_plus_full. rewrite Z.mod_small; [reflexivity|lia].
Qed.

(** C159: the debug information of an image is printed as a JSON text that says its units in order (C158), its tables of public names (C156),
    and what there is of call frame information ([dframe] and [eh]: C140). *)
Definition sectionBytes {X} (l : list X) (b : list Z) : option (list Z) := match l with [] => None | _ => Some b end.
Definition framePart (k : string) (x : option jvalue) : list (list Z * jvalue) := match x with None => [] | Some x => [(lit k, x)] end.
Theorem C159_info_dump_partial us ps str lineStr alt sx sc ue ents dline dmacro se abbrevs plan dframe eh dx ex :
  zlen (sectionOf us) < 2 ^ 63 -> Forall (ready us str lineStr alt sx ents dline dmacro se abbrevs plan) (starts 0 us) ->
  (let data := flat_map encodePub ps in Forall isByte data /\ zlen data + 32 < W64 /\ Forall wfPub ps /\ Forall (fun u => zlen (pubBody u) < 65536) ps /\
     Forall (fun u => Forall (fun n => exists y, plainText (snd n) y) (spNames u)) ps) ->
  match dframe, dx with None, None => True | Some r, Some x => exists v, r = Ok v /\ means v x | _, _ => False end ->
  match eh, ex with None, None => True | Some r, Some x => exists v, r = Ok v /\ means v x | _, _ => False end ->
  exists N, forall nf fuel, (N <= nf)%nat -> (N <= fuel)%nat -> exists v tx uxs pxs,
    dumpInfo fuel (sectionBytes us (sectionOf us)) (sectionBytes ps (flat_map encodePub ps)) (oneUnit (sectionOf us) str lineStr alt sx sc ue ents nf abbrevs dline dmacro se fuel) dframe eh = Ok v /\
    let x := XObj ([(lit "units", XArr uxs); (lit "pubnameUnits", XArr pxs)] ++ framePart "debugframe" dx ++ framePart "ehFrame" ex) in
    jprint v = Ok tx /\ jsonDoc tx x /\ (forall y, jsonDoc tx y -> y = x) /\
    Forall2 (shown us str lineStr alt sx ents dline dmacro se plan) (starts 0 us) uxs /\ Forall2 pubDoc ps pxs.
Proof.
  intros Hw R (Pd & Pw & P1 & P2 & P3) HD HX.
  assert (HU : exists N, forall nf fuel, (N <= nf)%nat -> (N <= fuel)%nat -> exists vs xs,
     (let* l := match sectionBytes us (sectionOf us) with None => Ok [] | Some data => snd (unitsFrom data fuel [] 0) end in dumpAll (oneUnit (sectionOf us) str lineStr alt sx sc ue ents nf abbrevs dline dmacro se fuel) l) = Ok vs /\
     meanL vs xs /\ Forall2 (shown us str lineStr alt sx ents dline dmacro se plan) (starts 0 us) xs).
  { destruct us as [|u l] eqn:EU.
    - exists 0%nat. intros. exists [], []. split; [reflexivity|]. split; constructor.
    - rewrite <- EU in *. assert (OK : Forall suOk us).
      { apply Forall_forall. intros x I. apply in_split in I as (l1 & l2 & E). rewrite Forall_forall in R. pose proof (starts_in l1 x l2 0) as SI. rewrite <- E in SI. specialize (R _ SI). unfold ready in R. cbn [fst snd] in R.
        destruct (plan _) as [[ds t] d]. destruct R as (_ & UR & _). exact UR. }
      destruct (units_ok us (List.length us) OK) as (hs & E & F2); [rewrite EU; discriminate|exact Hw|lia|].
      destruct (all_units us str lineStr alt sx sc ue ents dline dmacro se abbrevs plan (starts 0 us) hs F2 R) as (N & HN).
      exists (N + List.length us)%nat. intros nf fuel Hn Hf. destruct (HN nf fuel ltac:(lia) ltac:(lia)) as (vs & xs & Ev & M & Sh). exists vs, xs. split; [|auto].
      replace (sectionBytes us (sectionOf us)) with (Some (sectionOf us)) by (rewrite EU; reflexivity).
      destruct (units_ok us fuel OK) as (hs' & E' & F2'); [rewrite EU; discriminate|exact Hw|lia|]. 
      rewrite E'. cbn [bind]. replace hs' with hs; [exact Ev|]. revert F2 F2'. clear. generalize (starts 0 us) as l. intros l F. revert hs'. induction F as [|h x hs l A _ IH]; intros hs' F'; inversion F' as [|h' ? ? ? A' F'']; subst; [reflexivity|].
      f_equal; [|now apply IH]. destruct A as (A1 & A2 & A3 & A4 & A5 & A6 & _ & _ & A7 & A8 & A9 & A10), A' as (B1 & B2 & B3 & B4 & B5 & B6 & _ & _ & B7 & B8 & B9 & B10). destruct h, h'. cbn in *. f_equal; try congruence; lia. }
  destruct HU as (N1 & HU). exists (N1 + S (List.length (flat_map encodePub ps)))%nat. intros nf fuel Hn Hf. destruct (HU nf fuel ltac:(lia) ltac:(lia)) as (vs & uxs & Eu & Mu & Su).
  destruct (pubs_ok ps P1 P3) as (pxs & Dp & Mp).
  assert (Ep : snd (pubnames fuel (sectionBytes ps (flat_map encodePub ps)) None) = Ok (map (fun u => mkPU (zlen (pubBody u)) (spVersion u) (spInfoOffset u) (spInfoLength u) (spNames u)) ps)).
  { destruct ps as [|p ps'] eqn:EP; [reflexivity|]. rewrite <- EP in *. replace (sectionBytes ps (flat_map encodePub ps)) with (Some (flat_map encodePub ps)) by (rewrite EP; reflexivity).
    destruct (C61_pubnames_partial ps fuel Pd Pw ltac:(lia) P1 P2) as (st & E & _). rewrite E. reflexivity. }
  assert (Ed : exists fs, match dframe with None => Ok [] | Some r => let* v := r in Ok [(txt "debugframe", v)] end = Ok fs /\ meanM fs (framePart "debugframe" dx)).
  { destruct dframe as [r|], dx as [x|]; try contradiction; [|exists []; split; [reflexivity|constructor]]. destruct HD as (v & -> & M). exists [(txt "debugframe", v)]. split; [reflexivity|]. cbn [framePart]. mem; [exact M|apply mmNil]. }
  assert (Ee : exists fs, match eh with None => Ok [] | Some r => let* v := r in Ok [(txt "ehFrame", v)] end = Ok fs /\ meanM fs (framePart "ehFrame" ex)).
  { destruct eh as [r|], ex as [x|]; try contradiction; [|exists []; split; [reflexivity|constructor]]. destruct HX as (v & -> & M). exists [(txt "ehFrame", v)]. split; [reflexivity|]. cbn [framePart]. mem; [exact M|apply mmNil]. }
  destruct Ed as (fd & Ed & Md), Ee as (fe & Ee & Me).
  eexists _. assert (M : means (VObj ([(txt "units", VList vs); (txt "pubnameUnits", VList (map dumpPub (map (fun u => mkPU (zlen (pubBody u)) (spVersion u) (spInfoOffset u) (spInfoLength u) (spNames u)) ps)))] ++ fd ++ fe))
     (XObj ([(lit "units", XArr uxs); (lit "pubnameUnits", XArr pxs)] ++ framePart "debugframe" dx ++ framePart "ehFrame" ex))).
  { apply mObj. cbn [app]. mem; [now apply mList|]. mem; [now apply mList|]. now apply mM_app. }
  destruct (C137_documents _ _ M) as (tx & Et & J & Un). exists tx, uxs, pxs. split; [|cbv zeta; split; [exact Et|split; [exact J|split; [exact Un|split; [exact Su|exact Dp]]]]].
  unfold dumpInfo. destruct (match sectionBytes us (sectionOf us) with None => Ok [] | Some data => snd (unitsFrom data fuel [] 0) end) as [l| | |]; cbn [bind] in *; try discriminate. rewrite Eu. cbn [bind]. rewrite Ep. cbn [bind]. rewrite Ed. cbn [bind]. rewrite Ee. reflexivity.
Qed.
Print Assumptions C159_info_dump_partial.
Definition exPlan (o : Z) : list sdecl * dtree * sdecl := if o =? 0 then (exDs1, exT1, hd (mkDecl 0 0 false []) exDs1) else (exDs2, exT2, hd (mkDecl 0 0 false []) exDs2).
Definition exAbbrevs (o : Z) : list (Z * abbrev) := tableOf (if o =? 0 then exDs1 else exDs2).
Example C159_nonvacuous : Forall (ready [exU1; exU2] [] [] None exSx exEnts2 (Some exLineSec) (Some exMacSec) (fun _ => C23_env) exAbbrevs exPlan) (starts 0 [exU1; exU2]).
Proof.
  change (starts 0 [exU1; exU2]) with [(0, exU1); (22, exU2)]. constructor; [|constructor; [|constructor]]; unfold ready, exPlan; cbn [fst snd].
  - change (0 =? 0) with true. cbv iota. split; [reflexivity|exact exReady1].
  - change (22 =? 0) with false. cbv iota. split; [reflexivity|exact exReady2].
Qed.
Print Assumptions C155_file_number_refuted.
Print Assumptions C157_version_refuted.
Print Assumptions C157_repeated_opcode_refuted.
Print Assumptions C157_far_lines_refuted.
Print Assumptions C158_long_unit_refuted.
