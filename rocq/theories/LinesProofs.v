From Verif Require Import Base Leb LebSpec LebProofs DwarfReader DwarfReaderProofs ReaderSpec Cfi CfiSpec CfiProofs CfiProofs2 Cursor
  Lines LinesSpec.

(** The row the code stores shows the same registers, truncated to the fields' widths; the flags
    prologue_end, epilogue_begin and the discriminator are not compared. *)
Definition agree (m : lstate) (r : sreg) : Prop :=
  lAddr m = rAddr r mod 2 ^ 64 /\ lFile m = rFile r /\ lLine m = rLine r mod 2 ^ 32 /\ lColumn m = rColumn r mod 2 ^ 32 /\
  lStmt m = rStmt r /\ lBasic m = rBasic r /\ lEnd m = rEnd r /\ lIsa m = rIsa r mod 2 ^ 32.
Definition hdrOf (p : sparams) (lens : list Z) : lhdr :=
  mkLH (pMin p) (pDefStmt p) (pLineBase p) (pLineRange p) (pOpBase p) (0 :: lens) 8.
Definition agreeOpt (m : option lstate) (r : option sreg) : Prop :=
  match m, r with None, None => True | Some a, Some b => agree a b | _, _ => False end.

Lemma p64 : 2 ^ 64 = W64. Proof. reflexivity. Qed.
Lemma p32 : 2 ^ 32 = W32. Proof. reflexivity. Qed.
Lemma u64_add x y z : x = y mod W64 -> u64 (x + z) = (y + z) mod W64.
Proof. intros ->. unfold u64. now rewrite Zplus_mod_idemp_l. Qed.
Lemma u32_add x y z : x = y mod W32 -> u32 (x + z) = (y + z) mod W32.
Proof. intros ->. unfold u32. now rewrite Zplus_mod_idemp_l. Qed.

Lemma encodeU_len n : forall v, zlen (encodeU n v) <= Z.of_nat n.
Proof.
  induction n as [|n IH]; intros v; cbn [encodeU]; [reflexivity|]. destruct (v <? 128); rewrite zlen_cons; [change (zlen (@nil Z)) with 0; lia|].
  specialize (IH (v / 128)). lia.
Qed.
Lemma lineStep_spec data p lens s r i off rest : Forall isByte data -> zlen data + 32 < W64 -> wfParams p lens -> wfLn p i ->
  (isFixed i = true -> pMin p = 1) -> agree s r -> at_ data off (encodeLn i ++ rest) ->
  exists s' row, lineStep data (hdrOf p lens) off s = Ok (s', row, off + zlen (encodeLn i)) /\
    agree s' (fst (stepLn p r i)) /\ agreeOpt row (snd (stepLn p r i)).
Proof.
  intros Hd Hw (P1 & P2 & P3 & P4 & P5 & P6) Hwf Hfix Hag Hat.
  destruct r as [ra rf rl rc rs rb re rp rq ri rd]. destruct Hag as (A1 & A2 & A3 & A4 & A5 & A6 & A7 & A8).
  cbn [rAddr rFile rLine rColumn rStmt rBasic rEnd rIsa] in *. rewrite p64, p32 in *.
  unfold lineStep.
  assert (STD : forall c t, at_ data off ((c :: t) ++ rest) -> c < pOpBase p ->
     getu8 data off = Ok (c, off + 1) /\ (c >=? pOpBase p) = false /\ at_ data (off + 1) (t ++ rest)).
  { intros c t Ha Hc. cbn [app] in Ha. destruct (rd_u8 data Hw _ _ _ Ha) as [E H]. split; [exact E|]. split; [lia|exact H]. }
  assert (EXT : forall code args, at_ data off (ext code args ++ rest) -> zlen args < 2 ^ 32 ->
     getu8 data off = Ok (0, off + 1) /\ (0 >=? pOpBase p) = false /\
     getuleb data (off + 1) = Ok (1 + zlen args, off + 1 + zlen (uleb (1 + zlen args))) /\
     let o2 := off + 1 + zlen (uleb (1 + zlen args)) in
     getu8 data o2 = Ok (code, o2 + 1) /\ at_ data (o2 + 1) (args ++ rest) /\ off + zlen (ext code args) = o2 + 1 + zlen args).
  { intros code args Ha Hz. unfold ext in Ha. cbn [app] in Ha. rewrite <- app_assoc in Ha. cbn [app] in Ha.
    destruct (rd_u8 data Hw _ _ _ Ha) as [E H]. split; [exact E|]. split; [lia|].
    pose proof (zlen_nonneg args). rewrite p32 in Hz.
    assert (Hz' : 0 <= 1 + zlen args < W64) by (unfold W64, W32 in *; lia).
    destruct (rd_uleb data _ _ _ Hz' H) as [E2 H2]. split; [exact E2|]. cbn zeta.
    destruct (rd_u8 data Hw _ _ _ H2) as [E3 H3]. split; [exact E3|]. split; [exact H3|].
    unfold ext. rewrite zlen_cons, zlen_app, zlen_cons. lia. }
  destruct i; cbn [encodeLn wfLn stepLn isFixed fst snd] in *; cbn [hOpBase hLineRange hLineBase hMin hDefStmt hAddrSize hOpLens hdrOf] in *.
  - (* special *)
    cbn [app] in Hat. destruct (rd_u8 data Hw _ _ _ Hat) as [E _]. rewrite E. cbn [bind].
    replace (op >=? pOpBase p) with true by lia. replace (pLineRange p =? 0) with false by lia.
    eexists _, _. split; [reflexivity|].
    assert (G : agree (setLine (setAddr s (u64 (lAddr s + (op - pOpBase p) / pLineRange p * pMin p)))
                 (u32 (lLine s + ((op - pOpBase p) mod pLineRange p + pLineBase p))))
                (mkSR (ra + pMin p * ((op - pOpBase p) / pLineRange p)) rf (rl + pLineBase p + (op - pOpBase p) mod pLineRange p) rc rs rb re rp rq ri rd)).
    { unfold agree. cbn [setLine setAddr lAddr lFile lLine lColumn lStmt lBasic lEnd lIsa rAddr rFile rLine rColumn rStmt rBasic rEnd rIsa]. rewrite p64, p32.
      rewrite (u64_add _ _ _ A1), (u32_add _ _ _ A3). repeat split; try assumption; f_equal; lia. }
    split; [|exact G]. unfold agree in *. cbn in *. tauto.
  - destruct (STD _ _ Hat Hwf) as (E1 & E2 & _). rewrite E1. cbn [bind]. rewrite E2. cbn [Z.eqb Pos.eqb].
    eexists _, _. split; [reflexivity|]. split; [|now repeat split]. repeat split; assumption.
  - destruct Hwf as [Hs Hn]. destruct (STD _ _ Hat Hs) as (E1 & E2 & H). rewrite E1. cbn [bind]. rewrite E2. cbn [Z.eqb Pos.eqb].
    destruct (rd_uleb data _ _ _ Hn H) as [E3 _]. rewrite E3. cbn [bind]. eexists _, _. rewrite zlen_cons. split; [do 2 f_equal; lia|].
    split; [|exact I]. repeat split; try assumption. cbn [setAddr lAddr rAddr]. rewrite p64, (u64_add _ _ _ A1). f_equal. lia.
  - destruct Hwf as [Hs Hn]. destruct (STD _ _ Hat Hs) as (E1 & E2 & H). rewrite E1. cbn [bind]. rewrite E2. cbn [Z.eqb Pos.eqb].
    destruct (rd_sleb data _ _ _ Hn H) as [E3 _]. rewrite E3. cbn [bind]. eexists _, _. rewrite zlen_cons. split; [do 2 f_equal; lia|].
    split; [|exact I]. repeat split; try assumption. cbn [setLine lLine rLine]. rewrite p32. now apply u32_add.
  - destruct Hwf as [Hs Hn]. destruct (STD _ _ Hat Hs) as (E1 & E2 & H). rewrite E1. cbn [bind]. rewrite E2. cbn [Z.eqb Pos.eqb].
    destruct (rd_uleb data _ _ _ Hn H) as [E3 _]. rewrite E3. cbn [bind]. eexists _, _. rewrite zlen_cons. split; [do 2 f_equal; lia|].
    split; [|exact I]. repeat split; assumption.
  - destruct Hwf as [Hs Hn]. destruct (STD _ _ Hat Hs) as (E1 & E2 & H). rewrite E1. cbn [bind]. rewrite E2. cbn [Z.eqb Pos.eqb].
    destruct (rd_uleb data _ _ _ Hn H) as [E3 _]. rewrite E3. cbn [bind]. eexists _, _. rewrite zlen_cons. split; [do 2 f_equal; lia|].
    split; [|exact I]. repeat split; assumption.
  - destruct (STD _ _ Hat Hwf) as (E1 & E2 & _). rewrite E1. cbn [bind]. rewrite E2. cbn [Z.eqb Pos.eqb].
    eexists _, _. split; [reflexivity|]. split; [|exact I]. repeat split; try assumption. cbn. now rewrite A5.
  - destruct (STD _ _ Hat Hwf) as (E1 & E2 & _). rewrite E1. cbn [bind]. rewrite E2. cbn [Z.eqb Pos.eqb].
    eexists _, _. split; [reflexivity|]. split; [|exact I]. repeat split; assumption.
  - destruct (STD _ _ Hat Hwf) as (E1 & E2 & _). rewrite E1. cbn [bind]. rewrite E2. cbn [Z.eqb Pos.eqb].
    replace (pLineRange p =? 0) with false by lia.
    eexists _, _. split; [reflexivity|]. split; [|exact I]. repeat split; try assumption. cbn [setAddr lAddr rAddr].
    rewrite p64, (u64_add _ _ _ A1). f_equal. lia.
  - destruct Hwf as [Hs Hn]. destruct (STD _ _ Hat Hs) as (E1 & E2 & H). rewrite E1. cbn [bind]. rewrite E2. cbn [Z.eqb Pos.eqb].
    destruct (rd_u16 data Hw _ _ _ Hn H) as [E3 _]. rewrite E3. cbn [bind]. rewrite zlen_cons, leBytes_len. eexists _, _.
    split; [do 2 f_equal; lia|].
    split; [|exact I]. repeat split; try assumption. cbn [setAddr lAddr rAddr]. rewrite (Hfix eq_refl), Z.mul_1_r, p64. now apply u64_add.
  - destruct (STD _ _ Hat Hwf) as (E1 & E2 & _). rewrite E1. cbn [bind]. rewrite E2. cbn [Z.eqb Pos.eqb].
    eexists _, _. split; [reflexivity|]. split; [|exact I]. repeat split; assumption.
  - destruct (STD _ _ Hat Hwf) as (E1 & E2 & _). rewrite E1. cbn [bind]. rewrite E2. cbn [Z.eqb Pos.eqb].
    eexists _, _. split; [reflexivity|]. split; [|exact I]. repeat split; assumption.
  - destruct Hwf as [Hs Hn]. destruct (STD _ _ Hat Hs) as (E1 & E2 & H). rewrite E1. cbn [bind]. rewrite E2. cbn [Z.eqb Pos.eqb].
    destruct (rd_uleb data _ _ _ Hn H) as [E3 _]. rewrite E3. cbn [bind]. eexists _, _. rewrite zlen_cons. split; [do 2 f_equal; lia|].
    split; [|exact I]. repeat split; assumption.
  - destruct (EXT _ _ Hat ltac:(reflexivity)) as (E1 & E2 & E3 & E4 & H & E5). rewrite E1. cbn [bind]. rewrite E2. cbn [Z.eqb Pos.eqb].
    rewrite E3. cbn [bind]. rewrite E4. cbn [bind Z.eqb Pos.eqb]. rewrite E5.
    eexists _, _. split; [do 2 f_equal; change (zlen (@nil Z)) with 0; lia|]. split; [now repeat split|]. repeat split; assumption.
  - destruct (EXT _ _ Hat ltac:(rewrite leBytes_len; reflexivity)) as (E1 & E2 & E3 & E4 & H & E5). rewrite E1. cbn [bind]. rewrite E2. cbn [Z.eqb Pos.eqb].
    rewrite E3. cbn [bind]. rewrite E4. cbn [bind Z.eqb Pos.eqb]. rewrite E5, leBytes_len in *. change (Z.of_nat 8) with 8 in *.
    destruct (rd_u64 data Hd Hw _ _ _ Hwf H) as [E6 _]. rewrite E6. cbn [bind].
    eexists _, _. split; [reflexivity|]. split; [|exact I]. repeat split; try assumption. cbn. symmetry. apply Z.mod_small. exact Hwf.
  - assert (Hz : zlen (uleb n) < 2 ^ 32) by (pose proof (encodeU_len 10 n); unfold uleb; change (2^32) with 4294967296; lia).
    destruct (EXT _ _ Hat Hz) as (E1 & E2 & E3 & E4 & H & E5). rewrite E1. cbn [bind]. rewrite E2. cbn [Z.eqb Pos.eqb].
    rewrite E3. cbn [bind]. rewrite E4. cbn [bind Z.eqb Pos.eqb]. rewrite E5.
    destruct (rd_uleb data _ _ _ Hwf H) as [E6 _]. rewrite E6. cbn [bind].
    eexists _, _. split; [reflexivity|]. split; [|exact I]. repeat split; assumption.
Qed.

Lemma encodeLn_pos i : 0 < zlen (encodeLn i).
Proof. destruct i; cbn [encodeLn]; unfold ext; rewrite zlen_cons; match goal with |- context [zlen ?l + 1] => pose proof (zlen_nonneg l) end; lia. Qed.
Lemma lineLoop_spec data p lens : Forall isByte data -> zlen data + 32 < W64 -> wfParams p lens ->
  forall prog fuel off s r rest, Forall (wfLn p) prog -> (existsb isFixed prog = true -> pMin p = 1) -> agree s r ->
  at_ data off (encodeProg prog ++ rest) -> (length prog < fuel)%nat ->
  exists rows, lineLoop fuel data (hdrOf p lens) (off + zlen (encodeProg prog)) off s = Ok rows /\ Forall2 agree rows (matrix p r prog).
Proof.
  intros Hd Hw Hp. induction prog as [|i prog IH]; intros fuel off s r rest Hwf Hfix Hag Hat Hfu; (destruct fuel as [|fuel]; [cbn in Hfu; lia|]); cbn [lineLoop].
  - cbn [encodeProg flat_map]. change (zlen (@nil Z)) with 0. replace (off <? off + 0) with false by lia. exists []. split; [reflexivity|constructor].
  - cbn [encodeProg flat_map] in *. fold (encodeProg prog) in *. pose proof (encodeLn_pos i). pose proof (zlen_nonneg (encodeProg prog)).
    rewrite zlen_app. replace (off <? off + (zlen (encodeLn i) + zlen (encodeProg prog))) with true by lia.
    inversion Hwf; subst. rewrite <- app_assoc in Hat.
    destruct (lineStep_spec data p lens s r i off (encodeProg prog ++ rest) Hd Hw Hp) as (s' & row & E & A1 & A2); try assumption.
    { intros F. apply Hfix. cbn [existsb]. now rewrite F. }
    rewrite E. cbn [bind]. apply at_app in Hat as [_ Hat].
    destruct (IH fuel (off + zlen (encodeLn i)) s' (fst (stepLn p r i)) rest) as (rows & E2 & F2); try assumption.
    { intros F. apply Hfix. cbn [existsb]. rewrite F. apply orb_true_r. }
    { cbn in Hfu. lia. }
    rewrite Z.add_assoc, E2. cbn [bind]. cbn [matrix]. destruct (stepLn p r i) as [r' [x|]]; cbn [fst snd] in *; destruct row as [y|]; try contradiction.
    + eexists. split; [reflexivity|]. now constructor.
    + eexists. split; [reflexivity|]. exact F2.
Qed.

(** ** Header tables *)
Section Tables.
Context (data : list Z) (Hd : Forall isByte data) (Hw : zlen data + 32 < W64).

Lemma readLens_at lens : forall off rest, at_ data off (lens ++ rest) ->
  readLens (length lens) data off = Ok (lens, off + zlen lens) /\ at_ data (off + zlen lens) rest.
Proof.
  induction lens as [|b lens IH]; intros off rest H; cbn [readLens length app] in *.
  - change (zlen (@nil Z)) with 0. rewrite Z.add_0_r. auto.
  - destruct (rd_u8 data Hw _ _ _ H) as [E H2]. rewrite E. cbn [bind]. destruct (IH _ _ H2) as [E2 H3]. rewrite E2. cbn [bind].
    rewrite zlen_cons. replace (off + (zlen lens + 1)) with (off + 1 + zlen lens) by lia. auto.
Qed.
Lemma readDirs4_at dirs : forall fuel off rest, Forall (fun s => s <> [] /\ isText s) dirs -> (length dirs < fuel)%nat ->
  at_ data off (flat_map cstr dirs ++ [0] ++ rest) ->
  exists o, readDirs4 fuel data off = Ok (dirs, o) /\ at_ data o rest.
Proof.
  induction dirs as [|s dirs IH]; intros fuel off rest Hs Hf H; (destruct fuel as [|fuel]; [cbn in Hf; lia|]); cbn [readDirs4].
  - cbn [flat_map app] in H. change (0 :: rest) with ([] ++ 0 :: rest) in H.
    destruct (rd_str data off [] rest ltac:(constructor) H) as [E H2]. rewrite E. eauto.
  - inversion Hs as [|? ? [Hne Ht] Hs']; subst. cbn [flat_map] in H. unfold cstr at 1 in H. rewrite <- !app_assoc in H. cbn [app] in H.
    destruct (rd_str data off s _ Ht H) as [E H2]. rewrite E. cbn [length] in Hf.
    destruct (IH fuel _ rest Hs' ltac:(lia) H2) as (o & E2 & H3). rewrite E2. cbn [bind]. destruct s; [congruence|]. eauto.
Qed.
Definition fileOf (f : sfile) : fileEntry := mkFile (sName f) (sDir f) (sMtime f) (sLen f).
Lemma readFiles4_at files : forall fuel off rest, Forall wfFile files -> (length files < fuel)%nat ->
  at_ data off (flat_map encodeFile4 files ++ [0] ++ rest) ->
  exists o, readFiles4 fuel data off = Ok (map fileOf files, o) /\ at_ data o rest.
Proof.
  assert (U : forall x, u32ok x -> 0 <= x < W64) by (unfold u32ok, W64; intros; change (2^32) with 4294967296 in *; lia).
  assert (V : forall x, u32ok x -> u32 x = x) by (intros; apply u32_id; assumption).
  induction files as [|f files IH]; intros fuel off rest Hs Hf H; (destruct fuel as [|fuel]; [cbn in Hf; lia|]); cbn [readFiles4].
  - cbn [flat_map app] in H. destruct (rd_u8 data Hw _ _ _ H) as [E H2]. rewrite E. cbn [bind Z.eqb]. eauto.
  - inversion Hs as [|? ? (Hne & Ht & H1 & H2 & H3) Hs']; subst. cbn [flat_map] in H. unfold encodeFile4 at 1 in H. unfold cstr at 1 in H.
    rewrite <- !app_assoc in H. cbn [app] in H. destruct f as [nm d m l]; cbn [sName sDir sMtime sLen] in *.
    destruct nm as [|c nm]; [congruence|].
    pose proof H as H'. cbn [app] in H'. destruct (rd_u8 data Hw _ _ _ H') as [E _]. rewrite E. cbn [bind].
    assert (Hc0 : 0 < c) by (inversion Ht; lia). replace (c =? 0) with false by lia.
    destruct (rd_str data off (c :: nm) _ Ht H) as [E2 H4]. rewrite E2.
    destruct (rd_uleb data _ _ _ (U _ H1) H4) as [E3 H5]. rewrite E3. cbn [bind].
    destruct (rd_uleb data _ _ _ (U _ H2) H5) as [E4 H6]. rewrite E4. cbn [bind].
    destruct (rd_uleb data _ _ _ (U _ H3) H6) as [E5 H7]. rewrite E5. cbn [bind].
    cbn [length] in Hf. destruct (IH fuel _ rest Hs' ltac:(lia) H7) as (o & E6 & H9). rewrite E6. cbn [bind map fileOf sName sDir sMtime sLen].
    rewrite !V by assumption. eauto.
Qed.

Lemma readFormats_at l : forall off rest, Forall (fun f => u32ok (fst f) /\ u32ok (snd f)) l ->
  at_ data off (flat_map (fun f => uleb (fst f) ++ uleb (snd f)) l ++ rest) ->
  exists o, readFormats (length l) data off = Ok (l, o) /\ at_ data o rest.
Proof.
  assert (U : forall x, u32ok x -> 0 <= x < W64) by (unfold u32ok, W64; intros; change (2^32) with 4294967296 in *; lia).
  induction l as [|[t f] l IH]; intros off rest Hl H; cbn [readFormats length flat_map fst snd] in *; [eauto|].
  inversion Hl as [|? ? [H1 H2] Hl']; subst. rewrite <- !app_assoc in H.
  destruct (rd_uleb data _ _ _ (U _ H1) H) as [E1 H3]. rewrite E1. cbn [bind].
  destruct (rd_uleb data _ _ _ (U _ H2) H3) as [E2 H4]. rewrite E2. cbn [bind].
  destruct (IH _ _ Hl' H4) as (o & E3 & H5). rewrite E3. cbn [bind]. eauto.
Qed.
Lemma readEntryFormats_at l off rest : Forall (fun f => u32ok (fst f) /\ u32ok (snd f)) l ->
  at_ data off (encodeFmts l ++ rest) -> exists o, readEntryFormats data off = Ok (l, o) /\ at_ data o rest.
Proof.
  intros Hl H. unfold encodeFmts in H. cbn [app] in H. unfold readEntryFormats. destruct (rd_u8 data Hw _ _ _ H) as [E H2]. rewrite E. cbn [bind].
  replace (Z.to_nat (zlen l)) with (length l) by (unfold zlen; lia). now apply readFormats_at.
Qed.
(** version 5 *)
Context (e : strEnv) (olen : nat) (Holen : seLen e = Z.of_nat olen) (Ho8 : (0 < olen <= 8)%nat).
Definition skippable (v : fval) : Prop := match v with VString _ | VLineStrp _ | VStrp _ | VData16 _ => True | _ => False end.
Lemma secString_at sec o s : strAt sec o s -> secString sec o = s.
Proof.
  intros (Ht & pre & post & -> & <-). unfold secString. rewrite zdrop_app_zlen. unfold cstr. rewrite <- app_assoc. cbn [app].
  now apply untilNul_text.
Qed.
Lemma readFormString_any v off rest : wfV olen v -> match v with VString _ | VLineStrp _ | VStrp _ => True | _ => False end ->
  at_ data off (encodeV olen v ++ rest) ->
  exists s, readFormString data e (formOf v) off = Ok (s, off + zlen (encodeV olen v)) /\ at_ data (off + zlen (encodeV olen v)) rest /\
    forall s', vStr (seLineStr e) (seStr e) v s' -> s = s'.
Proof.
  intros Hwf Hv H. unfold readFormString. destruct v; try contradiction; cbn [formOf encodeV wfV Z.eqb Pos.eqb] in *.
  - unfold cstr in H. rewrite <- app_assoc in H. cbn [app] in H. destruct (rd_str data off s rest Hwf H) as [E H2]. rewrite E.
    unfold cstr. rewrite zlen_app. change (zlen [0]) with 1. exists s. rewrite Z.add_assoc. split; [reflexivity|]. split; [exact H2|].
    intros s' V. now inversion V.
  - rewrite Holen. destruct (rd_uint data Hd Hw olen _ _ _ Ho8 Hwf H) as [E H2]. rewrite E. cbn [bind]. rewrite leBytes_len.
    eexists. split; [reflexivity|]. split; [exact H2|]. intros s' V. inversion V; subst. now apply secString_at.
  - rewrite Holen. destruct (rd_uint data Hd Hw olen _ _ _ Ho8 Hwf H) as [E H2]. rewrite E. cbn [bind]. rewrite leBytes_len.
    eexists. split; [reflexivity|]. split; [exact H2|]. intros s' V. inversion V; subst. now apply secString_at.
Qed.
Lemma readFormSkip_at v off rest : wfV olen v -> skippable v -> at_ data off (encodeV olen v ++ rest) ->
  readFormSkip data e (formOf v) off = Ok (off + zlen (encodeV olen v)) /\ at_ data (off + zlen (encodeV olen v)) rest.
Proof.
  intros Hwf Hs H. unfold readFormSkip.
  destruct v; try contradiction;
    try (destruct (readFormString_any _ off rest Hwf I H) as (x & E & H2 & _); cbn [formOf Z.eqb Pos.eqb orb] in *; rewrite E; cbn [bind]; auto; fail).
  cbn [formOf encodeV wfV Z.eqb Pos.eqb orb] in *. pose proof H as H'. apply at_app in H' as [H1 H2]. rewrite Hwf in *.
  rewrite u64_id; [auto|]. assert (b <> []) by (intros ->; discriminate Hwf). apply at_len in H1; [|assumption]. rewrite Hwf in H1. destruct H. unfold isU64, W64 in *. lia.
Qed.
Lemma readFormUnsigned_at v n off rest : wfV olen v -> vNum v n -> at_ data off (encodeV olen v ++ rest) ->
  readFormUnsigned data (formOf v) off = Ok (n, off + zlen (encodeV olen v)) /\ at_ data (off + zlen (encodeV olen v)) rest /\ u32 n = n.
Proof.
  intros Hwf Hv H. unfold readFormUnsigned. destruct Hv; cbn [formOf encodeV wfV Z.eqb Pos.eqb] in *; unfold u32ok in *.
  - change (2^32) with 4294967296 in Hwf. destruct (rd_uleb data off n rest ltac:(unfold W64; lia) H) as [E H2]. rewrite E.
    repeat split; try exact (proj1 H2); try exact (proj2 H2). apply u32_id. unfold isU32, W32. lia.
  - change (2^8) with 256 in Hwf. cbn [leBytes app] in H. destruct (rd_u8 data Hw _ _ _ H) as [E H2]. rewrite E, Z.mod_small by lia.
    rewrite leBytes_len. repeat split; try exact (proj1 H2); try exact (proj2 H2). apply u32_id. unfold isU32, W32. lia.
  - destruct (rd_u16 data Hw off n rest Hwf H) as [E H2]. rewrite E, leBytes_len. repeat split; try exact (proj1 H2); try exact (proj2 H2).
    change (2^16) with 65536 in Hwf. apply u32_id. unfold isU32, W32. lia.
  - destruct (rd_u32 data Hd Hw off n rest Hwf H) as [E H2]. rewrite E, leBytes_len. repeat split; try exact (proj1 H2); try exact (proj2 H2).
    apply u32_id. exact Hwf.
Qed.

Definition dirField (f : field) : Prop := wfV olen (snd f) /\ (if fst f =? 1 then exists s, vStr (seLineStr e) (seStr e) (snd f) s else skippable (snd f)).
Definition fileField (f : field) : Prop :=
  wfV olen (snd f) /\ (if fst f =? 1 then exists s, vStr (seLineStr e) (seStr e) (snd f) s
                       else if fst f =? 2 then exists n, vNum (snd f) n else skippable (snd f)).
Lemma vStr_kind v s : vStr (seLineStr e) (seStr e) v s -> match v with VString _ | VLineStrp _ | VStrp _ => True | _ => False end.
Proof. now inversion 1. Qed.

Lemma readDir_at fs : forall path off rest, Forall dirField fs -> at_ data off (encodeEntry olen fs ++ rest) ->
  exists p, readDir data e (fmtOf fs) path off = Ok (p, off + zlen (encodeEntry olen fs)) /\ at_ data (off + zlen (encodeEntry olen fs)) rest /\
    (entryPath (seLineStr e) (seStr e) fs p \/ (forall v, ~ In (1, v) fs) /\ p = path).
Proof.
  induction fs as [|[t v] fs IH]; intros path off rest Hf H; cbn [readDir fmtOf map encodeEntry flat_map fst snd] in *.
  - change (zlen (@nil Z)) with 0. rewrite Z.add_0_r. exists path. split; [reflexivity|]. split; [exact H|]. right. split; [intros v []|reflexivity].
  - inversion Hf as [|? ? [Hwf Hk] Hf']; subst. cbn [fst snd] in *. rewrite <- app_assoc in H. rewrite zlen_app, Z.add_assoc.
    fold (fmtOf fs) (encodeEntry olen fs) in *. destruct (t =? 1) eqn:Et.
    + destruct Hk as [s Hs]. destruct (readFormString_any v off _ Hwf (vStr_kind _ _ Hs) H) as (x & E & H2 & Hx). rewrite E. cbn [bind].
      destruct (IH x _ rest Hf' H2) as (p & E2 & H3 & Hp). exists p. split; [exact E2|]. split; [exact H3|]. left.
      destruct Hp as [(v' & Hi & Hv)|[_ ->]].
      * exists v'. split; [now right|exact Hv].
      * exists v. split; [left; f_equal; lia|]. rewrite (Hx _ Hs). exact Hs.
    + destruct (readFormSkip_at v off _ Hwf Hk H) as [E H2]. rewrite E. cbn [bind].
      destruct (IH path _ rest Hf' H2) as (p & E2 & H3 & Hp). exists p. split; [exact E2|]. split; [exact H3|].
      destruct Hp as [(v' & Hi & Hv)|[Hn ->]].
      * left. exists v'. split; [now right|exact Hv].
      * right. split; [|reflexivity]. intros v' [Hi|Hi]; [inversion Hi; subst; lia|now apply (Hn v')].
Qed.
Lemma readDirs_at fmts dirs : forall fuel off rest, Forall (fun d => fmtOf d = fmts /\ Forall dirField d /\ (exists v, In (1, v) d) /\
      (forall s, entryPath (seLineStr e) (seStr e) d s -> s <> [])) dirs -> (length dirs < fuel)%nat ->
  at_ data off (flat_map (encodeEntry olen) dirs ++ rest) ->
  exists ps o, readDirs fuel data e fmts (zlen dirs) off = Ok (ps, o) /\ at_ data o rest /\ Forall2 (entryPath (seLineStr e) (seStr e)) dirs ps.
Proof.
  induction dirs as [|d dirs IH]; intros fuel off rest Hs Hf H; (destruct fuel as [|fuel]; [cbn in Hf; lia|]); cbn [readDirs].
  - change (zlen (@nil (list field))) with 0. cbn [Z.eqb]. exists [], off. split; [reflexivity|]. split; [exact H|constructor].
  - inversion Hs as [|? ? (Hfm & Hfd & (v & Hv) & Hne) Hs']; subst. rewrite zlen_cons. pose proof (zlen_nonneg dirs).
    replace (zlen dirs + 1 =? 0) with false by lia. cbn [flat_map] in H. rewrite <- app_assoc in H.
    destruct (readDir_at d [] off _ Hfd H) as (p & E & H2 & Hp). rewrite E. cbn [bind]. replace (zlen dirs + 1 - 1) with (zlen dirs) by lia.
    cbn [length] in Hf. destruct (IH fuel _ rest Hs' ltac:(lia) H2) as (ps & o & E2 & H3 & F). rewrite E2. cbn [bind].
    destruct Hp as [Hp|[Hn _]]; [|exfalso; now apply (Hn v)]. pose proof (Hne _ Hp). destruct p; [congruence|].
    eexists _, o. split; [reflexivity|]. split; [exact H3|]. now constructor.
Qed.
Definition fileRel (fs : list field) (f : fileEntry) : Prop :=
  (entryPath (seLineStr e) (seStr e) fs (fName f)) /\ (entryDir fs (fDir f) \/ (forall v, ~ In (2, v) fs) /\ fDir f = 0) /\ fMtime f = 0.
Lemma readFile5_at fs : forall x off rest, Forall fileField fs -> at_ data off (encodeEntry olen fs ++ rest) ->
  exists f, readFile5 data e (fmtOf fs) x off = Ok (f, off + zlen (encodeEntry olen fs)) /\ at_ data (off + zlen (encodeEntry olen fs)) rest /\
    (entryPath (seLineStr e) (seStr e) fs (fName f) \/ (forall v, ~ In (1, v) fs) /\ fName f = fName x) /\
    (entryDir fs (fDir f) \/ (forall v, ~ In (2, v) fs) /\ fDir f = fDir x) /\ (fMtime x = 0 -> fMtime f = 0).
Proof.
  induction fs as [|[t v] fs IH]; intros x off rest Hf H; cbn [readFile5 fmtOf map encodeEntry flat_map fst snd] in *.
  - change (zlen (@nil Z)) with 0. rewrite Z.add_0_r. exists x. split; [reflexivity|]. split; [exact H|]. split; [|split]; [right; (split; [intros v []|reflexivity])..|auto].
  - inversion Hf as [|? ? [Hwf Hk] Hf']; subst. cbn [fst snd] in *. rewrite <- app_assoc in H. rewrite zlen_app, Z.add_assoc.
    fold (fmtOf fs) (encodeEntry olen fs) in *.
    assert (MP : forall p, entryPath (seLineStr e) (seStr e) fs p -> entryPath (seLineStr e) (seStr e) ((t, v) :: fs) p)
      by (intros p (w & Hi & Hv); exists w; split; [now right|exact Hv]).
    assert (MD : forall d, entryDir fs d -> entryDir ((t, v) :: fs) d) by (intros p (w & Hi & Hv); exists w; split; [now right|exact Hv]).
    assert (ND : forall k, t <> k -> (forall w, ~ In (k, w) fs) -> forall w, ~ In (k, w) ((t, v) :: fs))
      by (intros k Hk' Hn w [Hi|Hi]; [inversion Hi; subst; lia|now apply (Hn w)]).
    destruct (t =? 1) eqn:Et; [|destruct (t =? 2) eqn:Et2].
    + destruct Hk as [s Hs]. destruct (readFormString_any v off _ Hwf (vStr_kind _ _ Hs) H) as (y & E & H2 & Hx). rewrite E. cbn [bind].
      destruct (IH (mkFile y (fDir x) 0 0) _ rest Hf' H2) as (f & E2 & H3 & Hp & Hq & Hmt). exists f. split; [exact E2|]. split; [exact H3|]. cbn [fName fDir fMtime] in *.
      split; [|split; [|auto]].
      * left. destruct Hp as [Hp|[_ ->]]; [now apply MP|]. exists v. split; [left; f_equal; lia|]. rewrite (Hx _ Hs). exact Hs.
      * destruct Hq as [Hq|[Hn ->]]; [left; now apply MD|]. right. split; [|reflexivity]. apply ND; [lia|exact Hn].
    + destruct Hk as [n Hn]. destruct (readFormUnsigned_at v n off _ Hwf Hn H) as (E & H2 & U). rewrite E. cbn [bind]. rewrite U.
      destruct (IH (mkFile (fName x) n 0 0) _ rest Hf' H2) as (f & E2 & H3 & Hp & Hq & Hmt). exists f. split; [exact E2|]. split; [exact H3|]. cbn [fName fDir fMtime] in *.
      split; [|split; [|auto]].
      * destruct Hp as [Hp|[Hm ->]]; [left; now apply MP|]. right. split; [|reflexivity]. apply ND; [lia|exact Hm].
      * left. destruct Hq as [Hq|[_ ->]]; [now apply MD|]. exists v. split; [left; f_equal; lia|exact Hn].
    + destruct (readFormSkip_at v off _ Hwf Hk H) as [E H2]. rewrite E. cbn [bind].
      destruct (IH x _ rest Hf' H2) as (f & E2 & H3 & Hp & Hq & Hmt). exists f. split; [exact E2|]. split; [exact H3|]. split; [|split; [|auto]].
      * destruct Hp as [Hp|[Hm ->]]; [left; now apply MP|]. right. split; [|reflexivity]. apply ND; [lia|exact Hm].
      * destruct Hq as [Hq|[Hn ->]]; [left; now apply MD|]. right. split; [|reflexivity]. apply ND; [lia|exact Hn].
Qed.
Lemma readFiles5_at fmts files : forall fuel off rest,
  Forall (fun d => fmtOf d = fmts /\ Forall fileField d /\ (exists v, In (1, v) d)) files -> (length files < fuel)%nat ->
  at_ data off (flat_map (encodeEntry olen) files ++ rest) ->
  exists fs o, readFiles5 fuel data e fmts (zlen files) off = Ok (fs, o) /\ at_ data o rest /\ Forall2 fileRel files fs.
Proof.
  induction files as [|d files IH]; intros fuel off rest Hs Hf H; (destruct fuel as [|fuel]; [cbn in Hf; lia|]); cbn [readFiles5].
  - change (zlen (@nil (list field))) with 0. cbn [Z.eqb]. exists [], off. split; [reflexivity|]. split; [exact H|constructor].
  - inversion Hs as [|? ? (Hfm & Hfd & (v & Hv)) Hs']; subst. rewrite zlen_cons. pose proof (zlen_nonneg files).
    replace (zlen files + 1 =? 0) with false by lia. cbn [flat_map] in H. rewrite <- app_assoc in H.
    destruct (readFile5_at d (mkFile [] 0 0 0) off _ Hfd H) as (p & E & H2 & Hp & Hq & Hmt). rewrite E. cbn [bind]. replace (zlen files + 1 - 1) with (zlen files) by lia.
    cbn [length] in Hf. destruct (IH fuel _ rest Hs' ltac:(lia) H2) as (ps & o & E2 & H3 & F). rewrite E2. cbn [bind].
    eexists _, o. split; [reflexivity|]. split; [exact H3|]. constructor; [|exact F]. split; [|split; [exact Hq|now apply Hmt]].
    destruct Hp as [Hp|[Hn _]]; [exact Hp|exfalso; now apply (Hn v)].
Qed.
End Tables.

(** ** The whole unit *)
Definition hdrBytes (ver maxOps : Z) (p : sparams) (lens tables : list Z) : list Z := fixedPart ver maxOps p lens ++ tables.
Definition buildTables (fuel : nat) (data : list Z) (e : strEnv) (version o10 : Z) : res (list (list Z) * list fileEntry) :=
  if version >=? 5 then
       let* (df, o11) := readEntryFormats data o10 in
       let* (dc, o12) := getuleb data o11 in
       let* (ds, o13) := readDirs fuel data e df (s32 dc) o12 in
       let* (ff, o14) := readEntryFormats data o13 in
       let* (fc, o15) := getuleb data o14 in
       let* (fs, _) := readFiles5 fuel data e ff fc o15 in Ok (ds, fs)
     else
       let* (ds, o11) := readDirs4 fuel data o10 in
       let* (fs, _) := readFiles4 fuel data o11 in Ok (dot :: ds, mkFile unknown 0 0 0 :: fs).

Lemma lineBuild_at data e fuel off long ver maxOps p lens tables prog :
  Forall isByte data -> zlen data + 32 < W64 -> 2 <= ver < 6 -> (long = true -> 2 < ver) -> isByte maxOps -> wfParams p lens ->
  Forall (wfLn p) prog -> (existsb isFixed prog = true -> pMin p = 1) -> (length prog < fuel)%nat ->
  (long = false -> zlen data < 4294967280) ->
  at_ data off (encodeUnit long ver (hdrBytes ver maxOps p lens tables) (encodeProg prog)) ->
  exists o, at_ data o (tables ++ encodeProg prog) /\
    forall dirs files, buildTables fuel data e ver o = Ok (dirs, files) ->
    exists rows, lineBuild fuel data e off = Ok (mkLI dirs files rows (pDefStmt p) (pOpBase p) (0 :: lens)) /\ Forall2 agree rows (matrix p (sreg0 p) prog).
Proof.
  intros Hd Hw Hver Hlong Hmo Hp Hwf Hfix Hfu Hshort Hat.
  pose proof Hp as (P1 & P2 & P3 & P4 & P5 & P6).
  unfold encodeUnit in Hat. set (hdr := hdrBytes ver maxOps p lens tables) in *. set (pb := encodeProg prog) in *.
  set (mid := leBytes 2 ver ++ (if 5 <=? ver then [8; 0] else []) ++ offBytes long (zlen hdr)) in *.
  set (total := zlen mid + zlen hdr + zlen pb) in *.
  pose proof (zlen_nonneg mid) as N1. pose proof (zlen_nonneg hdr) as N2. pose proof (zlen_nonneg pb) as N3.
  assert (Hne : mid <> []) by (unfold mid; cbn [leBytes app]; discriminate).
  assert (Hbound : off + zlen (unitLength long total) + total <= zlen data /\ 0 <= off).
  { pose proof Hat as [H0 _]. apply at_len in Hat; [|destruct (unitLength long total); [destruct mid; [congruence|discriminate]|discriminate]].
    rewrite !zlen_app in Hat. assert (total = zlen mid + zlen hdr + zlen pb) by reflexivity. lia. }
  assert (Hul : zlen (unitLength long total) = if long then 12 else 4) by (unfold unitLength; destruct long; [rewrite zlen_app|]; now rewrite !leBytes_len).
  assert (Htot : if long then 0 <= total < W64 else 0 <= total < 4294967280).
  { unfold total in *. destruct long; [unfold W64 in *; lia|]. specialize (Hshort eq_refl). lia. }
  unfold lineBuild. destruct (getlength_at data off long total _ Hd Hw Htot Hat) as [E0 H0]. rewrite E0. cbn [bind].
  set (o0 := off + (if long then 12 else 4)) in *.
  assert (Hend : u64 (o0 + total) = o0 + total).
  { apply u64_id. unfold isU64, W64 in *. destruct long; unfold o0 in *; lia. }
  rewrite Hend.
  assert (Hprog : at_ data (o0 + zlen mid + zlen hdr) (pb ++ [])).
  { rewrite app_nil_r. replace (mid ++ hdr ++ pb) with ((mid ++ hdr) ++ pb) in H0 by now rewrite <- app_assoc. apply at_app in H0 as [_ H0].
    rewrite zlen_app, Z.add_assoc in H0. exact H0. }
  unfold mid in H0. rewrite <- !app_assoc in H0.
  destruct (rd_u16 data Hw _ ver _ ltac:(unfold W16; lia) H0) as [E1 H1]. rewrite E1. cbn [bind].
  assert (S5 : (ver >=? 5) = (5 <=? ver)) by lia. rewrite S5.
  assert (X2 : exists o2, (if 5 <=? ver then let* (a, o) := getu8 data (o0 + 2) in let* (_, o') := getu8 data o in Ok (a, o') else Ok (8, o0 + 2)) = Ok (8, o2)
     /\ at_ data o2 (offBytes long (zlen hdr) ++ hdr ++ pb) /\ o2 + zlen (offBytes long (zlen hdr)) = o0 + zlen mid).
  { destruct (5 <=? ver) eqn:E5; unfold mid; rewrite ?E5.
    - cbn [app] in H1. destruct (rd_u8 data Hw _ _ _ H1) as [Ea Ha]. rewrite Ea. cbn [bind]. destruct (rd_u8 data Hw _ _ _ Ha) as [Eb Hb]. rewrite Eb. cbn [bind].
      eexists. split; [reflexivity|]. split; [exact Hb|]. rewrite !zlen_app, leBytes_len. change (zlen [8; 0]) with 2. lia.
    - cbn [app] in H1. eexists. split; [reflexivity|]. split; [exact H1|]. rewrite !zlen_app, leBytes_len. change (zlen (@nil Z)) with 0. lia. }
  destruct X2 as (o2 & -> & H2 & Emid). cbn [bind].
  assert (X3 : getuint data o2 (if ver >? 2 then (if long then 8 else 4) else 4) = Ok (zlen hdr, o2 + zlen (offBytes long (zlen hdr))) /\
               at_ data (o2 + zlen (offBytes long (zlen hdr))) (hdr ++ pb)).
  { unfold offBytes in *. destruct long.
    - specialize (Hlong eq_refl). replace (ver >? 2) with true by lia. rewrite leBytes_len.
      apply rd_u64; [assumption|assumption|unfold W64 in *; lia|exact H2].
    - replace (if ver >? 2 then 4 else 4) with (Z.of_nat 4) by (destruct (ver >? 2); reflexivity). rewrite leBytes_len.
      apply rd_uint; [assumption|assumption|lia| |exact H2]. specialize (Hshort eq_refl). change (256 ^ Z.of_nat 4) with 4294967296. unfold total in *. lia. }
  destruct X3 as [E3 H3]. rewrite E3. cbn [bind]. rewrite Emid in *. clear E3.
  assert (Hexp : u64 (zlen hdr + (o0 + zlen mid)) = o0 + zlen mid + zlen hdr).
  { rewrite u64_id; [lia|]. unfold isU64, W64, total in *. destruct long; unfold o0 in *; lia. }
  rewrite Hexp. unfold hdr in H3 at 1. unfold hdrBytes, fixedPart in H3. cbn [app] in H3. rewrite <- !app_assoc in H3.
  destruct (rd_u8 data Hw _ _ _ H3) as [E4 H4]. rewrite E4. cbn [bind].
  assert (S4 : (ver >=? 4) = (4 <=? ver)) by lia. rewrite S4.
  assert (X5 : exists m o5, (if 4 <=? ver then getu8 data (o0 + zlen mid + 1) else Ok (1, o0 + zlen mid + 1)) = Ok (m, o5) /\
     at_ data o5 (([if pDefStmt p then 1 else 0; pLineBase p mod 256; pLineRange p; pOpBase p] ++ lens) ++ tables ++ pb)).
  { destruct (4 <=? ver).
    - cbn [app] in H4. destruct (rd_u8 data Hw _ _ _ H4) as [Ea Ha]. eexists _, _. split; [exact Ea|exact Ha].
    - cbn [app] in H4. eexists _, _. split; [reflexivity|exact H4]. }
  destruct X5 as (m & o5 & -> & H5). cbn [bind app] in *. clear E4 H4.
  destruct (rd_u8 data Hw _ _ _ H5) as [E6 H6]. rewrite E6. cbn [bind].
  destruct (rd_s8 data Hw _ _ _ P2 H6) as [E7 H7]. rewrite E7. cbn [bind].
  destruct (rd_u8 data Hw _ _ _ H7) as [E8 H8]. rewrite E8. cbn [bind].
  destruct (rd_u8 data Hw _ _ _ H8) as [E9 H9]. rewrite E9. cbn [bind].
  replace (Z.to_nat (pOpBase p - 1)) with (length lens) by (unfold zlen in P5; lia).
  destruct (readLens_at data Hw lens _ _ H9) as [E10 H10]. rewrite E10. cbn [bind].
  eexists. split; [exact H10|]. intros dirs files HT.
  unfold buildTables in HT. rewrite S5 in HT. rewrite HT. cbn [bind].
  replace (o0 + total) with (o0 + zlen mid + zlen hdr + zlen pb) by (unfold total; lia).
  assert (Hst : negb ((if pDefStmt p then 1 else 0) =? 0) = pDefStmt p) by (destruct (pDefStmt p); reflexivity).
  rewrite Hst. fold (hdrOf p lens). replace (pOpBase p =? 0) with false by lia.
  destruct (lineLoop_spec data p lens Hd Hw Hp prog fuel (o0 + zlen mid + zlen hdr) (lstate0 (hdrOf p lens)) (sreg0 p) [] Hwf Hfix) as (rows & EL & FL); [now repeat split|exact Hprog|exact Hfu|].
  destruct (o0 + zlen mid + zlen hdr =? o0 + zlen mid + zlen hdr + zlen pb) eqn:Ez.
  - exists []. split; [reflexivity|]. assert (prog = []).
    { destruct prog as [|i prog]; [reflexivity|]. exfalso. unfold pb in Ez. cbn [encodeProg flat_map] in Ez. rewrite zlen_app in Ez. pose proof (encodeLn_pos i).
      match type of Ez with context [zlen (flat_map ?a ?b)] => pose proof (zlen_nonneg (flat_map a b)) end. lia. }
    subst prog. constructor.
  - fold pb in EL. rewrite EL. cbn [bind]. eauto.
Qed.

Lemma lineBuild4 data e fuel off long ver maxOps p lens dirs files prog :
  Forall isByte data -> zlen data + 32 < W64 -> 2 <= ver < 5 -> (long = true -> 2 < ver) -> isByte maxOps -> wfParams p lens ->
  Forall (wfLn p) prog -> (existsb isFixed prog = true -> pMin p = 1) -> (length data < fuel)%nat ->
  (long = false -> zlen data < 4294967280) ->
  Forall (fun s => s <> [] /\ isText s) dirs -> Forall wfFile files ->
  at_ data off (encodeUnit long ver (fixedPart ver maxOps p lens ++ tables4 dirs files) (encodeProg prog)) ->
  exists rows, lineBuild fuel data e off = Ok (mkLI (dot :: dirs) (mkFile unknown 0 0 0 :: map fileOf files) rows (pDefStmt p) (pOpBase p) (0 :: lens)) /\
    Forall2 agree rows (matrix p (sreg0 p) prog).
Proof.
  intros Hd Hw Hver Hlong Hmo Hp Hwf Hfix Hfu Hshort Hds Hfs Hat.
  assert (L : forall A (f : A -> list Z) l, (forall x, 0 < zlen (f x)) -> (length l <= length (flat_map f l))%nat).
  { intros A f l Hpos. induction l as [|x l IH]; [cbn; lia|]. cbn [flat_map length]. rewrite app_length. specialize (Hpos x). unfold zlen in Hpos. lia. }
  assert (LD : forall a b c o, at_ data o (a ++ b ++ c) -> (length b <= length data)%nat).
  { intros a b c o Ha. destruct b as [|x b]; [cbn; lia|]. apply at_app in Ha as [Hx Ha]. apply at_app in Ha as [Ha _].
    pose proof (at_len _ _ _ Ha ltac:(discriminate)). destruct Ha. unfold zlen in *. lia. }
  assert (Hpl : (length prog < fuel)%nat).
  { unfold encodeUnit in Hat. rewrite !app_assoc in Hat. rewrite <- (app_nil_r (encodeProg prog)) in Hat. apply LD in Hat.
    pose proof (L _ encodeLn prog encodeLn_pos). unfold encodeProg in Hat. lia. }
  destruct (lineBuild_at data e fuel off long ver maxOps p lens _ prog Hd Hw ltac:(lia) Hlong Hmo Hp Hwf Hfix Hpl Hshort Hat) as (o & Ho & K).
  apply K. unfold buildTables. replace (ver >=? 5) with false by lia.
  unfold tables4 in Ho. rewrite <- !app_assoc in Ho.
  assert (L1 : (length dirs < fuel)%nat).
  { pose proof (L _ cstr dirs ltac:(intros; unfold cstr; rewrite zlen_app; change (zlen [0]) with 1; match goal with |- context [zlen ?x] => pose proof (zlen_nonneg x) end; lia)).
    change (flat_map cstr dirs ++ [0] ++ flat_map encodeFile4 files ++ [0] ++ encodeProg prog)
      with ([] ++ flat_map cstr dirs ++ ([0] ++ flat_map encodeFile4 files ++ [0] ++ encodeProg prog)) in Ho. pose proof (LD _ _ _ _ Ho). lia. }
  assert (L2 : (length files < fuel)%nat).
  { pose proof (L _ encodeFile4 files ltac:(intros; unfold encodeFile4, cstr; rewrite !zlen_app; change (zlen [0]) with 1;
      repeat match goal with |- context [zlen ?x] => pose proof (zlen_nonneg x); generalize dependent (zlen x); intros end; lia)).
    rewrite app_assoc in Ho. pose proof (LD _ _ _ _ Ho). lia. }
  destruct (readDirs4_at data dirs fuel o _ Hds L1 Ho) as (o1 & E1 & H1). rewrite E1. cbn [bind].
  destruct (readFiles4_at data Hw files fuel o1 _ Hfs L2 H1) as (o2 & E2 & H2). rewrite E2. reflexivity.
Qed.

Lemma lineBuild5 data e fuel off long maxOps p lens dfmt dirs ffmt files prog :
  let olen := if (long : bool) then 8%nat else 4%nat in
  Forall isByte data -> zlen data + 32 < W64 -> isByte maxOps -> wfParams p lens ->
  Forall (wfLn p) prog -> (existsb isFixed prog = true -> pMin p = 1) ->
  (length prog < fuel)%nat -> (length dirs < fuel)%nat -> (length files < fuel)%nat ->
  (long = false -> zlen data < 4294967280) ->
  seLen e = Z.of_nat olen ->
  Forall (fun f => u32ok (fst f) /\ u32ok (snd f)) dfmt -> Forall (fun f => u32ok (fst f) /\ u32ok (snd f)) ffmt ->
  zlen dirs < 2 ^ 31 -> zlen files < 2 ^ 64 ->
  Forall (fun d => fmtOf d = dfmt /\ Forall (dirField e olen) d /\ (exists v, In (1, v) d) /\
      (forall s, entryPath (seLineStr e) (seStr e) d s -> s <> [])) dirs ->
  Forall (fun d => fmtOf d = ffmt /\ Forall (fileField e olen) d /\ (exists v, In (1, v) d)) files ->
  at_ data off (encodeUnit long 5 (fixedPart 5 maxOps p lens ++ tables5 olen dfmt dirs ffmt files) (encodeProg prog)) ->
  exists ds fs rows, lineBuild fuel data e off = Ok (mkLI ds fs rows (pDefStmt p) (pOpBase p) (0 :: lens)) /\
    Forall2 (entryPath (seLineStr e) (seStr e)) dirs ds /\ Forall2 (fileRel e) files fs /\
    Forall2 agree rows (matrix p (sreg0 p) prog).
Proof.
  intros olen Hd Hw Hmo Hp Hwf Hfix Hfu Hfd Hff Hshort Hlen Hf1 Hf2 Hnd Hnf Hds Hfs Hat.
  destruct (lineBuild_at data e fuel off long 5 maxOps p lens _ prog Hd Hw ltac:(lia) ltac:(lia) Hmo Hp Hwf Hfix Hfu Hshort Hat) as (o & Ho & K).
  assert (Ho8 : (0 < olen <= 8)%nat) by (unfold olen; destruct long; lia).
  unfold tables5 in Ho. rewrite <- !app_assoc in Ho.
  pose proof (zlen_nonneg dirs). pose proof (zlen_nonneg files).
  destruct (readEntryFormats_at data Hw dfmt o _ Hf1 Ho) as (o1 & E1 & H1).
  change (2 ^ 31) with 2147483648 in Hnd.
  destruct (rd_uleb data o1 (zlen dirs) _ ltac:(unfold W64; lia) H1) as [E2 H2].
  destruct (readDirs_at data Hd Hw e olen Hlen Ho8 dfmt dirs fuel _ _ Hds Hfd H2) as (ds & o3 & E3 & H3 & F3).
  destruct (readEntryFormats_at data Hw ffmt o3 _ Hf2 H3) as (o4 & E4 & H4).
  destruct (rd_uleb data o4 (zlen files) _ ltac:(change W64 with (2^64); lia) H4) as [E5 H5].
  destruct (readFiles5_at data Hd Hw e olen Hlen Ho8 ffmt files fuel _ _ Hfs Hff H5) as (fs & o6 & E6 & H6 & F6).
  destruct (K ds fs) as (rows & EK & FK).
  { unfold buildTables. change (5 >=? 5) with true. cbn match. rewrite E1. cbn [bind]. rewrite E2. cbn [bind].
    replace (s32 (zlen dirs)) with (zlen dirs). 2:{ unfold s32, sgn, W32. rewrite Z.mod_small by lia. replace (zlen dirs <? 4294967296 / 2) with true by lia. reflexivity. }
    rewrite E3. cbn [bind]. rewrite E4. cbn [bind]. rewrite E5. cbn [bind]. rewrite E6. reflexivity. }
  exists ds, fs, rows. auto.
Qed.

(** ** Lookup *)
Lemma lineScan_spec addr : forall rows, (rows = [] \/ exists l x, rows = l ++ [x] /\ lEnd x = true) ->
  match lineScan addr rows with
  | Ok (Some x) => covered lAddr lEnd rows addr x
  | Ok None => forall x, ~ covered lAddr lEnd rows addr x
  | _ => False
  end.
Proof.
  induction rows as [|i rows IH]; intros Hl; cbn [lineScan].
  - intros x (l1 & y & l2 & E & _). now destruct l1.
  - assert (Hl' : rows = [] \/ exists l x, rows = l ++ [x] /\ lEnd x = true).
    { destruct Hl as [Hl|(l & x & E & Hx)]; [discriminate|]. destruct l as [|j l]; [left; now inversion E|right]. inversion E; subst. eauto. }
    specialize (IH Hl').
    assert (Ext : forall x, covered lAddr lEnd rows addr x -> covered lAddr lEnd (i :: rows) addr x).
    { intros x (l1 & y & l2 & -> & A & B). exists (i :: l1), y, l2. auto. }
    destruct (lEnd i) eqn:Ei.
    + destruct (lineScan addr rows) as [[x|]| | |]; try contradiction; [now apply Ext|].
      intros x (l1 & y & l2 & E & A & B). destruct l1 as [|j l1]; inversion E; subst; [congruence|]. apply (IH x). exists l1, y, l2. auto.
    + destruct rows as [|next rows].
      { destruct Hl as [Hl|(l & x & E & Hx)]; [discriminate|]. destruct l as [|j l]; inversion E; subst; [congruence|]. now destruct l. }
      destruct ((lAddr i <=? addr) && (lAddr next >? addr)) eqn:C.
      * exists [], next, rows. repeat split; try assumption; lia.
      * destruct (lineScan addr (next :: rows)) as [[x|]| | |]; try contradiction; [now apply Ext|].
        intros x (l1 & y & l2 & E & A & B). destruct l1 as [|j l1]; inversion E; subst; [lia|]. apply (IH x). exists l1, y, l2. auto.
Qed.
