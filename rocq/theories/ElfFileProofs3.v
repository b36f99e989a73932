(** Sections by name, symbol versions and symbols. *)
From Verif Require Import Base Leb LebSpec DwarfReader DwarfReaderProofs Reader ReaderSpec ReaderProofs ReaderArray ReaderArrayProofs CfiSpec CfiProofs ElfHash ElfHashProofs ElfObj ElfObjSpec ElfObjProofs ElfFile ElfFileSpec ElfFileProofs ElfFileProofs2.

(** What a reader of a section's contents does. *)
Record ioHolds (fuel : nat) (m : memory) (i : sio) (d : list Z) : Prop := {
  ih_size : ioSize i = zlen d;
  ih_len : zlen d < W64 / 4;
  ih_serves : serves (ioRead m i) (ofList d);
  ih_text : forall off t, textAt d off t -> ioString fuel m i off = Ok t }.
Lemma textAt_in file o l off t : 0 <= o -> 0 <= l -> o + l <= zlen file -> textAt (ztake l (zdrop o file)) off t -> textAt file (o + off) t.
Proof.
  intros Ho Hl Hb [A F]. pose proof (fileAt_len _ _ _ A ltac:(destruct t; discriminate)) as HL. rewrite ztake_zdrop_len in HL by lia. destruct A as [H E]. split; [split; [lia|]|exact F].
  rewrite <- E at 2. rewrite zdrop_ztake, zdrop_zdrop by lia. rewrite ztake_ztake by lia. do 2 f_equal. lia.
Qed.
Lemma holds_view fuel m io file o l : holdsImage m io file -> (length file < fuel)%nat -> 0 < o -> 0 <= l -> o + l <= zlen file ->
  ioHolds fuel m (IoR (rview io o l)) (ztake l (zdrop o file)).
Proof.
  intros HI Hf Ho Hl Hb. pose proof (img_len m io file HI) as HL. constructor.
  - cbn [ioSize]. rewrite (view_size m io file HI) by lia. rewrite ztake_zdrop_len by lia. reflexivity.
  - rewrite ztake_zdrop_len by lia. lia.
  - change (ioRead m (IoR (rview io o l))) with (rread m (rview io o l)). apply (view_serves m io file HI); lia.
  - intros off t Ht. cbn [ioString]. pose proof (textAt_len _ off t Ht) as [X _]. apply (view_string m io file HI); try lia; try assumption. apply (textAt_in file o l); try assumption; lia.
Qed.
Lemma nulText_text t r : Forall (fun c => c <> 0) t -> nulText (t ++ 0 :: r) = Some t.
Proof. induction 1 as [|c t Hc F IH]; cbn [app nulText]; [reflexivity|]. destruct (c =? 0) eqn:E; [lia|]. now rewrite IH. Qed.
Lemma holds_mem fuel m d : zlen d < W64 / 4 -> ioHolds fuel m (IoMem d) d.
Proof.
  intros HL. pose proof (zlen_nonneg d) as N. constructor; [reflexivity|exact HL| |].
  - intros off cnt Ho Hc Hw. cbn [ioRead]. rewrite prefix_ofList, Z2Nat.id by lia. destruct (off >? zlen d) eqn:E; [right; split; [reflexivity|now rewrite zdrop_all by lia]|now left].
  - intros off t Ht. cbn [ioString]. pose proof (textAt_len _ off t Ht) as [X Y]. pose proof (zlen_nonneg t). destruct (off >? zlen d) eqn:E; [lia|].
    destruct Ht as [[_ E2] F]. rewrite <- (ztake_zdrop (zlen (t ++ [0])) (zdrop off d)), E2, <- app_assoc. cbn [app]. now rewrite nulText_text.
Qed.
Lemma holds_obj fuel m i d off n : ioHolds fuel m i d -> 0 <= off -> 0 < n -> off + n <= zlen d -> ioObj m i off n = Ok (ztake n (zdrop off d)).
Proof.
  intros H Ho Hn Hb. pose proof (ih_len _ _ _ _ H) as HL. unfold ioObj, readObj. change (1 =? 0) with false. cbv iota. rewrite Z.mul_1_l, u64_id by (unfold isU64, W64 in *; lia).
  destruct (ih_serves _ _ _ _ H off n Ho ltac:(lia) ltac:(unfold W64 in *; lia)) as [E|[E P]].
  - rewrite E, prefix_ofList, Z2Nat.id by lia. cbn [bind]. rewrite ztake_zdrop_len by lia. now rewrite Z.eqb_refl.
  - rewrite prefix_ofList, Z2Nat.id in P by lia. apply (f_equal zlen) in P. rewrite ztake_zdrop_len in P by lia. change (zlen (@nil Z)) with 0 in P. lia.
Qed.
Lemma holds_at fuel m i d off bs n : ioHolds fuel m i d -> fileAt d off bs -> zlen bs = n -> 0 < n -> ioObj m i off n = Ok bs.
Proof.
  intros H A L Hn. rewrite (holds_obj fuel m i d off n H).
  - f_equal. now apply fileAt_slice.
  - exact (proj1 A).
  - exact Hn.
  - rewrite <- L. apply fileAt_len; [exact A|]. intros ->. change (zlen (@nil Z)) with 0 in L. lia.
Qed.
Lemma holds_array fuel m i {A} (f : A -> list Z) sz l : ioHolds fuel m i (flat_map f l) -> 0 < sz <= 1024 -> (forall x, zlen (f x) = sz) -> ioArray m i sz = Ok (map f l).
Proof.
  intros H Hs Hf. pose proof (ih_len _ _ _ _ H) as HL. pose proof (flat_len f sz Hf l) as E. unfold ioArray. rewrite (ih_size _ _ _ _ H).
  assert (HC : 0 < 1024 / sz /\ 1024 / sz * sz <= 1024). { split; [apply Z.div_str_pos; lia|]. rewrite Z.mul_comm. apply Z.mul_div_le. lia. }
  destruct (array_iteration_lemma (flat_map f l) sz (1024 / sz) (ioRead m i) (ih_serves _ _ _ _ H) ltac:(lia) ltac:(lia)) as [P1 P2].
  - unfold W64 in *. lia.
  - assert (HM : zlen (flat_map f l) mod sz = 0) by (rewrite E; apply Z.mod_mul; lia).
    rewrite P1, HM. change (0 =? 0) with true. cbv iota. cbn [bind]. rewrite (P2 HM). f_equal. apply records_flat; [lia|exact Hf|lia].
Qed.

(** ** Symbol versions *)
Section Versions.
Context (fuel : nat) (m : memory) (v s : sio) (sec str : list Z) (HV : ioHolds fuel m v sec) (HS : ioHolds fuel m s str).
Lemma off64 off bs : fileAt sec off bs -> bs <> [] -> 0 <= off < W64 / 4.
Proof using HV. intros A N. pose proof (fileAt_len _ _ _ A N) as X. pose proof (ih_len _ _ _ _ HV). destruct A. pose proof (zlen_nonneg bs). lia. Qed.
Lemma next64 off bs x : fileAt sec off bs -> bs <> [] -> u32r x -> u64 (off + x) = off + x.
Proof using HV. intros A N X. pose proof (off64 off bs A N) as H. unfold u32r in X. change (2 ^ 32) with 4294967296 in X. apply u64_id. unfold isU64, W64 in *. lia. Qed.
Lemma nonempty {A} (l : list A) n : zlen l = n -> 0 < n -> l <> [].
Proof. intros H N ->. change (zlen (@nil A)) with 0 in H. lia. Qed.
Lemma vaux_len a b c d e : zlen (vauxBytes a b c d e) = 16. Proof. unfold vauxBytes. rewrite !zlen_app, !leBytes_len. reflexivity. Qed.
Lemma vneed_len a b c d e : zlen (vneedBytes a b c d e) = 16. Proof. unfold vneedBytes. rewrite !zlen_app, !leBytes_len. reflexivity. Qed.
Lemma vdef_len a b c d e f g : zlen (vdefBytes a b c d e f g) = 20. Proof. unfold vdefBytes. rewrite !zlen_app, !leBytes_len. reflexivity. Qed.
Lemma vdaux_len a b : zlen (vdauxBytes a b) = 8. Proof. unfold vdauxBytes. rewrite !zlen_app, !leBytes_len. reflexivity. Qed.
Lemma auxNeeds_spec : forall l off, auxAt sec str off l -> auxNeeds fuel m (length l) v s off = Ok l.
Proof using HV HS.
  induction 1 as [off|off hash flags other name next t r A O N X T R IH]; [reflexivity|]. cbn [length auxNeeds].
  rewrite (holds_at _ _ _ _ _ _ 16 HV A (vaux_len _ _ _ _ _)) by lia. cbn [bind]. pose proof (vaux_len hash flags other name next) as VL. assert (NE := nonempty _ _ VL ltac:(lia)).
  assert (F1 : fld 4 (vauxBytes hash flags other name next) 8 = name) by (unfold vauxBytes, u32r in *; fldgo).
  assert (F2 : fld 4 (vauxBytes hash flags other name next) 12 = next) by (unfold vauxBytes, u32r in *; fldgo).
  assert (F3 : fld 2 (vauxBytes hash flags other name next) 6 = other) by (unfold vauxBytes, u32r in *; fldgo).
  rewrite F1, F2, F3. rewrite (ih_text _ _ _ _ HS _ _ T). cbn [bind]. rewrite (next64 off _ next A NE X), IH. reflexivity.
Qed.
Lemma verNeeds_spec : forall l off, needAt sec str off l -> verNeeds fuel m (length l) v s off = Ok l.
Proof using HV HS.
  induction 1 as [off|off ver file aux next t vs r A C F1 X1 X2 T Ax R IH]; [reflexivity|]. cbn [length verNeeds].
  rewrite (holds_at _ _ _ _ _ _ 16 HV A (vneed_len _ _ _ _ _)) by lia. cbn [bind]. pose proof (vneed_len ver (zlen vs) file aux next) as VL. assert (NE := nonempty _ _ VL ltac:(lia)).
  pose proof (zlen_nonneg vs) as V0. assert (VC : 0 <= zlen vs < 2 ^ 16) by lia.
  assert (E1 : fld 4 (vneedBytes ver (zlen vs) file aux next) 4 = file) by (unfold vneedBytes, u32r in *; fldgo).
  assert (E2 : fld 4 (vneedBytes ver (zlen vs) file aux next) 8 = aux) by (unfold vneedBytes, u32r in *; fldgo).
  assert (E3 : fld 4 (vneedBytes ver (zlen vs) file aux next) 12 = next) by (unfold vneedBytes, u32r in *; fldgo).
  assert (E4 : fld 2 (vneedBytes ver (zlen vs) file aux next) 2 = zlen vs) by (unfold vneedBytes, u32r in *; fldgo).
  rewrite E1, E2, E3, E4, (ih_text _ _ _ _ HS _ _ T). cbn [bind]. rewrite !(next64 off _ _ A NE) by assumption. unfold zlen at 1. rewrite Nat2Z.id.
  rewrite (auxNeeds_spec _ _ Ax). cbn [bind]. rewrite IH. reflexivity.
Qed.
Definition defS (d : Z * list (list Z)) : Z * option (list Z) * option (list Z) := (fst d, znth 0 (snd d), znth 1 (snd d)).
Lemma verDefs_spec : forall l off, defAt sec str off l -> verDefs fuel m (length l) v s off = Ok (map defS l).
Proof using HV HS.
  induction 1 as [off|off ver flags ndx hash aux next names r A N C X1 X2 Nm R IH]; [reflexivity|]. cbn [length verDefs].
  rewrite (holds_at _ _ _ _ _ _ 20 HV A (vdef_len _ _ _ _ _ _ _)) by lia. cbn [bind]. pose proof (vdef_len ver flags ndx (zlen names) hash aux next) as VL. assert (NE := nonempty _ _ VL ltac:(lia)).
  pose proof (zlen_nonneg names) as V0. assert (VC : 0 <= zlen names < 2 ^ 16) by lia.
  assert (E1 : fld 4 (vdefBytes ver flags ndx (zlen names) hash aux next) 12 = aux) by (unfold vdefBytes, u32r in *; fldgo).
  assert (E2 : fld 4 (vdefBytes ver flags ndx (zlen names) hash aux next) 16 = next) by (unfold vdefBytes, u32r in *; fldgo).
  assert (E3 : fld 2 (vdefBytes ver flags ndx (zlen names) hash aux next) 4 = ndx) by (unfold vdefBytes, u32r in *; fldgo).
  assert (E4 : fld 2 (vdefBytes ver flags ndx (zlen names) hash aux next) 6 = zlen names) by (unfold vdefBytes, u32r in *; fldgo).
  rewrite E1, E2, E3, E4. cbv zeta. rewrite !(next64 off _ _ A NE) by assumption. cbn [map]. unfold defS at 1. cbn [fst snd].
  inversion Nm as [o Q1 Q2|o nm nx t rest B U1 U2 T NR Q1 Q2]; subst.
  - change (zlen (@nil (list Z)) >=? 1) with false. change (zlen (@nil (list Z)) >=? 2) with false. cbv iota. cbn [bind]. rewrite IH. reflexivity.
  - destruct (zlen (t :: rest) >=? 1) eqn:G1; [|rewrite zlen_cons in G1; pose proof (zlen_nonneg rest); lia].
    rewrite (holds_at _ _ _ _ _ _ 8 HV B (vdaux_len _ _)) by lia. cbn [bind].
    assert (D1 : fld 4 (vdauxBytes nm nx) 0 = nm) by (unfold vdauxBytes, u32r in *; fldgo). assert (D2 : fld 4 (vdauxBytes nm nx) 4 = nx) by (unfold vdauxBytes, u32r in *; fldgo).
    rewrite D1, D2, (ih_text _ _ _ _ HS _ _ T). cbn [bind]. rewrite (next64 _ _ _ B (nonempty _ _ (vdaux_len nm nx) ltac:(lia)) U2).
    inversion NR as [o Q3 Q4|o nm2 nx2 t2 rest2 B2 U3 U4 T2 NR2 Q3 Q4]; subst.
    + change (zlen [t] >=? 2) with false. cbv iota. cbn [bind]. rewrite IH. reflexivity.
    + destruct (zlen (t :: t2 :: rest2) >=? 2) eqn:G2; [|rewrite !zlen_cons in G2; pose proof (zlen_nonneg rest2); lia].
      rewrite (holds_at _ _ _ _ _ _ 8 HV B2 (vdaux_len _ _)) by lia. cbn [bind].
      assert (D3 : fld 4 (vdauxBytes nm2 nx2) 0 = nm2) by (unfold vdauxBytes, u32r in *; fldgo).
      rewrite D3, (ih_text _ _ _ _ HS _ _ T2). cbn [bind]. rewrite IH. reflexivity.
Qed.
End Versions.

(** ** Sections of an image by name *)
Section ByName.
Context {zst : Type} (zinit : zst) (zinflate : zst -> list Z -> Z -> bool -> zret * Z * list Z * zst) (zlib : bool).
Context (fuel : nat) (m : memory) (io : reader) (file : list Z) (HI : holdsImage m io file) (Hfuel : (length file < fuel)%nat).
Context (secs : list (sshdr * list Z)) (first : sshdr) (n0 : list Z) (rest : list (sshdr * list Z)) (HF : secs = (first, n0) :: rest) (HT0 : z_type first = 0).
Context (HOK : Forall (fun s => shdrOk (fst s)) secs) (ND : NoDup (map snd secs)).
Let all := map asShdr (map secS secs).
Lemma all_nm : map sh_nm all = map snd secs.
Proof using Type. unfold all. rewrite !map_map. reflexivity. Qed.
Lemma all_znth i h nm : znth i secs = Some (h, nm) -> znth i all = Some (mkSh nm (z_type h) (z_flags h) (z_offset h) (z_size h)).
Proof using Type. intros H. unfold all. rewrite !map_znth, H. reflexivity. Qed.
Lemma all_inv i s : znth i all = Some s -> exists h, znth i secs = Some (h, sh_nm s) /\ z_type h = sh_type s.
Proof using Type. unfold all. rewrite !map_znth. destruct (znth i secs) as [[h nm]|]; [|discriminate]. cbn. intros E. injection E as <-. exists h. split; reflexivity. Qed.
Lemma sect_zero : exists s0, znth 0 all = Some s0 /\ sh_type s0 = 0.
Proof using HF HT0. eexists. split; [apply (all_znth 0 first n0); rewrite HF; reflexivity|exact HT0]. Qed.
Lemma secS_io h nm : z_type h <> 0 -> Z.land (z_flags h) 2048 = 0 -> startsWith zdebugName nm = false -> 0 < z_offset h -> 0 <= z_size h -> z_offset h + z_size h <= zlen file ->
  exists i, sectionIo zinit zinflate zlib fuel m io (shdS h) nm = Ok i /\ ioHolds fuel m i (ztake (z_size h) (zdrop (z_offset h) file)).
Proof using HI Hfuel. intros H1 H2 H3 H4 H5 H6. eexists. split; [eapply sectionIo_raw; eassumption|]. now apply holds_view. Qed.
Lemma find_section i name type data link : sectionIs file secs i name type data link -> type <> 0 -> type <> 8 -> startsWith zdebugName name = false -> safeName name ->
  getSection 4 all name type = Ok i /\ secTrue all i = true /\
  exists x, sectionAt zinit zinflate zlib fuel m io (map secS secs) i = Ok x /\ ioHolds fuel m x data.
Proof using HI Hfuel HF HT0 ND.
  intros (h & Hz & Ht & Hc & Ho & Hb & Hs & -> & Hl) T0 T8 Hn Sf. destruct sect_zero as (s0 & Z0 & TT0).
  destruct (getSection_cands all type s0 Z0 TT0 4 name ltac:(lia) Sf) as (o & E & He & _ & _).
  assert (HH : hit all type name i) by (eexists; split; [apply (all_znth i h name Hz)|]; split; [reflexivity|right; exact Ht]).
  assert (NDa : NoDup (map sh_nm all)) by (rewrite all_nm; exact ND).
  split; [|split].
  - destruct (lookup1 all type name) as [k|] eqn:El; [|now apply (lookup1_none all type name NDa El i) in HH].
    rewrite E, (He k eq_refl). cbn [o2z]. f_equal. apply lookup1_hit in El. destruct El as (s & E1 & E2 & _), HH as (s' & E3 & E4 & _).
    pose proof (znth_some _ _ _ E1). pose proof (znth_some _ _ _ E3). rewrite znth_nth_error in E1, E3 by lia.
    assert (Z.to_nat k = Z.to_nat i); [|lia]. apply (proj1 (NoDup_nth_error _) NDa); [rewrite map_length; apply nth_error_Some; congruence|].
    rewrite (map_nth_error sh_nm _ _ E1), (map_nth_error sh_nm _ _ E3). congruence.
  - unfold secTrue. rewrite (all_znth i h name Hz). cbn [sh_type]. rewrite Ht. destruct (type =? 0) eqn:X; [lia|]. destruct (type =? 8) eqn:Y; [lia|]. reflexivity.
  - unfold sectionAt. rewrite map_znth, Hz. cbn [option_map secS secHdr nameOf secName fst snd]. apply secS_io; try assumption; lia.
Qed.
Lemma find_none name type : noSection secs name -> (forall r, name <> dotDebug ++ r) -> safeName name -> exists i, getSection 4 all name type = Ok i /\ secTrue all i = false.
Proof using HF HT0 Hfuel zinit zinflate zlib.
  intros HN HD Sf. destruct sect_zero as (s0 & Z0 & TT0).
  destruct (getSection_cands all type s0 Z0 TT0 4 name ltac:(lia) Sf) as (o & E & _ & Hc & _). exists (o2z o). split; [exact E|]. destruct o as [i|]; cbn [o2z]; [|now apply (true0 all s0 Z0 TT0)].
  exfalso. destruct (Hc i eq_refl) as (mm & Al & (s & Hz & Hnm & _)). apply all_inv in Hz as (h & Hz & _).
  assert (In (h, sh_nm s) secs) by (pose proof (znth_some _ _ _ Hz); rewrite znth_nth_error in Hz by lia; eapply nth_error_In, Hz).
  specialize (HN _ H). cbn [snd] in HN. rewrite Hnm in HN. destruct HN as [HN1 HN2]. destruct Al as [n|n D|n D|n D D2].
  - now apply HN1.
  - destruct D as [r D]. now apply (HD r).
  - now apply HN2.
  - destruct D as [r D]. now apply (HD r).
Qed.
Lemma link_section i name type data link str : sectionIs file secs i name type data link -> type <> 0 -> type <> 8 -> linkedStrings file secs link str ->
  linkedSection (map secS secs) i = Ok link /\ exists x, sectionAt zinit zinflate zlib fuel m io (map secS secs) link = Ok x /\ ioHolds fuel m x str.
Proof using HI Hfuel.
  intros (h & Hz & Ht & Hc & Ho & Hb & Hs & -> & Hl) T0 T8 (nm & l2 & (h2 & Hz2 & Ht2 & Hc2 & Ho2 & Hb2 & Hs2 & -> & _) & Hn). split.
  - unfold linkedSection. rewrite map_znth, Hz. cbn [option_map secS secHdr]. fold all. unfold secTrue. rewrite (all_znth i h name Hz). cbn [sh_type]. rewrite Ht.
    destruct (type =? 0) eqn:X; [lia|]. destruct (type =? 8) eqn:Y; [lia|]. cbn [negb andb fst shdS h_link]. rewrite Hl, map_znth, Hz2. reflexivity.
  - unfold sectionAt. rewrite map_znth, Hz2. cbn [option_map secS secHdr nameOf secName fst snd]. apply secS_io; try assumption; try lia.
    destruct (startsWith zdebugName nm) eqn:E; [|reflexivity]. apply startsWith_spec in E as [r E]. now destruct (Hn r).
Qed.
Lemma dyn_len e : zlen (dynBytes e) = 16. Proof. unfold dynBytes. rewrite zlen_app, !leBytes_len. reflexivity. Qed.
Lemma dyn_safe : safeName dotDynamic. Proof. unfold safeName, dotDynamic. repeat split; discriminate. Qed.
Lemma dynVal_spec tag v : hasDyn file secs tag v -> dynVal zinit zinflate zlib fuel m io (map secS secs) tag = Ok v.
Proof using HI Hfuel HF HT0 ND.
  intros (i & dyns & link & HS & FO & (pre & post & -> & Hpre)). destruct (find_section i _ 6 _ link HS ltac:(lia) ltac:(lia) eq_refl dyn_safe) as (E1 & E2 & x & E3 & E4).
  unfold dynVal. fold all. change [46; 100; 121; 110; 97; 109; 105; 99] with dotDynamic. rewrite E1. cbn [bind]. rewrite E2, E3. cbn [bind]. rewrite (holds_array fuel m x dynBytes 16 _ E4 ltac:(lia) dyn_len). cbn [bind].
  assert (G : forall e, dynOk e -> fld 8 (dynBytes e) 0 = fst e /\ fld 8 (dynBytes e) 8 = snd e).
  { intros e [D1 D2]. unfold dynBytes. split; fldgo. }
  apply Forall_app in FO as [FP FQ]. clear HS E4. induction pre as [|e pre IH]; cbn [map app find].
  - apply Forall_cons_iff in FQ as [D FQ]. destruct (G _ D) as [G1 G2]. rewrite G1. cbn [fst]. rewrite Z.eqb_refl, G2. reflexivity.
  - apply Forall_cons_iff in FP as [D FP]. destruct (G _ D) as [G1 G2]. rewrite G1. cbn [map In] in Hpre. destruct (fst e =? tag) eqn:X; [exfalso; apply Hpre; left; lia|].
    apply IH; [exact FP|tauto].
Qed.
Lemma ver_safe c : safeName (dotVersion ++ [95; c]). Proof. unfold safeName, dotVersion. cbn [app]. repeat split; discriminate. Qed.
Lemma ver_nodebug c r : dotVersion ++ [95; c] <> dotDebug ++ r. Proof. unfold dotVersion, dotDebug. cbn [app]. discriminate. Qed.
Lemma symbolVersions_spec needs defs : hasNeeds file secs needs -> hasDefs file secs defs ->
  symbolVersions zinit zinflate zlib fuel m io (map secS secs) =
    Ok (mkSV (concat (map snd needs) ++ flat_map (fun d => match snd (fst d) with Some s => [(fst (fst d), s)] | None => [] end) (map defS defs))
             (flat_map (fun d => match snd d with Some s => [(fst (fst d), s)] | None => [] end) (map defS defs))
             (map (fun n => (fst n, map fst (snd n))) needs)).
Proof using HI Hfuel HF HT0 ND.
  intros HN HD. unfold symbolVersions. fold all. cbv zeta. change gnuVersionR with (dotVersion ++ [95; 114]). change gnuVersionD with (dotVersion ++ [95; 100]).
  assert (EN : (let* ri := getSection 4 all (dotVersion ++ [95; 114]) 1879048190 in
     if secTrue all ri then let* si := linkedSection (map secS secs) ri in
                      let* n := dynVal zinit zinflate zlib fuel m io (map secS secs) 1879048191 in
                      let* vr := sectionAt zinit zinflate zlib fuel m io (map secS secs) ri in
                      let* strings := sectionAt zinit zinflate zlib fuel m io (map secS secs) si in
                      verNeeds fuel m (Z.to_nat n) vr strings 0 else Ok []) = Ok needs).
  { destruct HN as [[HN ->]|(i & sec & link & str & HS & HL & HY & HA)].
    - destruct (find_none _ 1879048190 HN (ver_nodebug 114) (ver_safe 114)) as (i & E1 & E2). rewrite E1. cbn [bind]. rewrite E2. reflexivity.
    - destruct (find_section i _ 1879048190 _ link HS ltac:(lia) ltac:(lia) eq_refl (ver_safe 114)) as (E1 & E2 & x & E3 & E4).
      destruct (link_section i _ 1879048190 _ link str HS ltac:(lia) ltac:(lia) HL) as (E5 & y & E6 & E7).
      rewrite E1. cbn [bind]. rewrite E2, E5. cbn [bind]. rewrite (dynVal_spec _ _ HY). cbn [bind]. rewrite E3. cbn [bind]. rewrite E6. cbn [bind]. unfold zlen. rewrite Nat2Z.id. now apply (verNeeds_spec fuel m x y sec str). }
  assert (ED : (let* di := getSection 4 all (dotVersion ++ [95; 100]) 1879048189 in
     if secTrue all di then let* si := linkedSection (map secS secs) di in
                      let* n := dynVal zinit zinflate zlib fuel m io (map secS secs) 1879048189 in
                      let* vr := sectionAt zinit zinflate zlib fuel m io (map secS secs) di in
                      let* strings := sectionAt zinit zinflate zlib fuel m io (map secS secs) si in
                      verDefs fuel m (Z.to_nat n) vr strings 0 else Ok []) = Ok (map defS defs)).
  { destruct HD as [[HD ->]|(i & sec & link & str & HS & HL & HY & HA)].
    - destruct (find_none _ 1879048189 HD (ver_nodebug 100) (ver_safe 100)) as (i & E1 & E2). rewrite E1. cbn [bind]. rewrite E2. reflexivity.
    - destruct (find_section i _ 1879048189 _ link HS ltac:(lia) ltac:(lia) eq_refl (ver_safe 100)) as (E1 & E2 & x & E3 & E4).
      destruct (link_section i _ 1879048189 _ link str HS ltac:(lia) ltac:(lia) HL) as (E5 & y & E6 & E7).
      rewrite E1. cbn [bind]. rewrite E2, E5. cbn [bind]. rewrite (dynVal_spec _ _ HY). cbn [bind]. rewrite E3. cbn [bind]. rewrite E6. cbn [bind]. unfold zlen. rewrite Nat2Z.id. now apply (verDefs_spec fuel m x y sec str). }
  destruct (getSection 4 all (dotVersion ++ [95; 114]) 1879048190) as [ri| | |]; cbn [bind] in *; try discriminate EN. rewrite EN. cbn [bind].
  destruct (getSection 4 all (dotVersion ++ [95; 100]) 1879048189) as [di| | |]; cbn [bind] in *; try discriminate ED. rewrite ED. cbn [bind]. reflexivity.
Qed.
End ByName.

(** ** Symbols by name *)
From Verif Require Import ElfHashSpec.
Fixpoint entriesFrom (idx : Z) (l : list ssym) : list (list Z * Z) := match l with [] => [] | s :: r => (ssName s, idx) :: entriesFrom (idx + 1) r end.
Definition symS (s : ssym) : esym := mkSym (ssNameOff s) (ssInfo s) (ssOther s) (ssShndx s) (ssValue s) (ssSize s).
Lemma encodeSym_len s : zlen (encodeSym s) = 24.
Proof. unfold encodeSym. rewrite !zlen_app, !leBytes_len. reflexivity. Qed.
Lemma symOf_encode str s : wfSym str s -> symOf (encodeSym s) = symS s.
Proof.
  intros (_ & H1 & _ & H2 & H3 & H4 & H5 & H6). unfold symOf, symS, encodeSym.
  assert (B1 : [ssInfo s; ssOther s] = leBytes 1 (ssInfo s) ++ leBytes 1 (ssOther s)).
  { cbn [leBytes app]. unfold isByte in *. rewrite !Z.mod_small by lia. reflexivity. }
  rewrite B1, <- app_assoc. unfold isByte in *. f_equal; fldgo.
Qed.
Lemma wfSym_text str s : wfSym str s -> textAt str (ssNameOff s) (ssName s).
Proof.
  intros (N & H1 & [r E] & _). split; [split; [lia|]|].
  - rewrite E. change (0 :: r) with ([0] ++ r). rewrite app_assoc. apply ztake_app_zlen.
  - unfold isName in N. eapply Forall_impl; [|exact N]. intros c Hc. cbv beta in *. lia.
Qed.
Lemma flat_at {A} (f : A -> list Z) sz : 0 < sz -> (forall x, zlen (f x) = sz) -> forall l k x, znth k l = Some x -> ztake sz (zdrop (k * sz) (flat_map f l)) = f x.
Proof.
  intros Hs Hf. induction l as [|y l IH]; intros k x H; [discriminate|]. pose proof (znth_some _ _ _ H) as R. cbn [znth] in H. cbn [flat_map]. destruct (k =? 0) eqn:E.
  - injection H as <-. rewrite zdrop_neg by lia. rewrite <- (Hf y) at 1. apply ztake_app_zlen.
  - destruct (k <? 0) eqn:E2; [discriminate|]. rewrite <- (IH _ _ H). f_equal. replace (k * sz) with ((k - 1) * sz + sz) by ring. rewrite <- zdrop_zdrop by nia. f_equal. rewrite <- (Hf y) at 1. apply zdrop_app_zlen.
Qed.
Lemma zdrop_nth {A} : forall (l : list A) k x, znth k l = Some x -> zdrop k l = x :: zdrop (k + 1) l.
Proof.
  induction l as [|y l IH]; intros k x H; [discriminate|]. pose proof (znth_some _ _ _ H) as R. cbn [znth] in H. destruct (k =? 0) eqn:E.
  - injection H as <-. cbn [zdrop]. destruct (k <=? 0) eqn:?; [|lia]. destruct (k + 1 <=? 0) eqn:?; [lia|]. now rewrite zdrop_neg by lia.
  - destruct (k <? 0) eqn:?; [discriminate|]. cbn [zdrop]. destruct (k <=? 0) eqn:?; [lia|]. destruct (k + 1 <=? 0) eqn:?; [lia|]. rewrite (IH _ _ H). do 2 f_equal. lia.
Qed.
Section Symbols.
Context (fuel : nat) (m : memory) (a b : sio) (syms : list ssym) (str : list Z) (HA : ioHolds fuel m a (flat_map encodeSym syms)) (HB : ioHolds fuel m b str) (WF : Forall (wfSym str) syms).
Lemma sym_total : zlen syms * 24 < W64 / 4.
Proof using HA. rewrite <- (flat_len encodeSym 24 encodeSym_len). exact (ih_len _ _ _ _ HA). Qed.
Lemma sym_item k s : znth k syms = Some s -> itemAt (ofList (flat_map encodeSym syms)) 24 0 k = Ok (encodeSym s).
Proof using Type.
  intros H. pose proof (znth_some _ _ _ H) as R. unfold itemAt. assert (E : memread (ofList (flat_map encodeSym syms)) (0 + k * 24) (Z.to_nat 24) = Some (encodeSym s)).
  { apply memread_some_iff. rewrite prefix_ofList by lia. rewrite Z2Nat.id, Z.add_0_l by lia. split; [apply flat_at; [lia|exact encodeSym_len|exact H]|].
    pose proof (encodeSym_len s) as X. unfold zlen in X. lia. }
  now rewrite E.
Qed.
Lemma cacheNames_spec : forall n s idx, AInv (ofList (flat_map encodeSym syms)) 24 0 s -> 0 <= idx -> idx + Z.of_nat n = zlen syms ->
  cacheNames fuel m a b n s idx = (entriesFrom idx (zdrop idx syms), Ok tt).
Proof using HA HB WF.
  induction n as [|n IH]; intros s idx HI H0 HN; cbn [cacheNames].
  - rewrite zdrop_all by lia. reflexivity.
  - pose proof sym_total as ST. destruct (getitem_spec (ioRead m a) (ofList (flat_map encodeSym syms)) 24 (1024 / 24) 0 (ih_serves _ _ _ _ HA) ltac:(lia) eq_refl ltac:(lia) s idx HI H0) as [G1 G2].
    { change (1024 / 24) with 42. unfold W64 in *. lia. }
    destruct (znth_lt idx syms ltac:(lia)) as [x Hx]. rewrite (sym_item idx x Hx) in G1.
    destruct (getitem (ioRead m a) 24 (1024 / 24) 0 s idx) as [s' r]. cbn [fst snd] in *. subst r. cbn [bind].
    assert (W : wfSym str x) by (rewrite Forall_forall in WF; apply WF; rewrite znth_nth_error in Hx by lia; eapply nth_error_In, Hx).
    rewrite (symOf_encode str x W). unfold symS. cbn [st_name]. rewrite (ih_text _ _ _ _ HB _ _ (wfSym_text str x W)). rewrite (IH s' (idx + 1) G2) by lia.
    rewrite (zdrop_nth syms idx x Hx). reflexivity.
Qed.
Lemma eof_spec : arrayEof (ioSize a) 24 0 = Ok (zlen syms).
Proof using HA.
  pose proof sym_total as ST. pose proof (zlen_nonneg syms). rewrite (ih_size _ _ _ _ HA), (flat_len encodeSym 24 encodeSym_len). unfold arrayEof.
  replace (zlen syms * 24 =? offMax) with false by (unfold offMax, W64 in *; lia). rewrite Z.mod_mul by lia. change (0 =? 0) with true. cbn [negb andb].
  rewrite Z.sub_0_r, u64_id by (unfold isU64, W64 in *; lia). now rewrite Z.div_mul by lia.
Qed.
Definition lookS (name : list Z) : res (esym * Z) :=
  match nameAt (entriesFrom 0 syms) name with
  | Some i => let* x := ioObj m a (u64 (i * 24)) 24 in Ok (symOf x, i)
  | None => Ok (undef, 0)
  end.
Lemma find_first name : findDebugSymbol fuel m a b None name = (Some (entriesFrom 0 syms), lookS name).
Proof using HA HB WF.
  unfold findDebugSymbol. rewrite eof_spec. pose proof (zlen_nonneg syms). rewrite (cacheNames_spec (Z.to_nat (zlen syms)) ainit 0); [|apply ainit_inv|lia|lia]. now rewrite zdrop_neg by lia.
Qed.
Lemma find_later name : findDebugSymbol fuel m a b (Some (entriesFrom 0 syms)) name = (Some (entriesFrom 0 syms), lookS name).
Proof using HA. unfold findDebugSymbol. rewrite eof_spec. reflexivity. Qed.
Lemma symHistory_spec : forall h, symHistory fuel m a b None h = None \/ symHistory fuel m a b None h = Some (entriesFrom 0 syms).
Proof using HA HB WF.
  assert (G : forall h, symHistory fuel m a b (Some (entriesFrom 0 syms)) h = Some (entriesFrom 0 syms)) by (induction h as [|n h IH]; [reflexivity|]; cbn [symHistory]; rewrite find_later; exact IH).
  intros [|n h]; [now left|]. right. cbn [symHistory]. rewrite find_first. apply G.
Qed.
Lemma nameAt_spec : forall l idx name, match nameAt (entriesFrom idx l) name with
  | Some i => idx <= i /\ (exists s, znth (i - idx) l = Some s /\ ssName s = name) /\ (forall j s, i - idx < j -> znth j l = Some s -> ssName s <> name)
  | None => forall j s, znth j l = Some s -> ssName s <> name end.
Proof using Type.
  clear. intros l. induction l as [|x l IH] using rev_ind; intros idx name; [cbn; discriminate|].
  assert (E : forall l idx, entriesFrom idx (l ++ [x]) = entriesFrom idx l ++ [(ssName x, idx + zlen l)]).
  { clear. induction l as [|y l IH]; intros idx; [cbn; repeat f_equal; lia|]. cbn [entriesFrom app]. rewrite IH, zlen_cons. do 4 f_equal. lia. }
  specialize (IH idx name). unfold nameAt in *. rewrite E, rev_app_distr. cbn [rev app find fst snd]. pose proof (zlen_nonneg l) as L0.
  assert (N : znth (zlen l) (l ++ [x]) = Some x) by (rewrite znth_app_r by lia; replace (zlen l - zlen l) with 0 by lia; reflexivity).
  assert (NJ : forall j s, znth j (l ++ [x]) = Some s -> j <> zlen l -> znth j l = Some s).
  { intros j s Hj Hn. pose proof (znth_some _ _ _ Hj) as R. rewrite zlen_app in R. change (zlen [x]) with 1 in R. now rewrite znth_app_l in Hj by lia. }
  destruct (beq (ssName x) name) eqn:B.
  - apply beq_spec in B. cbn [snd]. split; [lia|]. replace (idx + zlen l - idx) with (zlen l) by lia. split; [exists x; split; assumption|].
    intros j s Hj Hz. pose proof (znth_some _ _ _ Hz) as R. rewrite zlen_app in R. change (zlen [x]) with 1 in R. lia.
  - assert (NB : ssName x <> name) by (intros Q; apply beq_spec in Q; congruence). destruct (find _ (rev (entriesFrom idx l))) as [e|].
    + destruct IH as (I1 & (s & I2 & I3) & I4). split; [exact I1|]. split.
      * exists s. split; [|exact I3]. pose proof (znth_some _ _ _ I2). now rewrite znth_app_l by lia.
      * intros j s' Hj Hz. destruct (Z.eq_dec j (zlen l)) as [->|D]; [rewrite N in Hz; injection Hz as <-; exact NB|]. now apply (I4 j); [|apply NJ].
    + intros j s' Hz. destruct (Z.eq_dec j (zlen l)) as [->|D]; [rewrite N in Hz; injection Hz as <-; exact NB|]. now apply (IH j), NJ.
Qed.
Lemma lookS_spec name :
  (exists i s, lookS name = Ok (symS s, i) /\ znth i syms = Some s /\ ssName s = name /\ forall j s', i < j -> znth j syms = Some s' -> ssName s' <> name) \/
  (lookS name = Ok (mkSym 0 0 0 0 0 0, 0) /\ forall j s, znth j syms = Some s -> ssName s <> name).
Proof using HA WF.
  unfold lookS. pose proof (nameAt_spec syms 0 name) as N. pose proof sym_total as ST. destruct (nameAt (entriesFrom 0 syms) name) as [i|].
  - destruct N as (N1 & (s & N2 & N3) & N4). rewrite Z.sub_0_r in *. left. exists i, s. pose proof (znth_some _ _ _ N2) as R. rewrite u64_id by (unfold isU64, W64 in *; lia).
    rewrite (holds_obj fuel m a _ (i * 24) 24 HA) by (rewrite ?(flat_len encodeSym 24 encodeSym_len); lia). cbn [bind]. rewrite (flat_at encodeSym 24 ltac:(lia) encodeSym_len syms i s N2).
    rewrite (symOf_encode str) by (rewrite Forall_forall in WF; apply WF; rewrite znth_nth_error in N2 by lia; eapply nth_error_In, N2). now repeat split.
  - right. split; [reflexivity|exact N].
Qed.
End Symbols.
