(** Property C177: the address of a symbol in a process, from the bytes of its images (see properties.jsonl). *)
From Coq Require Import Sorted.
From Verif Require Import Base Leb LebSpec DwarfReader DwarfReaderProofs Reader ReaderSpec ReaderProofs ReaderArray ReaderArrayProofs CfiSpec CfiProofs ElfHash ElfHashSpec ElfHashProofs
  ElfObj ElfObjSpec ElfObjProofs ElfFile ElfFileSpec ElfFileProofs ElfFileProofs2 ElfFileProofs3 Main Props_Elf Props_ElfSym ElfDyn Props_ElfDyn Props_Main2.

(** The symbols of an image that are found through hashing: those of the GNU table from its first on; else all but symbol 0 of the System V table; else none. *)
Inductive dynSyms (file : list Z) (secs : list (sshdr * list Z)) : Z -> list ssym -> Prop :=
| DynGnu t tab str : hashed file secs dotGnuHash SHT_GNU_HASH (encodeGT t) tab str -> wfGT t tab -> dynSyms file secs (gtSymoff t) tab
| DynSysv t tab str : noSection secs dotGnuHash -> hashed file secs dotHash SHT_HASH (encodeHT t) tab str -> wfHT t tab -> dynSyms file secs 1 tab
| DynNone : noSection secs dotGnuHash -> noSection secs dotHash -> dynSyms file secs 0 [].
(** Its .symtab, if it has one *)
Inductive dbgSyms (file : list Z) (secs : list (sshdr * list Z)) : list ssym -> Prop :=
| DbgSyms i link tab str : sectionIs file secs i dotSymtab 2 (flat_map encodeSym tab) link -> linkedStrings file secs link str -> Forall (wfSym str) tab -> dbgSyms file secs tab
| DbgNone : noSection secs dotSymtab -> dbgSyms file secs [].
(** The name has one definition among the hashed symbols (the versions of a symbol, say, all have the same value); it has none, and at most references *)
Definition dynDefines (from : Z) (tab : list ssym) (name : list Z) (v : Z) : Prop :=
  (exists k s, from <= k /\ znth k tab = Some s /\ ssName s = name) /\
  forall k s, from <= k -> znth k tab = Some s -> ssName s = name -> ssShndx s <> 0 /\ ssValue s = v.
Definition dynLacks (from : Z) (tab : list ssym) (name : list Z) : Prop := forall k s, from <= k -> znth k tab = Some s -> ssName s = name -> ssShndx s = 0.
(** In .symtab the last one counts. *)
Definition lastNamed (tab : list ssym) (name : list Z) (s : ssym) : Prop :=
  exists k, znth k tab = Some s /\ ssName s = name /\ forall j s', k < j -> znth j tab = Some s' -> ssName s' <> name.
Definition dbgDefines (tab : list ssym) (name : list Z) (v : Z) : Prop := exists s, lastNamed tab name s /\ ssShndx s <> 0 /\ ssValue s = v.
Definition dbgLacks (tab : list ssym) (name : list Z) : Prop := forall s, lastNamed tab name s -> ssShndx s = 0.

(** A loaded image: its bytes and sections, the reader they are read with, and the names looked up before in its .symtab. *)
Record limg : Type := mkLI { liFile : list Z; liHdr : sehdr; liSecs : list (sshdr * list Z); liMem : memory; liIo : reader; liBefore : list (list Z) }.
Definition imageDefines (debug : bool) (im : limg) (name : list Z) (v : Z) : Prop :=
  exists from dyn, dynSyms (liFile im) (liSecs im) from dyn /\
    (dynDefines from dyn name v \/ dynLacks from dyn name /\ debug = true /\ exists dbg, dbgSyms (liFile im) (liSecs im) dbg /\ dbgDefines dbg name v).
Definition imageLacks (debug : bool) (im : limg) (name : list Z) : Prop :=
  exists from dyn, dynSyms (liFile im) (liSecs im) from dyn /\ dynLacks from dyn name /\
    (debug = true -> exists dbg, dbgSyms (liFile im) (liSecs im) dbg /\ dbgLacks dbg name).

Lemma table_small file secs name type hash tab str : hashed file secs name type hash tab str -> (length tab <= length file)%nat.
Proof.
  intros (i & j & k & nm & _ & (hd & _ & _ & _ & Ho & Hb & Hs & E & _) & _).
  apply (f_equal zlen) in E. rewrite (flat_len encodeSym 24) in E by (intros x; unfold encodeSym; rewrite !zlen_app, !leBytes_len; reflexivity). rewrite ztake_zdrop_len in E by lia. unfold zlen in *. lia.
Qed.
Section Go.
Context {zst : Type} (zinit : zst) (zi : zst -> list Z -> Z -> bool -> zret * Z * list Z * zst) (zl : bool) (fuel : nat).
Definition limgObj (im : limg) : sobj := imageObj zinit zi zl fuel (liMem im) (liIo im) (sectionList (liSecs im)) (liBefore im).
Definition processObjs (l : list (Z * (list Z * option limg))) : sobjs := map (fun e => (fst e, (fst (snd e), option_map limgObj (snd (snd e))))) l.
Definition isImage (im : limg) : Prop := image (liMem im) (liIo im) fuel (liFile im) (liHdr im) (liSecs im).

Lemma dyn_answer im from dyn name : isImage im -> dynSyms (liFile im) (liSecs im) from dyn -> Forall (fun c => 0 < c < 128) name ->
  (exists k s, from <= k /\ znth k dyn = Some s /\ ssName s = name /\ soDyn (limgObj im) name = Ok (mkSymv (ssShndx s) (ssValue s))) \/
  (soDyn (limgObj im) name = Ok (mkSymv 0 0) /\ forall k s, from <= k -> znth k dyn = Some s -> ssName s <> name).
Proof.
  intros IM D Hn. pose proof (im_fuel _ _ _ _ _ _ IM) as HF. unfold limgObj, imageObj. cbn [soDyn]. assert (Nm : isName name) by (eapply Forall_impl; [|exact Hn]; intros; cbn in *; lia).
  destruct D as [t tab str HH WT|t tab str HN HH WT|HN HN2].
  - pose proof (table_small _ _ _ _ _ _ _ HH) as Sm.
    destruct (C176_gnu_partial zst zinit zi zl _ _ fuel _ _ _ t tab str name IM HH WT Nm ltac:(lia)) as [(k & K1 & (s & S1 & S2 & S3) & _)|[N1 N2]].
    + left. exists k, s. rewrite S3. repeat split; assumption.
    + right. rewrite N1. split; [reflexivity|exact N2].
  - pose proof (table_small _ _ _ _ _ _ _ HH) as Sm.
    destruct (C176_sysv_partial zst zinit zi zl _ _ fuel _ _ _ t tab str name IM HN HH WT Hn ltac:(lia)) as [(k & K1 & (s & S1 & S2 & S3))|[N1 N2]].
    + left. exists k, s. rewrite S3. repeat split; try assumption; lia.
    + right. rewrite N1. split; [reflexivity|]. intros k s Hk. apply N2. lia.
  - right. split; [|intros k s _ X; apply znth_some in X; change (zlen (@nil ssym)) with 0 in X; lia]. rewrite (C176_no_table_refuted zst zinit zi zl _ _ fuel _ _ _ name IM HN HN2). reflexivity.
Qed.
Lemma no_symtab m io file h secs : image m io fuel file h secs -> noSection secs dotSymtab ->
  symtabOf zinit zi zl fuel m io (sectionList secs) symtabName 2 = Ok (IoR RNull, IoR RNull).
Proof.
  intros IM HN. destruct (image_secs _ _ _ _ _ _ IM) as (first & n0 & rest & E & T). destruct (sect_zero secs first n0 rest E T) as (s0 & Z0 & TT0).
  destruct (getSection_cands (map asShdr (map secS secs)) 2 s0 Z0 TT0 4 symtabName ltac:(lia) symtab_safe) as (o & G & _ & Hc & _).
  assert (O0 : o = None).
  { destruct o as [i|]; [exfalso|reflexivity]. destruct (Hc i eq_refl) as (mm & Al & (s & Hz & Hnm & _)). apply all_inv in Hz as (hd & Hz & _).
    assert (I : In (hd, sh_nm s) secs) by (pose proof (znth_some _ _ _ Hz); rewrite znth_nth_error in Hz by lia; eapply nth_error_In, Hz).
    specialize (HN _ I). cbn [snd] in HN. rewrite Hnm in HN. destruct HN as [HN1 HN2]. inversion Al as [n P|n [r D] P|n D P|n [r D] D2 P]; subst.
    - now apply HN1.
    - discriminate D.
    - now apply HN2.
    - discriminate D. }
  subst o. cbn [o2z] in G. unfold symtabOf, sectionList. rewrite G. cbn [bind]. rewrite E. cbn [map].
  assert (TS : h_type (secHdr (secS (first, n0))) = 0) by exact T. generalize dependent (secS (first, n0)). intros q TS. generalize (map secS rest). intros r.
  assert (Z1 : znth 0 (q :: r) = Some q) by reflexivity.
  assert (SA : sectionAt zinit zi zl fuel m io (q :: r) 0 = Ok (IoR RNull)) by (unfold sectionAt, sectionIo; rewrite Z1, TS; reflexivity).
  assert (LS : linkedSection (q :: r) 0 = Ok 0).
  { unfold linkedSection. rewrite Z1. unfold secTrue. rewrite map_znth, Z1. cbn [option_map asShdr sh_type]. rewrite TS. reflexivity. }
  rewrite SA. cbn [bind]. rewrite LS. cbn [bind]. rewrite SA. reflexivity.
Qed.
Lemma null_find m st name : st = None \/ st = Some [] -> (fst (findDebugSymbol fuel m (IoR RNull) (IoR RNull) st name) = None \/ fst (findDebugSymbol fuel m (IoR RNull) (IoR RNull) st name) = Some []) /\
  snd (findDebugSymbol fuel m (IoR RNull) (IoR RNull) st name) = Ok (mkSym 0 0 0 0 0 0, 0).
Proof using Type. intros [-> | ->]; (split; [right; reflexivity|reflexivity]). Qed.
Lemma dbg_answer im dbg name : isImage im -> dbgSyms (liFile im) (liSecs im) dbg ->
  (exists s, lastNamed dbg name s /\ soDebug (limgObj im) name = Ok (mkSymv (ssShndx s) (ssValue s))) \/
  (soDebug (limgObj im) name = Ok (mkSymv 0 0) /\ forall s, ~ lastNamed dbg name s).
Proof.
  intros IM D. unfold limgObj, imageObj. cbn [soDebug]. destruct D as [i link tab str HS HL WF|HN].
  - destruct (C115_symbol_by_name_partial zst zinit zi zl _ _ fuel _ _ _ i link tab str IM HS HL WF) as (a & b & E & A). change symtabName with dotSymtab. rewrite E. cbn [bind].
    destruct (A (liBefore im) name) as [(k & s & A1 & A2 & A3 & A4)|[A1 A2]]; cbv zeta in A1; rewrite A1.
    + left. exists s. split; [exists k; repeat split; assumption|reflexivity].
    + right. split; [reflexivity|]. intros s (k & K1 & K2 & _). exact (A2 k s K1 K2).
  - right. split; [|intros s (k & K1 & _); apply znth_some in K1; change (zlen (@nil ssym)) with 0 in K1; lia].
    rewrite (no_symtab _ _ _ _ _ IM HN). cbn [bind].
    assert (H : forall h st, st = None \/ st = Some [] -> symHistory fuel (liMem im) (IoR RNull) (IoR RNull) st h = None \/ symHistory fuel (liMem im) (IoR RNull) (IoR RNull) st h = Some []).
    { induction h as [|x h IH]; intros st Hst; [exact Hst|]. cbn [symHistory]. apply IH. now apply null_find. }
    rewrite (proj2 (null_find (liMem im) _ name (H (liBefore im) None (or_introl eq_refl)))). reflexivity.
Qed.
Lemma image_defines debug im name v : isImage im -> Forall (fun c => 0 < c < 128) name -> imageDefines debug im name v -> exists y, Defines debug (limgObj im) name y /\ svValue y = v.
Proof.
  intros IM Hn (from & dyn & D & H). destruct (dyn_answer im from dyn name IM D Hn) as [(k & s & K1 & K2 & K3 & A)|[A N]].
  - destruct H as [[_ H]|(L & -> & dbg & B & (s2 & S1 & S2 & S3))].
    + destruct (H k s K1 K2 K3) as [H1 H2]. eexists. split; [eapply DfDyn; [exact A|exact H1]|exact H2].
    + pose proof (L k s K1 K2 K3) as Z0. destruct (dbg_answer im dbg name IM B) as [(s3 & T1 & T2)|[_ T]]; [|now destruct (T s2)].
      assert (E : s3 = s2).
      { destruct T1 as (i & I1 & I2 & I3), S1 as (j & J1 & J2 & J3). destruct (Z.lt_trichotomy i j) as [Q|[Q|Q]]; [now destruct (I3 j s2 Q J1)|subst; congruence|now destruct (J3 i s3 Q I1)]. }
      subst s3. eexists. split; [eapply DfDebug; [exact A|exact Z0|reflexivity|exact T2|exact S2]|exact S3].
  - destruct H as [[(k & s & K1 & K2 & K3) _]|(L & -> & dbg & B & (s2 & S1 & S2 & S3))]; [now destruct (N k s K1 K2)|].
    destruct (dbg_answer im dbg name IM B) as [(s3 & T1 & T2)|[_ T]]; [|now destruct (T s2)].
    assert (E : s3 = s2).
    { destruct T1 as (i & I1 & I2 & I3), S1 as (j & J1 & J2 & J3). destruct (Z.lt_trichotomy i j) as [Q|[Q|Q]]; [now destruct (I3 j s2 Q J1)|subst; congruence|now destruct (J3 i s3 Q I1)]. }
    subst s3. eexists. split; [eapply DfDebug; [exact A|reflexivity|reflexivity|exact T2|exact S2]|exact S3].
Qed.
Lemma image_lacks debug im name : isImage im -> Forall (fun c => 0 < c < 128) name -> imageLacks debug im name -> Lacks debug (limgObj im) name.
Proof.
  intros IM Hn (from & dyn & D & L & B). split.
  - destruct (dyn_answer im from dyn name IM D Hn) as [(k & s & K1 & K2 & K3 & A)|[A _]]; eexists; (split; [exact A|]); [exact (L k s K1 K2 K3)|reflexivity].
  - intros Hd. destruct (B Hd) as (dbg & D2 & L2). destruct (dbg_answer im dbg name IM D2) as [(s & T1 & T2)|[T _]]; eexists; (split; [eassumption|]); [exact (L2 s T1)|reflexivity].
Qed.
End Go.
(** The address of a symbol is the load address of the first image, in the order of addresses, of those accepted, whose bytes define it, plus its value
    there: in the hashed dynamic symbols, or, if wanted, in .symtab.  Partial: names of bytes below 0x80; an image without a hash table is taken not to define
    its dynamic symbols (see [C176_no_table_refuted]); absolute symbols (see [C128_absolute_refuted]). *)
Theorem C177_address_partial : forall (zst : Type) (zinit : zst) zinflate zlib fuel objs name (debug : bool) accept base n im v,
  StronglySorted (fun a b => fst a < fst b) objs -> Forall (fun c => 0 < c < 128) name -> (forall b n' i, In (b, (n', Some i)) objs -> isImage fuel i) ->
  In (base, (n, Some im)) objs -> accept n = true -> imageDefines debug im name v ->
  (forall b n' i, In (b, (n', Some i)) objs -> b < base -> accept n' = true -> imageLacks debug i name) ->
  0 <= base -> 0 <= v -> base + v < 2 ^ 64 ->
  resolveSym name debug accept (processObjs zinit zinflate zlib fuel objs) = Ok (base + v).
Proof.
  intros zst zinit zi zl fuel objs name debug accept base n im v St Hn IM Hin Ha D L H1 H2 H3.
  destruct (image_defines zinit zi zl fuel debug im name v (IM _ _ _ Hin) Hn D) as (y & Y1 & <-).
  apply (C128_resolve_partial name debug accept _ base n (limgObj zinit zi zl fuel im)); try assumption.
  - unfold byAddress, processObjs. clear - St. induction St as [|a l St IH F]; cbn [map]; [constructor|]. constructor; [exact IH|]. rewrite Forall_map. exact F.
  - unfold processObjs. apply in_map_iff. exists (base, (n, Some im)). split; [reflexivity|exact Hin].
  - intros b n' o' I Hb Ha'. unfold processObjs in I. apply in_map_iff in I as ([b0 [n0 [i0|]]] & E & I); cbn [fst snd option_map] in E; inversion E; subst.
    apply image_lacks; [exact (IM _ _ _ I)|exact Hn|exact (L _ _ _ I Hb Ha')].
Qed.
Print Assumptions C177_address_partial.
(** If none of the accepted images defines it, it is an error. *)
Theorem C177_none : forall (zst : Type) (zinit : zst) zinflate zlib fuel objs name (debug : bool) accept, Forall (fun c => 0 < c < 128) name ->
  (forall b n i, In (b, (n, Some i)) objs -> isImage fuel i) -> (forall b n i, In (b, (n, Some i)) objs -> accept n = true -> imageLacks debug i name) ->
  resolveSym name debug accept (processObjs zinit zinflate zlib fuel objs) = Throw.
Proof.
  intros zst zinit zi zl fuel objs name debug accept Hn IM L. apply C128_resolve_none. intros b n o I Ha. unfold processObjs in I.
  apply in_map_iff in I as ([b0 [n0 [i0|]]] & E & I); cbn [fst snd option_map] in E; inversion E; subst. apply image_lacks; [exact (IM _ _ _ I)|exact Hn|exact (L _ _ _ I Ha)].
Qed.
Print Assumptions C177_none.
(** Three images: one with a System V table, one with a GNU table, one with only a .symtab. *)
Definition C177_objs : list (Z * (list Z * option limg)) :=
  [(4096, ([97], Some (mkLI C176_fileB C176_hB C176_secsB (fun _ => None) (RFile C176_fileB) []))); (8192, ([98], None));
   (65536, ([99], Some (mkLI C176_fileA C176_hA C176_secsA (fun _ => None) (RFile C176_fileA) [[97]])));
   (1048576, ([100], Some (mkLI C114_file C114_h C114_secs (fun _ => None) (RFile C114_file) [[97]; [102]])))].
Example C177_nonvacuous : let im := mkLI C176_fileA C176_hA C176_secsA (fun _ => None) (RFile C176_fileA) [[97]] in let im2 := mkLI C114_file C114_h C114_secs (fun _ => None) (RFile C114_file) [[97]; [102]] in
  StronglySorted (fun a b => fst a < fst b) C177_objs /\ (forall b n' i, In (b, (n', Some i)) C177_objs -> isImage 2000 i) /\
  imageDefines true im [102; 111; 111] 4112 /\ imageLacks true im [102] /\ imageDefines true im2 [102] 4096 /\
  let resolve name debug accept := resolveSym name debug accept (processObjs tt (fun z i a f => (ZError, 0, [], tt)) true 2000 C177_objs) in
  resolve [102; 111; 111] false (fun _ => true) = Ok 8208 /\ resolve [102; 111; 111] false (fun n => beqs n [99]) = Ok 69648 /\
  resolve [102] true (fun _ => true) = Ok 1052672 /\ resolve [102] false (fun _ => true) = Throw.
Proof.
  cbv zeta. destruct C176_nonvacuous as (HA & HB1 & HB2 & _). destruct C29_nonvacuous as (WT & _).
  assert (DA : dynSyms C176_fileA C176_secsA 1 C29_tab) by exact (DynGnu _ _ C29_gt C29_tab C29_st HA WT).
  split; [|split; [|split; [|split; [|split]]]].
  - repeat constructor; cbn; lia.
  - intros b n' i [H|[H|[H|[H|[]]]]]; inversion H; subst; [exact C176_imageB|exact C176_imageA|exact C114_image].
  - exists 1, C29_tab. split; [exact DA|left]. split; [exists 2; eexists; repeat split; lia|]. intros k s Hk Hz Hs. zcases Hz; cbn in Hs; try discriminate Hs; cbn; split; [lia|reflexivity].
  - exists 1, C29_tab. split; [exact DA|]. split; [intros k s Hk Hz Hs; zcases Hz; cbn in Hs; discriminate Hs|]. intros _. exists []. split.
    + apply DbgNone. intros s Hs. repeat (destruct Hs as [<-|Hs]; [split; discriminate|]). destruct Hs.
    + intros s (k & K & _). apply znth_some in K. change (zlen (@nil ssym)) with 0 in K. lia.
  - exists 0, []. split; [|right]. { apply DynNone; intros s Hs; (repeat (destruct Hs as [<-|Hs]; [split; discriminate|])); destruct Hs. }
    split; [intros k s _ Hz; apply znth_some in Hz; change (zlen (@nil ssym)) with 0 in Hz; lia|]. split; [reflexivity|].
    destruct C115_nonvacuous as [S W]. exists [C114_s0; C114_s1; C114_s1]. split; [exact (DbgSyms _ _ 7 2 _ _ S C114_strings W)|].
    exists C114_s1. split; [|split; [cbn; lia|reflexivity]]. exists 2. split; [reflexivity|]. split; [reflexivity|]. intros j s' Hj Hz. apply znth_some in Hz. change (zlen _) with 3 in Hz. lia.
  - repeat split; vm_compute; reflexivity.
Qed.
