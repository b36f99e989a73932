(** Property C176: symbols of the dynamic symbol table by name, from an image's bytes (see properties.jsonl). *)
From Verif Require Import Base Leb LebSpec DwarfReader DwarfReaderProofs Reader ReaderSpec ReaderProofs ReaderArray ReaderArrayProofs CfiSpec CfiProofs ElfHash ElfHashSpec ElfHashProofs
  ElfObj ElfObjSpec ElfObjProofs ElfFile ElfFileSpec ElfFileProofs ElfFileProofs2 ElfFileProofs3 Props_Elf Props_ElfSym ElfDyn.

(** The image has a hash section of this name, type and contents; it is linked to a dynamic symbol table (SHT_DYNSYM, 11) of these symbols, and that to
    the string table their names are in. *)
Definition hashed (file : list Z) (secs : list (sshdr * list Z)) (name : list Z) (type : Z) (hash : list Z) (tab : list ssym) (str : list Z) : Prop :=
  exists i j k nm, sectionIs file secs i name type hash j /\ sectionIs file secs j nm 11 (flat_map encodeSym tab) k /\
    (forall r, nm <> [46; 122; 100; 101; 98; 117; 103; 95] ++ r) /\ linkedStrings file secs k str /\ Forall (wfSym str) tab.
Definition dotGnuHash : list Z := [46; 103; 110; 117; 46; 104; 97; 115; 104].
Definition dotHash : list Z := [46; 104; 97; 115; 104].
Definition SHT_GNU_HASH : Z := 1879048182.
Definition SHT_HASH : Z := 5.
(** The answer is symbol [k] of the table. *)
Definition answers (tab : list ssym) (name : list Z) (k : Z) (r : res (esym * Z)) : Prop :=
  exists s, znth k tab = Some s /\ ssName s = name /\ r = Ok (mkSym (ssNameOff s) (ssInfo s) (ssOther s) (ssShndx s) (ssValue s) (ssSize s), k).
Definition noAnswer (r : res (esym * Z)) : Prop := r = Ok (mkSym 0 0 0 0 0 0, 0).

Lemma gnuhash_safe : safeName gnuHashName. Proof. unfold safeName, gnuHashName. repeat split; discriminate. Qed.
Lemma hash_safe : safeName hashName. Proof. unfold safeName, hashName. repeat split; discriminate. Qed.
Lemma ioAll_holds fuel m i d : ioHolds fuel m i d -> ioAll m i = Ok d.
Proof.
  intros H. unfold ioAll. rewrite (ih_size _ _ _ _ H). pose proof (zlen_nonneg d) as N. pose proof (ih_len _ _ _ _ H) as L. destruct (zlen d =? 0) eqn:Z0.
  - destruct d as [|c d]; [reflexivity|]. rewrite zlen_cons in *. pose proof (zlen_nonneg d). lia.
  - destruct (ih_serves _ _ _ _ H 0 (zlen d) ltac:(lia) ltac:(lia) ltac:(unfold W64 in *; lia)) as [E|[E P]]; rewrite prefix_ofList, Z2Nat.id, zdrop_neg in * by lia.
    + rewrite E. f_equal. rewrite <- (app_nil_r d) at 2. apply ztake_app_zlen.
    + pose proof (ztake_app_zlen d []) as Q. rewrite app_nil_r in Q. rewrite Q in P. subst d. now change (zlen (@nil Z)) with 0 in Z0.
Qed.
Section Img.
Context {zst : Type} (zinit : zst) (zi : zst -> list Z -> Z -> bool -> zret * Z * list Z * zst) (zl : bool).
Context (fuel : nat) (m : memory) (io : reader) (file : list Z) (h : sehdr) (secs : list (sshdr * list Z)) (IM : image m io fuel file h secs).
Lemma sect_any i name type data link : sectionIs file secs i name type data link -> type <> 0 -> type <> 8 -> (forall r, name <> [46; 122; 100; 101; 98; 117; 103; 95] ++ r) ->
  secTrue (map asShdr (sectionList secs)) i = true /\ (forall s, znth link secs = Some s -> linkedSection (sectionList secs) i = Ok link) /\
  exists x, sectionAt zinit zi zl fuel m io (sectionList secs) i = Ok x /\ ioHolds fuel m x data.
Proof using IM.
  intros (hd & Hz & Ht & Hc & Ho & Hb & Hs & -> & Hl) T0 T8 Hn. unfold sectionList.
  assert (ST : secTrue (map asShdr (map secS secs)) i = true).
  { unfold secTrue. rewrite (all_znth secs i hd name Hz). cbn [sh_type]. rewrite Ht. destruct (type =? 0) eqn:X; [lia|]. destruct (type =? 8) eqn:Y; [lia|]. reflexivity. }
  split; [exact ST|]. split.
  - intros s Hk. unfold linkedSection. rewrite map_znth, Hz. cbn [option_map]. rewrite ST. cbn [secS secHdr fst shdS h_link]. rewrite Hl, map_znth, Hk. reflexivity.
  - unfold sectionAt. rewrite map_znth, Hz. cbn [option_map secS secHdr nameOf secName fst snd]. apply (secS_io zinit zi zl fuel m io file (im_holds _ _ _ _ _ _ IM) (im_fuel _ _ _ _ _ _ IM)); try assumption; try lia.
    destruct (startsWith zdebugName name) eqn:E; [|reflexivity]. apply startsWith_spec in E as [r E]. now destruct (Hn r).
Qed.
Lemma getHash_some name type hash tab str : hashed file secs name type hash tab str -> type <> 0 -> type <> 8 -> startsWith zdebugName name = false -> safeName name ->
  getHash zinit zi zl fuel m io (sectionList secs) name type = Ok (Some (hash, flat_map encodeSym tab, str)).
Proof using IM.
  intros (i & j & k & nm & HS & HD & Hn & HL & _) T0 T8 Hz Sf. destruct (image_secs _ _ _ _ _ _ IM) as (first & n0 & rest & E & T).
  destruct (find_section zinit zi zl fuel m io file (im_holds _ _ _ _ _ _ IM) (im_fuel _ _ _ _ _ _ IM) secs first n0 rest E T (im_names _ _ _ _ _ _ IM) i _ _ _ j HS T0 T8 Hz Sf) as (E1 & E2 & x & E3 & E4).
  destruct (sect_any j nm 11 _ k HD ltac:(lia) ltac:(lia) Hn) as (D1 & D2 & y & D3 & D4).
  destruct HL as (nm3 & l3 & HT & Hn3). destruct (sect_any k nm3 3 _ l3 HT ltac:(lia) ltac:(lia) Hn3) as (S1 & _ & z & S3 & S4).
  assert (L1 : linkedSection (sectionList secs) i = Ok j).
  { assert (Hi : forall r, name <> [46; 122; 100; 101; 98; 117; 103; 95] ++ r) by (intros r ->; assert (X : startsWith zdebugName ([46; 122; 100; 101; 98; 117; 103; 95] ++ r) = true) by (apply startsWith_spec; now exists r); congruence).
    destruct HD as (hd & Hd & _). exact (proj1 (proj2 (sect_any i name type _ j HS T0 T8 Hi)) _ Hd). }
  assert (L2 : linkedSection (sectionList secs) j = Ok k) by (destruct HT as (ht & Hh & _); exact (D2 _ Hh)).
  unfold getHash. unfold sectionList in *. rewrite E1. cbn [bind]. rewrite E2, L1. cbn [bind]. rewrite L2. cbn [bind]. rewrite D1, S1. cbn [andb]. rewrite E3. cbn [bind]. rewrite D3. cbn [bind]. rewrite S3. cbn [bind].
  rewrite (ioAll_holds _ _ _ _ E4). cbn [bind]. rewrite (ioAll_holds _ _ _ _ D4). cbn [bind]. rewrite (ioAll_holds _ _ _ _ S4). reflexivity.
Qed.
Lemma getHash_none name type : noSection secs name -> (forall r, name <> dotDebug ++ r) -> safeName name ->
  getHash zinit zi zl fuel m io (sectionList secs) name type = Ok None.
Proof using IM.
  intros HN HD Sf. destruct (image_secs _ _ _ _ _ _ IM) as (first & n0 & rest & E & T).
  destruct (find_none zinit zi zl fuel file (im_fuel _ _ _ _ _ _ IM) secs first n0 rest E T name type HN HD Sf) as (i & E1 & E2). unfold getHash, sectionList. rewrite E1. cbn [bind]. now rewrite E2.
Qed.
End Img.
(** With a GNU hash table: the first of the hashed symbols of the name, and its index; the undefined symbol if there is none.  Any other hash table in
    the image is not used. *)
Theorem C176_gnu_partial : forall (zst : Type) (zinit : zst) zinflate zlib m io fuel file h secs t tab str name, image m io fuel file h secs ->
  hashed file secs dotGnuHash SHT_GNU_HASH (encodeGT t) tab str -> wfGT t tab -> isName name -> (length tab < fuel)%nat ->
  let answer := findDynamicSymbol zinit zinflate zlib fuel m io (sectionList secs) name in
  (exists k, gtSymoff t <= k /\ answers tab name k answer /\ forall j s, gtSymoff t <= j < k -> znth j tab = Some s -> ssName s <> name) \/
  (noAnswer answer /\ forall k s, gtSymoff t <= k -> znth k tab = Some s -> ssName s <> name).
Proof.
  intros zst zinit zi zl m io fuel file h secs t tab str name IM HH WT Nm Hf answer. assert (WF : Forall (wfSym str) tab) by (destruct HH as (i & j & k & nm & _ & _ & _ & _ & W); exact W).
  unfold answer, findDynamicSymbol. change gnuHashName with dotGnuHash. change 1879048182 with SHT_GNU_HASH.
  rewrite (getHash_some zinit zi zl fuel m io file h secs IM _ _ _ _ _ HH ltac:(unfold SHT_GNU_HASH; lia) ltac:(unfold SHT_GNU_HASH; lia) eq_refl gnuhash_safe). cbn [bind].
  destruct (C29_gnu_lookup t tab str name fuel WT WF Nm Hf) as [(k & s & (F1 & F2 & F3 & F4) & E)|[F E]]; rewrite E; cbn [bind].
  - left. exists k. pose proof (gwSymoff _ _ WT) as G. destruct (k =? 0) eqn:K; [lia|]. split; [exact F1|]. split; [|exact F4]. exists s. repeat split; assumption.
  - right. change (0 =? 0) with true. cbv iota. split; [reflexivity|]. intros k s. apply F.
Qed.
Print Assumptions C176_gnu_partial.
(** Without one but with a System V hash table: a symbol of the name other than symbol 0 with its index; the undefined symbol if there is none. *)
Theorem C176_sysv_partial : forall (zst : Type) (zinit : zst) zinflate zlib m io fuel file h secs t tab str name, image m io fuel file h secs ->
  noSection secs dotGnuHash -> hashed file secs dotHash SHT_HASH (encodeHT t) tab str -> wfHT t tab -> Forall (fun c => 0 < c < 128) name -> (length tab < fuel)%nat ->
  let answer := findDynamicSymbol zinit zinflate zlib fuel m io (sectionList secs) name in
  (exists k, 0 < k /\ answers tab name k answer) \/ (noAnswer answer /\ forall k s, 0 < k -> znth k tab = Some s -> ssName s <> name).
Proof.
  intros zst zinit zi zl m io fuel file h secs t tab str name IM HN HH WT Nm Hf answer. assert (WF : Forall (wfSym str) tab) by (destruct HH as (i & j & k & nm & _ & _ & _ & _ & W); exact W).
  unfold answer, findDynamicSymbol. rewrite (getHash_none zinit zi zl fuel m io file h secs IM gnuHashName _ HN ltac:(intros r; discriminate) gnuhash_safe). cbn [bind].
  change hashName with dotHash. change (getHash zinit zi zl fuel m io (sectionList secs) dotHash 5) with (getHash zinit zi zl fuel m io (sectionList secs) dotHash SHT_HASH).
  rewrite (getHash_some zinit zi zl fuel m io file h secs IM _ _ _ _ _ HH ltac:(unfold SHT_HASH; lia) ltac:(unfold SHT_HASH; lia) eq_refl hash_safe). cbn [bind].
  destruct (C30_sysv_lookup_partial t tab str name fuel WT WF Nm Hf) as [(k & s & F1 & F2 & F3 & E)|[F E]]; rewrite E; cbn [bind].
  - left. exists k. destruct (k =? 0) eqn:K; [lia|]. split; [exact F1|]. exists s. repeat split; assumption.
  - right. change (0 =? 0) with true. cbv iota. split; [reflexivity|]. intros k s. apply F.
Qed.
Print Assumptions C176_sysv_partial.
(** Refuted: a symbol of the dynamic symbol table is found.  In an image without a hash table none is, whatever .dynsym has. *)
Theorem C176_no_table_refuted : forall (zst : Type) (zinit : zst) zinflate zlib m io fuel file h secs name, image m io fuel file h secs ->
  noSection secs dotGnuHash -> noSection secs dotHash -> noAnswer (findDynamicSymbol zinit zinflate zlib fuel m io (sectionList secs) name).
Proof.
  intros zst zinit zi zl m io fuel file h secs name IM HN HN2. unfold noAnswer, findDynamicSymbol.
  rewrite (getHash_none zinit zi zl fuel m io file h secs IM gnuHashName _ HN ltac:(intros r; discriminate) gnuhash_safe). cbn [bind].
  rewrite (getHash_none zinit zi zl fuel m io file h secs IM hashName _ HN2 ltac:(intros r; discriminate) hash_safe). reflexivity.
Qed.
Print Assumptions C176_no_table_refuted.
(** Concrete images: with both tables in one, the SysV one alone, and neither. *)
Lemma all_of (l : list (sshdr * list Z)) (P : sshdr * list Z -> bool) : forallb P l = true -> forall i s, znth i l = Some s -> P s = true.
Proof. intros H i s Hz. pose proof (znth_some _ _ _ Hz) as R. rewrite znth_nth_error in Hz by lia. rewrite forallb_forall in H. apply H. eapply nth_error_In, Hz. Qed.
Lemma nodupb : forall l : list (list Z), (fix nd l := match l with [] => true | x :: r => negb (existsb (beq x) r) && nd r end) l = true -> NoDup l.
Proof.
  induction l as [|x r IH]; intros H; constructor; apply andb_prop in H as [H1 H2]; [|now apply IH]. intros X. apply negb_true_iff in H1.
  assert (existsb (beq x) r = true) by (apply existsb_exists; exists x; split; [exact X|now apply beq_spec]). congruence.
Qed.
Lemma znth_all (P : Z -> sshdr * list Z -> Prop) l : (forall k, (k < length l)%nat -> match nth_error l k with Some s => P (Z.of_nat k) s | None => True end) -> forall i s, znth i l = Some s -> P i s.
Proof.
  intros H i s Hz. pose proof (znth_some _ _ _ Hz) as R. rewrite znth_nth_error in Hz by lia. specialize (H (Z.to_nat i)). rewrite Hz, Z2Nat.id in H by lia. apply H. unfold zlen in R. lia.
Qed.
Ltac imageTac secs :=
  constructor;
  [split; [vm_compute; reflexivity|now left]
  |apply Nat.ltb_lt; vm_compute; reflexivity
  |vm_compute; intuition congruence
  |eexists; reflexivity
  |exists (mkSSh 0 0 0 0 0 0 0 0 0 0), 1, (fst (nth 1 secs (mkSSh 0 0 0 0 0 0 0 0 0 0, []))); split; [|reflexivity]; constructor;
    [fat
    |eexists; eexists; reflexivity
    |vm_compute; discriminate
    |apply znth_all; intros k Hk; cbn [length secs] in Hk; do 6 (destruct k as [|k]; [cbn [nth_error secs fst]; first [exact I|split; [vm_compute; discriminate|vm_compute; reflexivity]]|]); lia
    |repeat (apply Forall_cons; [vm_compute; intuition congruence|]); apply Forall_nil
    |left; split; [vm_compute; split; reflexivity|reflexivity]
    |left; split; [lia|reflexivity]
    |eexists; reflexivity
    |vm_compute; intuition congruence
    |repeat (apply Forall_cons; [cbn [nth fst snd secs z_offset z_name]; txt|]); apply Forall_nil]
  |apply nodupb; vm_compute; reflexivity].
Definition C176_hA : sehdr := mkSEh ([127; 69; 76; 70; 2; 1; 1] ++ repeat 0 9) 3 62 1 0 0 355 0 64 56 0 64 6 1.
Definition C176_secsA : list (sshdr * list Z) := [
  (mkSSh 0 0 0 0 0 0 0 0 0 0, []);
  (mkSSh 1 3 0 0 64 43 0 0 1 0, [46; 115; 104; 115; 116; 114; 116; 97; 98]);
  (mkSSh 11 3 0 0 107 12 0 0 1 0, [46; 100; 121; 110; 115; 116; 114]);
  (mkSSh 19 11 0 0 119 144 2 0 1 0, [46; 100; 121; 110; 115; 121; 109]);
  (mkSSh 27 1879048182 0 0 263 52 3 0 1 0, [46; 103; 110; 117; 46; 104; 97; 115; 104]);
  (mkSSh 37 5 0 0 315 40 3 0 1 0, [46; 104; 97; 115; 104])].
Definition C176_fileA : list Z := ehdrBytes C176_hA ++ ([0; 46; 115; 104; 115; 116; 114; 116; 97; 98; 0; 46; 100; 121; 110; 115; 116; 114; 0; 46; 100; 121; 110; 115; 121; 109; 0; 46; 103; 110; 117; 46; 104; 97; 115; 104; 0; 46; 104; 97; 115; 104; 0]) ++ (C29_st) ++ (flat_map encodeSym C29_tab) ++ (encodeGT C29_gt) ++ (encodeHT C30_ht) ++ flat_map (fun s => shdrBytes (fst s)) C176_secsA.
Example C176_imageA : image (fun _ => None) (RFile C176_fileA) 2000 C176_fileA C176_hA C176_secsA.
Proof. imageTac C176_secsA. Qed.
Definition C176_hB : sehdr := mkSEh ([127; 69; 76; 70; 2; 1; 1] ++ repeat 0 9) 3 62 1 0 0 269 0 64 56 0 64 5 1.
Definition C176_secsB : list (sshdr * list Z) := [
  (mkSSh 0 0 0 0 0 0 0 0 0 0, []);
  (mkSSh 1 3 0 0 64 33 0 0 1 0, [46; 115; 104; 115; 116; 114; 116; 97; 98]);
  (mkSSh 11 3 0 0 97 12 0 0 1 0, [46; 100; 121; 110; 115; 116; 114]);
  (mkSSh 19 11 0 0 109 120 2 0 1 0, [46; 100; 121; 110; 115; 121; 109]);
  (mkSSh 27 5 0 0 229 40 3 0 1 0, [46; 104; 97; 115; 104])].
Definition C176_fileB : list Z := ehdrBytes C176_hB ++ ([0; 46; 115; 104; 115; 116; 114; 116; 97; 98; 0; 46; 100; 121; 110; 115; 116; 114; 0; 46; 100; 121; 110; 115; 121; 109; 0; 46; 104; 97; 115; 104; 0]) ++ (C29_st) ++ (flat_map encodeSym C30_tab) ++ (encodeHT C30_ht) ++ flat_map (fun s => shdrBytes (fst s)) C176_secsB.
Example C176_imageB : image (fun _ => None) (RFile C176_fileB) 2000 C176_fileB C176_hB C176_secsB.
Proof. imageTac C176_secsB. Qed.
Definition C176_hC : sehdr := mkSEh ([127; 69; 76; 70; 2; 1; 1] ++ repeat 0 9) 3 62 1 0 0 223 0 64 56 0 64 4 1.
Definition C176_secsC : list (sshdr * list Z) := [
  (mkSSh 0 0 0 0 0 0 0 0 0 0, []);
  (mkSSh 1 3 0 0 64 27 0 0 1 0, [46; 115; 104; 115; 116; 114; 116; 97; 98]);
  (mkSSh 11 3 0 0 91 12 0 0 1 0, [46; 100; 121; 110; 115; 116; 114]);
  (mkSSh 19 11 0 0 103 120 2 0 1 0, [46; 100; 121; 110; 115; 121; 109])].
Definition C176_fileC : list Z := ehdrBytes C176_hC ++ ([0; 46; 115; 104; 115; 116; 114; 116; 97; 98; 0; 46; 100; 121; 110; 115; 116; 114; 0; 46; 100; 121; 110; 115; 121; 109; 0]) ++ (C29_st) ++ (flat_map encodeSym C30_tab) ++ flat_map (fun s => shdrBytes (fst s)) C176_secsC.
Example C176_imageC : image (fun _ => None) (RFile C176_fileC) 2000 C176_fileC C176_hC C176_secsC.
Proof. imageTac C176_secsC. Qed.
Ltac strs := exists [46; 100; 121; 110; 115; 116; 114], 0; split; [sis|intros r; discriminate].
Example C176_nonvacuous : hashed C176_fileA C176_secsA dotGnuHash SHT_GNU_HASH (encodeGT C29_gt) C29_tab C29_st /\
  noSection C176_secsB dotGnuHash /\ hashed C176_fileB C176_secsB dotHash SHT_HASH (encodeHT C30_ht) C30_tab C29_st /\
  let find file secs := findDynamicSymbol tt (fun z i a f => (ZError, 0, [], tt)) true 2000 (fun _ => None) (RFile file) (sectionList secs) in
  find C176_fileA C176_secsA [98] = Ok (mkSym 7 17 0 24 8192 8, 3) /\ find C176_fileA C176_secsA [195; 169] = Ok (mkSym 9 18 0 12 4144 4, 5) /\
  find C176_fileA C176_secsA [99] = Ok (mkSym 0 0 0 0 0 0, 0) /\
  find C176_fileB C176_secsB [98] = Ok (mkSym 7 17 0 24 8200 8, 4) /\ find C176_fileB C176_secsB [99] = Ok (mkSym 0 0 0 0 0 0, 0).
Proof.
  split; [|split; [|split]].
  - exists 4, 3, 2, [46; 100; 121; 110; 115; 121; 109]. split; [sis|]. split; [sis|]. split; [intros r; discriminate|]. split; [strs|exact (proj1 (proj2 C29_nonvacuous))].
  - intros s Hs. repeat (destruct Hs as [<-|Hs]; [split; discriminate|]). destruct Hs.
  - exists 4, 3, 2, [46; 100; 121; 110; 115; 121; 109]. split; [sis|]. split; [sis|]. split; [intros r; discriminate|]. split; [strs|exact (proj1 (proj2 C30_nonvacuous))].
  - cbv zeta. repeat split; vm_compute; reflexivity.
Qed.
(** An image whose dynamic symbols include "foo", and that has neither table. *)
Example C176_no_table_nonvacuous : noSection C176_secsC dotGnuHash /\ noSection C176_secsC dotHash /\
  (exists i k, sectionIs C176_fileC C176_secsC i [46; 100; 121; 110; 115; 121; 109] 11 (flat_map encodeSym C30_tab) k /\ linkedStrings C176_fileC C176_secsC k C29_st) /\
  exists s, znth 2 C30_tab = Some s /\ ssName s = [102; 111; 111].
Proof.
  split; [|split; [|split]].
  - intros s Hs. repeat (destruct Hs as [<-|Hs]; [split; discriminate|]). destruct Hs.
  - intros s Hs. repeat (destruct Hs as [<-|Hs]; [split; discriminate|]). destruct Hs.
  - exists 3, 2. split; [sis|strs].
  - eexists. split; reflexivity.
Qed.
