(** Properties C112, C113, C117, C118: ELF images and their sections (see properties.jsonl). *)
From Coq Require Import Permutation Sorted.
From Verif Require Import Base Leb LebSpec DwarfReader DwarfReaderProofs Reader ReaderSpec ReaderProofs ReaderArray ReaderArrayProofs CfiSpec CfiProofs ElfHash ElfHashProofs ElfObj ElfFile ElfFileSpec ElfFileProofs ElfFileProofs2 ElfFileProofs3.

(** ** C112: the section header table *)
(** An image with a section header table, also one whose number of sections or string table index does not fit the ELF header: all its sections are
    found, with their headers and names, by the first call and every later one. *)
Fixpoint callsLater {zst} (zinit : zst) zinflate zlib fuel m io eh (n : nat) (st : option (list sec)) : option (list sec) :=
  match n with O => st | S n => callsLater zinit zinflate zlib fuel m io eh n (fst (sectionHeaders zinit zinflate zlib fuel m io eh st)) end.
Theorem C112_sections_partial : forall (zst : Type) (zinit : zst) zinflate zlib m io file fuel h first secs stri str,
  holdsImage m io file -> (length file < fuel)%nat -> ehdrOk h -> identElf64 (x_ident h) -> hasSections file h first secs stri str ->
  exists eh, readEhdr m io = Ok eh /\
  forall n, snd (sectionHeaders zinit zinflate zlib fuel m io eh (callsLater zinit zinflate zlib fuel m io eh n None)) =
    Ok (map (fun s => mkSec (mkShd (z_name (fst s)) (z_type (fst s)) (z_flags (fst s)) (z_addr (fst s)) (z_offset (fst s)) (z_size (fst s)) (z_link (fst s)) (z_info (fst s))) (Some (snd s))) secs).
Proof.
  intros zst zinit zi zl m io file fuel h first secs stri str HI Hf HO Hid HS. exists (ehS h).
  split; [apply (readEhdr_spec m io file); [assumption..|now apply identElf64_v1|exact (hs_header _ _ _ _ _ _ HS)]|].
  pose proof (sectionHeaders_spec zinit zi zl m io file HI fuel Hf h first secs stri str HO HS) as E.
  assert (G : forall n, callsLater zinit zi zl fuel m io (ehS h) n (Some (map secS secs)) = Some (map secS secs)) by (induction n as [|n IH]; [reflexivity|exact IH]).
  intros [|n]; cbn [callsLater]; rewrite E; [reflexivity|]. cbn [fst]. now rewrite G.
Qed.
Print Assumptions C112_sections_partial.
(** a concrete image: ELF header, ".shstrtab" as only text, and two headers *)
Definition C112_names : list Z := [0; 46; 115; 0].
Definition C112_h : sehdr := mkSEh ([127; 69; 76; 70; 2; 1; 1] ++ repeat 0 9) 3 62 1 0 0 68 0 64 56 0 64 2 1.
Definition C112_s0 : sshdr := mkSSh 0 0 0 0 0 0 0 0 0 0.
Definition C112_s1 : sshdr := mkSSh 1 3 0 0 64 4 0 0 1 0.
Definition C112_file : list Z := ehdrBytes C112_h ++ C112_names ++ shdrBytes C112_s0 ++ shdrBytes C112_s1.
Definition noZ (z : unit) (i : list Z) (a : Z) (f : bool) : zret * Z * list Z * unit := (ZError, 0, [], tt).
Example C112_nonvacuous : holdsImage (fun _ => None) (RFile C112_file) C112_file /\ ehdrOk C112_h /\ identElf64 (x_ident C112_h) /\
  hasSections C112_file C112_h C112_s0 [(C112_s0, []); (C112_s1, [46; 115])] 1 C112_s1.
Proof.
  split; [split; [vm_compute; reflexivity|now left]|]. split; [vm_compute; intuition congruence|]. split; [eexists; reflexivity|].
  constructor.
  - split; [lia|vm_compute; reflexivity].
  - eexists; eexists; reflexivity.
  - vm_compute; discriminate.
  - intros i s H. pose proof (znth_some _ _ _ H) as R. change (zlen [(C112_s0, @nil Z); (C112_s1, [46; 115])]) with 2 in R.
    assert (X : i = 0 \/ i = 1) by lia. destruct X as [-> | ->]; inversion H; subst; split; [cbn; lia|vm_compute; reflexivity|cbn; lia|vm_compute; reflexivity].
  - repeat (apply Forall_cons; [vm_compute; intuition congruence|]). apply Forall_nil.
  - left. split; [vm_compute; split; reflexivity|reflexivity].
  - left. split; [lia|reflexivity].
  - eexists; reflexivity.
  - vm_compute. intuition congruence.
  - apply Forall_cons; [|apply Forall_cons; [|apply Forall_nil]]; (split; [split; [cbn; lia|vm_compute; reflexivity]|]); [apply Forall_nil|].
    repeat (apply Forall_cons; [lia|]). apply Forall_nil.
Qed.
(** The same with extended numbering: e_shnum 0, e_shstrndx 0xffff *)
Definition C112_hx : sehdr := mkSEh ([127; 69; 76; 70; 2; 1; 1] ++ repeat 0 9) 3 62 1 0 0 68 0 64 56 0 64 0 65535.
Definition C112_s0x : sshdr := mkSSh 0 0 0 0 0 2 1 0 0 0.
Example C112_extended_nonvacuous : let file := ehdrBytes C112_hx ++ C112_names ++ shdrBytes C112_s0x ++ shdrBytes C112_s1 in
  countField 2 C112_s0x (x_shnum C112_hx) /\ strndxField 1 C112_s0x (x_shstrndx C112_hx) /\
  (let* eh := readEhdr (fun _ => None) (RFile file) in snd (sectionHeaders tt noZ true 400 (fun _ => None) (RFile file) eh None)) =
    Ok [mkSec (mkShd 0 0 0 0 0 2 1 0) (Some []); mkSec (mkShd 1 3 0 0 64 4 0 0) (Some [46; 115])].
Proof. cbv zeta. split; [right; split; [lia|split; reflexivity]|]. split; [right; split; [lia|split; reflexivity]|]. vm_compute. reflexivity. Qed.
(** Refuted: an image without a section header table (e_shoff and e_shnum 0; gABI) has no sections.  If e_shentsize is set, the ELF header itself is
    taken for the first section header, its e_phoff for the number of sections, and whatever follows for the others. *)
Definition C112_hn : sehdr := mkSEh ([127; 69; 76; 70; 2; 1; 1] ++ repeat 0 9) 3 62 1 0 64 0 0 64 56 1 64 0 0.
Theorem C112_no_table_refuted : exists file h, holdsImage (fun _ => None) (RFile file) file /\ ehdrOk h /\ identElf64 (x_ident h) /\
  fileAt file 0 (ehdrBytes h) /\ x_shoff h = 0 /\ x_shnum h = 0 /\ x_shstrndx h = 0 /\
  exists s r, snd (sectionHeaders tt noZ true 5000 (fun _ => None) (RFile file) (ehS h) None) = Ok (s :: r) /\ length r = 63%nat /\ h_type (secHdr s) <> 0.
Proof.
  exists (ehdrBytes C112_hn ++ repeat 0 4032), C112_hn. split; [split; [vm_compute; reflexivity|now left]|]. split; [vm_compute; intuition congruence|]. split; [eexists; reflexivity|].
  split; [split; [lia|vm_compute; reflexivity]|]. do 3 (split; [reflexivity|]).
  eexists; eexists. split; [vm_compute; reflexivity|]. split; [reflexivity|]. vm_compute. discriminate.
Qed.
Print Assumptions C112_no_table_refuted.
(** Refuted: a call that fails leaves nothing behind.  If the table is cut short, the first call throws, and later ones return the sections read
    before (without names); if not even one header can be read they return an empty list, whose first element getSection then uses. *)
Definition C112_cut (n : nat) : list Z := firstn n C112_file.
Theorem C112_failure_forgotten_refuted : exists eh,
  readEhdr (fun _ => None) (RFile (C112_cut 140)) = Ok eh /\ readEhdr (fun _ => None) (RFile (C112_cut 80)) = Ok eh /\
  (let r := sectionHeaders tt noZ true 500 (fun _ => None) (RFile (C112_cut 140)) eh None in
   snd r = Throw /\ snd (sectionHeaders tt noZ true 500 (fun _ => None) (RFile (C112_cut 140)) eh (fst r)) = Ok [mkSec nullShd None]) /\
  (let r := sectionHeaders tt noZ true 500 (fun _ => None) (RFile (C112_cut 80)) eh None in
   snd r = Throw /\ snd (sectionHeaders tt noZ true 500 (fun _ => None) (RFile (C112_cut 80)) eh (fst r)) = Ok []).
Proof.
  eexists. split; [vm_compute; reflexivity|]. split; [vm_compute; reflexivity|]. cbv zeta. split; split; vm_compute; reflexivity.
Qed.
Print Assumptions C112_failure_forgotten_refuted.
(** Refuted: a bad e_shstrndx is reported.  It is used unchecked. *)
Theorem C112_bad_strndx_refuted : exists file h, holdsImage (fun _ => None) (RFile file) file /\ ehdrOk h /\ fileAt file 0 (ehdrBytes h) /\ x_shnum h <= x_shstrndx h < 65280 /\
  snd (sectionHeaders tt noZ true 500 (fun _ => None) (RFile file) (ehS h) None) = UB.
Proof.
  pose (h := mkSEh ([127; 69; 76; 70; 2; 1; 1] ++ repeat 0 9) 3 62 1 0 0 68 0 64 56 0 64 2 7).
  exists (ehdrBytes h ++ C112_names ++ shdrBytes C112_s0 ++ shdrBytes C112_s1), h. split; [split; [vm_compute; reflexivity|now left]|]. split; [vm_compute; intuition congruence|].
  split; [split; [lia|vm_compute; reflexivity]|]. split; [cbn; lia|]. vm_compute. reflexivity.
Qed.
Print Assumptions C112_bad_strndx_refuted.

(** ** C113: section contents *)
(** A section that is not compressed: the bytes of the file, and only those. *)
Theorem C113_plain : forall (zst : Type) (zinit : zst) zinflate zlib m io file fuel h name,
  holdsImage m io file -> h_type h <> 0 -> Z.land (h_flags h) 2048 = 0 -> startsWith [46; 122; 100; 101; 98; 117; 103; 95] name = false ->
  0 <= h_offset h -> 0 <= h_size h -> h_offset h + h_size h <= zlen file ->
  exists i, sectionIo zinit zinflate zlib fuel m io h name = Ok i /\ ioSize i = h_size h /\
  forall off n, 0 <= off <= h_size h -> 0 <= n < 2 ^ 62 -> ioRead m i off n = Ok (ztake n (zdrop off (ztake (h_size h) (zdrop (h_offset h) file)))).
Proof.
  intros zst zinit zi zl m io file fuel h name HI H1 H2 H3 H4 H5 H6. pose proof (img_len m io file HI) as HL. eexists. split; [unfold sectionIo; destruct (h_type h =? 0) eqn:E; [lia|]; rewrite H2; cbn [Z.eqb negb]; change zdebugName with [46; 122; 100; 101; 98; 117; 103; 95]; rewrite H3; reflexivity|]. split; [apply (view_size m io file HI); lia|].
  intros off n Ho Hn. apply (view_read m io file HI); try assumption; lia.
Qed.
Print Assumptions C113_plain.
(** A section compressed with zlib (SHF_COMPRESSED, gABI): exactly the decompressed data, if that is less than 4 GiB. *)
Lemma window_prefix file o l c : 0 <= l -> o + l <= zlen file -> fileAt file o c -> zlen c <= l -> ztake (zlen (ztake l (zdrop o file))) c = ztake (zlen c) (ztake l (zdrop o file)).
Proof.
  intros Hl Hb [Ho E] Hc. rewrite ztake_zdrop_len by lia. rewrite ztake_all by lia. rewrite ztake_ztake by lia. now symmetry.
Qed.
Lemma window_read m io file o l : holdsImage m io file -> 0 <= o -> 0 <= l -> o + l <= zlen file -> forall off, 0 <= off <= zlen (ztake l (zdrop o file)) ->
  rread m (rview io o l) off 32768 = Ok (ztake 32768 (zdrop off (ztake l (zdrop o file)))).
Proof. intros HI Ho Hl Hb off H. rewrite ztake_zdrop_len in H by lia. apply (view_read m io file HI); try lia. unfold W64. lia. Qed.
Definition chdrBytes (type reserved size align : Z) : list Z := leBytes 4 type ++ leBytes 4 reserved ++ leBytes 8 size ++ leBytes 8 align.
Section Compressed.
Context {zst : Type} (zinit : zst) (step : zst -> list Z -> Z -> bool -> zret * Z * list Z * zst) (c d : list Z) (st : Z -> Z -> zst -> Prop).
Context (ZC : zcontract step c d st) (Hinit : st 0 0 zinit).
Context (m : memory) (io : reader) (file : list Z) (HI : holdsImage m io file).
Lemma chdr_io h name fuel type reserved align rest : h_type h <> 0 -> Z.land (h_flags h) 2048 = 2048 -> 0 <= h_offset h -> h_offset h + h_size h <= zlen file ->
  zlen d < 2 ^ 64 -> zlen (chdrBytes type reserved (zlen d) align ++ c ++ rest) = h_size h -> fileAt file (h_offset h) (chdrBytes type reserved (zlen d) align ++ c ++ rest) ->
  sectionIo zinit step true fuel m io h name =
    (let* x := inflateReader zinit step fuel (zlen d) (rread m (rview io (h_offset h + 24) (h_size h - 24))) in Ok (IoMem x)) /\
  fileAt file (h_offset h + 24) c /\ 24 + zlen c <= h_size h.
Proof.
  intros T F O B D L A. pose proof (img_len m io file HI) as HL. pose proof (zlen_nonneg c) as C0. pose proof (zlen_nonneg rest) as R0.
  assert (CL : zlen (chdrBytes type reserved (zlen d) align) = 24) by (unfold chdrBytes; rewrite !zlen_app, !leBytes_len; reflexivity).
  rewrite !zlen_app, CL in L. split; [|split; [|lia]].
  - unfold sectionIo. destruct (h_type h =? 0) eqn:E; [lia|]. rewrite F. change (2048 =? 0) with false. cbn [negb]. cbv iota.
    rewrite (view_obj m io file HI) by lia. cbn [bind].
    assert (E2 : ztake 24 (zdrop 0 (ztake (h_size h) (zdrop (h_offset h) file))) = chdrBytes type reserved (zlen d) align).
    { rewrite zdrop_neg by lia. rewrite ztake_ztake by lia. apply fileAt_slice; [|exact CL]. pose proof (fileAt_sub file (h_offset h) [] (chdrBytes type reserved (zlen d) align) (c ++ rest) A) as G.
      now replace (h_offset h + zlen []) with (h_offset h) in G by (change (zlen (@nil Z)) with 0; lia). }
    rewrite E2. assert (E3 : fld 8 (chdrBytes type reserved (zlen d) align) 8 = zlen d).
    { unfold chdrBytes. pose proof (conj (zlen_nonneg d) D : 0 <= zlen d < 256 ^ Z.of_nat 8) as DD. fldgo. }
    rewrite E3, (view_view m io file HI) by lia. rewrite u64_id by (unfold isU64, W64 in *; lia). reflexivity.
  - pose proof (fileAt_sub file (h_offset h) (chdrBytes type reserved (zlen d) align) c rest A) as G. now rewrite CL in G.
Qed.
Lemma zdbg_io h name fuel rest : h_type h <> 0 -> Z.land (h_flags h) 2048 = 0 -> startsWith [46; 122; 100; 101; 98; 117; 103; 95] name = true ->
  0 <= h_offset h -> h_offset h + h_size h <= zlen file -> zlen d < 2 ^ 64 ->
  zlen ([90; 76; 73; 66] ++ rev (leBytes 8 (zlen d)) ++ c ++ rest) = h_size h -> fileAt file (h_offset h) ([90; 76; 73; 66] ++ rev (leBytes 8 (zlen d)) ++ c ++ rest) ->
  sectionIo zinit step true fuel m io h name =
    (let* x := inflateReader zinit step fuel (zlen d) (rread m (rview io (h_offset h + 12) (zlen d))) in Ok (IoMem x)) /\
  fileAt file (h_offset h + 12) c /\ 12 + zlen c <= h_size h.
Proof.
  intros T F N O B D L A. pose proof (img_len m io file HI) as HL. pose proof (zlen_nonneg c) as C0. pose proof (zlen_nonneg rest) as R0.
  set (sg := [90; 76; 73; 66] ++ rev (leBytes 8 (zlen d))) in *.
  assert (SL : zlen sg = 12) by (unfold sg; rewrite zlen_app; unfold zlen at 2; rewrite rev_length; pose proof (leBytes_len 8 (zlen d)) as X; unfold zlen at 1 in X; rewrite X; reflexivity).
  assert (RA : [90; 76; 73; 66] ++ rev (leBytes 8 (zlen d)) ++ c ++ rest = sg ++ c ++ rest) by (unfold sg; rewrite <- app_assoc; reflexivity). rewrite RA in *.
  rewrite !zlen_app, SL in L. split; [|split; [|lia]].
  - unfold sectionIo. destruct (h_type h =? 0) eqn:E; [lia|]. rewrite F. change (0 =? 0) with true. cbn [negb]. cbv iota. change zdebugName with [46; 122; 100; 101; 98; 117; 103; 95]. rewrite N.
    unfold readObj. change (12 =? 0) with false. change (u64 (12 * 1)) with 12. cbv iota. rewrite (view_read m io file HI) by (unfold W64 in *; lia). cbn [bind].
    assert (E2 : ztake 12 (zdrop 0 (ztake (h_size h) (zdrop (h_offset h) file))) = sg).
    { rewrite zdrop_neg by lia. rewrite ztake_ztake by lia. apply fileAt_slice; [|exact SL]. pose proof (fileAt_sub file (h_offset h) [] sg (c ++ rest) A) as G.
      now replace (h_offset h + zlen []) with (h_offset h) in G by (change (zlen (@nil Z)) with 0; lia). }
    rewrite E2, SL. change (12 =? 12) with true. cbv iota. cbn [bind]. unfold sg at 1.
    assert (E4 : ztake 4 ([90; 76; 73; 66] ++ rev (leBytes 8 (zlen d))) = [90; 76; 73; 66]) by (apply (ztake_app_zlen [90; 76; 73; 66])).
    rewrite E4. rewrite (proj2 (beq_spec [90; 76; 73; 66] [90; 76; 73; 66]) eq_refl). cbv iota.
    assert (E5 : beWord 0 (zdrop 4 sg) = zlen d).
    { unfold sg. change 4 with (zlen [90; 76; 73; 66]). rewrite zdrop_app_zlen.
      assert (EQ : forall bs acc, beWord acc bs = shiftOr acc bs) by (induction bs as [|b bs IHb]; intros acc; cbn; auto). rewrite EQ. change 0 with (u64 0).
      assert (FB : Forall isByte (leBytes 8 (zlen d))) by apply leBytes_byte. rewrite shiftOr_val by now apply Forall_rev. rewrite rev_involutive, leValue_leBytes by (split; [apply zlen_nonneg|exact D]).
      rewrite Z.mul_0_l, Z.add_0_l. apply u64_id. split; [apply zlen_nonneg|exact D]. }
    rewrite E5, (view_view m io file HI) by lia. reflexivity.
  - pose proof (fileAt_sub file (h_offset h) sg c rest A) as G. now rewrite SL in G.
Qed.
End Compressed.
Theorem C113_compressed_partial : forall (zst : Type) (zinit : zst) step c d st m io file h name fuel reserved align rest,
  zcontract step c d st -> st 0 0 zinit -> holdsImage m io file -> (length file < fuel)%nat ->
  h_type h <> 0 -> Z.land (h_flags h) 2048 = 2048 -> 0 <= h_offset h -> h_offset h + h_size h <= zlen file ->
  zlen (chdrBytes 1 reserved (zlen d) align ++ c ++ rest) = h_size h -> fileAt file (h_offset h) (chdrBytes 1 reserved (zlen d) align ++ c ++ rest) ->
  zlen d < 2 ^ 32 -> sectionIo zinit step true fuel m io h name = Ok (IoMem d).
Proof.
  intros zst zinit step c d st m io file h name fuel rs al rest ZC Hi HI Hf T F O B L A D. pose proof (img_len m io file HI) as HL. pose proof (zlen_nonneg c) as C0.
  assert (D64 : zlen d < 2 ^ 64) by (change (2 ^ 64) with W64; change (2 ^ 32) with W32 in D; unfold W64, W32 in *; lia).
  destruct (chdr_io zinit step c d m io file HI h name fuel 1 rs al rest T F O B D64 L A) as (E & A2 & LL). rewrite E.
  rewrite (inflate_complete zinit step c d st ZC Hi _ (ztake (h_size h - 24) (zdrop (h_offset h + 24) file))).
  - cbn [bind]. rewrite Z.sub_diag. cbn [Z.to_nat repeat]. now rewrite app_nil_r.
  - apply (window_read m io file); [assumption|lia..].
  - rewrite ztake_zdrop_len by lia. unfold W64 in *. lia.
  - apply window_prefix; [lia|lia|assumption|lia].
  - rewrite ztake_zdrop_len by lia. lia.
  - change W32 with (2 ^ 32). lia.
  - pose proof (fileAt_len _ _ _ A) as G. rewrite L in G. assert (chdrBytes 1 rs (zlen d) al ++ c ++ rest <> []) by (unfold chdrBytes; discriminate). specialize (G H). unfold zlen in *. lia.
Qed.
Print Assumptions C113_compressed_partial.
(** The older form (".zdebug_..." with "ZLIB" and a big-endian size): likewise, if the compressed data is no longer than the decompressed data and as many
    bytes as that follow in the file. *)
Theorem C113_zdebug_partial : forall (zst : Type) (zinit : zst) step c d st m io file h name fuel rest,
  zcontract step c d st -> st 0 0 zinit -> holdsImage m io file -> (length file < fuel)%nat ->
  h_type h <> 0 -> Z.land (h_flags h) 2048 = 0 -> startsWith [46; 122; 100; 101; 98; 117; 103; 95] name = true -> 0 <= h_offset h -> h_offset h + h_size h <= zlen file ->
  zlen ([90; 76; 73; 66] ++ rev (leBytes 8 (zlen d)) ++ c ++ rest) = h_size h -> fileAt file (h_offset h) ([90; 76; 73; 66] ++ rev (leBytes 8 (zlen d)) ++ c ++ rest) ->
  zlen c <= zlen d < 2 ^ 32 -> h_offset h + 12 + zlen d <= zlen file ->
  sectionIo zinit step true fuel m io h name = Ok (IoMem d).
Proof.
  intros zst zinit step c d st m io file h name fuel rest ZC Hi HI Hf T F N O B L A D R. pose proof (img_len m io file HI) as HL. pose proof (zlen_nonneg c) as C0.
  assert (D64 : zlen d < 2 ^ 64) by (change (2 ^ 64) with W64; change (2 ^ 32) with W32 in D; unfold W64, W32 in *; lia).
  destruct (zdbg_io zinit step c d m io file HI h name fuel rest T F N O B D64 L A) as (E & A2 & LL). rewrite E.
  rewrite (inflate_complete zinit step c d st ZC Hi _ (ztake (zlen d) (zdrop (h_offset h + 12) file))).
  - cbn [bind]. rewrite Z.sub_diag. cbn [Z.to_nat repeat]. now rewrite app_nil_r.
  - apply (window_read m io file); [assumption|lia..].
  - rewrite ztake_zdrop_len by lia. unfold W64 in *. lia.
  - apply window_prefix; [lia|lia|assumption|lia].
  - rewrite ztake_zdrop_len by lia. lia.
  - change W32 with (2 ^ 32). lia.
  - unfold zlen in *. lia.
Qed.
Print Assumptions C113_zdebug_partial.
(** What the reader of a decompressed section does: it has the size of the data; every read inside it (also one that starts at its end) gives the bytes there,
    cut off at the end; a read beyond it fails; every string in it is read up to its NUL. *)
Theorem C113_contents : forall m fuel d off n, 0 <= off -> 0 <= n ->
  ioSize (IoMem d) = zlen d /\
  (off <= zlen d -> ioRead m (IoMem d) off n = Ok (ztake n (zdrop off d))) /\
  (zlen d < off -> ioRead m (IoMem d) off n = Throw) /\
  (forall t, textAt d off t -> ioString fuel m (IoMem d) off = Ok t).
Proof.
  intros m fuel d off n Ho Hn. split; [reflexivity|]. split; [|split].
  - intros H. cbn [ioRead]. destruct (off >? zlen d) eqn:E; [lia|reflexivity].
  - intros H. cbn [ioRead]. destruct (off >? zlen d) eqn:E; [reflexivity|lia].
  - intros t Ht. cbn [ioString]. pose proof (textAt_len _ off t Ht) as [X Y]. pose proof (zlen_nonneg t). destruct (off >? zlen d) eqn:E; [lia|].
    destruct Ht as [[_ E2] F]. rewrite <- (ztake_zdrop (zlen (t ++ [0])) (zdrop off d)), E2, <- app_assoc. cbn [app]. now rewrite nulText_text.
Qed.
Print Assumptions C113_contents.
Example C113_contents_case : textAt [7; 65; 66; 0; 9] 1 [65; 66] /\ ioRead (fun _ => None) (IoMem [7; 8; 9]) 3 4 = Ok [].
Proof. split; [|reflexivity]. split; [split; [lia|vm_compute; reflexivity]|]. repeat constructor; discriminate. Qed.
(** A decoder meeting the contract: data stored as it is. *)
Definition storedStep (d : list Z) (i : Z) (inp : list Z) (avail : Z) (fin : bool) : zret * Z * list Z * Z :=
  let k := Z.min (zlen inp) (Z.min avail (zlen d - i)) in
  (if i + k =? zlen d then ZStreamEnd else if (0 <? k) && negb fin then ZOk else ZError, k, ztake k inp, i + k).
Lemma stored_contract : forall d, zcontract (storedStep d) d d (fun i o z => z = i /\ o = i /\ 0 <= i <= zlen d).
Proof.
  intros d. constructor.
  - intros i o z inp avail fin ret used out z' (-> & -> & R) Ha HC H. unfold storedStep in H. inversion H; subst; clear H. pose proof (zlen_nonneg inp) as N0.
    set (k := Z.min (zlen inp) (Z.min avail (zlen d - i))) in *. assert (Lk : zlen (ztake k inp) = k) by (rewrite zlen_ztake by lia; lia). rewrite Lk.
    split; [lia|]. split; [lia|]. split; [lia|]. split; [lia|]. split.
    { rewrite <- (ztake_ztake inp k (zlen d - i)) by lia. rewrite HC. apply ztake_ztake. lia. }
    split; [intros _; lia|]. split; [intros X; destruct (i + k =? zlen d) eqn:E; [lia|destruct ((0 <? k) && negb fin); discriminate]|].
    intros X. destruct (i + k =? zlen d) eqn:E; [discriminate|]. destruct (0 <? k) eqn:E2; [|discriminate]. destruct fin; [discriminate|]. split; [reflexivity|lia].
  - intros i o z inp avail fin ret used out z' (-> & -> & R) Ha Hl HC H. unfold storedStep in H. inversion H; subst; clear H. destruct (i + _ =? zlen d) eqn:E; [reflexivity|lia].
  - intros i o z inp avail ret used out z' (-> & -> & R) Ha Hl HC H. unfold storedStep in H. inversion H; subst; clear H. destruct (i + _ =? zlen d) eqn:E; [lia|]. destruct (0 <? _) eqn:E2; [|lia]. split; [reflexivity|lia].
Qed.
Definition C113_file : list Z := [0; 0; 0; 0] ++ chdrBytes 1 0 3 1 ++ [7; 8; 9] ++ [1; 1].
Example C113_nonvacuous : zcontract (storedStep [7; 8; 9]) [7; 8; 9] [7; 8; 9] (fun i o z => z = i /\ o = i /\ 0 <= i <= 3) /\
  holdsImage (fun k => if (1000 <=? k) && (k <? 1033) then znth (k - 1000) C113_file else None) (RMem 1000 33) C113_file /\
  fileAt C113_file 4 (chdrBytes 1 0 3 1 ++ [7; 8; 9] ++ [1; 1]) /\
  sectionIo 0 (storedStep [7; 8; 9]) true 40 (fun k => if (1000 <=? k) && (k <? 1033) then znth (k - 1000) C113_file else None) (RMem 1000 33) (mkShd 0 1 2048 0 4 29 0 0) [] = Ok (IoMem [7; 8; 9]).
Proof.
  split; [exact (stored_contract [7; 8; 9])|]. split.
  { split; [vm_compute; reflexivity|]. right. exists 1000. split; [reflexivity|]. split; [lia|]. split; [vm_compute; reflexivity|]. intros k Hk. change (zlen C113_file) with 33 in Hk.
    replace (1000 <=? 1000 + k) with true by lia. replace (1000 + k <? 1033) with true by lia. cbn [andb]. f_equal. lia. }
  split; [split; [lia|vm_compute; reflexivity]|]. vm_compute. reflexivity.
Qed.
(** Refuted: any validly compressed section is decompressed.  (1) Decompressed data of 4 GiB or more does not come out: the space given to zlib is counted in
    32 bits. *)
Theorem C113_large_refuted : forall (zst : Type) (zinit : zst) step c d st m io file h name fuel reserved align rest,
  zcontract step c d st -> st 0 0 zinit -> holdsImage m io file ->
  h_type h <> 0 -> Z.land (h_flags h) 2048 = 2048 -> 0 <= h_offset h -> h_offset h + h_size h <= zlen file ->
  zlen (chdrBytes 1 reserved (zlen d) align ++ c ++ rest) = h_size h -> fileAt file (h_offset h) (chdrBytes 1 reserved (zlen d) align ++ c ++ rest) ->
  2 ^ 32 <= zlen d < 2 ^ 64 -> forall i, sectionIo zinit step true fuel m io h name <> Ok i.
Proof.
  intros zst zinit step c d st m io file h name fuel rs al rest ZC Hi HI T F O B L A D i H. pose proof (img_len m io file HI) as HL. pose proof (zlen_nonneg c) as C0.
  destruct (chdr_io zinit step c d m io file HI h name fuel 1 rs al rest T F O B ltac:(lia) L A) as (E & A2 & LL). rewrite E in H.
  destruct (inflateReader zinit step fuel (zlen d) (rread m (rview io (h_offset h + 24) (h_size h - 24)))) as [r| | |] eqn:EI; try discriminate.
  apply (inflate_sound zinit step c d st ZC Hi _ (ztake (h_size h - 24) (zdrop (h_offset h + 24) file))) in EI as (_ & E2 & _).
  - pose proof (u32_range (zlen d)) as [_ U]. change (2 ^ 32) with W32 in D. unfold isU32 in U. lia.
  - apply (window_read m io file); [assumption|lia..].
  - rewrite ztake_zdrop_len by lia. unfold W64 in *. lia.
  - apply window_prefix; [lia|lia|assumption|lia].
  - lia.
Qed.
Print Assumptions C113_large_refuted.
(** (2) A ".zdebug_" section whose compressed data is longer than the decompressed data never comes out: only as many bytes as the latter are read. *)
Theorem C113_incompressible_refuted : forall (zst : Type) (zinit : zst) step c d st m io file h name fuel rest,
  zcontract step c d st -> st 0 0 zinit -> holdsImage m io file ->
  h_type h <> 0 -> Z.land (h_flags h) 2048 = 0 -> startsWith [46; 122; 100; 101; 98; 117; 103; 95] name = true -> 0 <= h_offset h -> h_offset h + h_size h <= zlen file ->
  zlen ([90; 76; 73; 66] ++ rev (leBytes 8 (zlen d)) ++ c ++ rest) = h_size h -> fileAt file (h_offset h) ([90; 76; 73; 66] ++ rev (leBytes 8 (zlen d)) ++ c ++ rest) ->
  zlen d < zlen c -> forall i, sectionIo zinit step true fuel m io h name <> Ok i.
Proof.
  intros zst zinit step c d st m io file h name fuel rest ZC Hi HI T F N O B L A D i H. pose proof (img_len m io file HI) as HL. pose proof (zlen_nonneg d) as D0.
  assert (D64 : zlen d < 2 ^ 64). { change (2 ^ 64) with W64. rewrite !zlen_app in L. pose proof (zlen_nonneg rest). pose proof (zlen_nonneg (rev (leBytes 8 (zlen d)))). pose proof (zlen_nonneg [90; 76; 73; 66]). unfold W64 in *. lia. }
  destruct (zdbg_io zinit step c d m io file HI h name fuel rest T F N O B D64 L A) as (E & A2 & LL). rewrite E in H.
  destruct (inflateReader zinit step fuel (zlen d) (rread m (rview io (h_offset h + 12) (zlen d)))) as [r| | |] eqn:EI; try discriminate.
  apply (inflate_sound zinit step c d st ZC Hi _ (ztake (zlen d) (zdrop (h_offset h + 12) file))) in EI as (E2 & _ & _).
  - rewrite ztake_zdrop_len in E2 by lia. lia.
  - apply (window_read m io file); [assumption|lia..].
  - rewrite ztake_zdrop_len by lia. unfold W64 in *. lia.
  - rewrite ztake_zdrop_len by lia. destruct A2 as [_ A2]. rewrite (ztake_all (zlen c)) by (rewrite ztake_zdrop_len by lia; lia). rewrite <- A2. apply ztake_ztake. lia.
  - lia.
Qed.
Print Assumptions C113_incompressible_refuted.
(** (3) Of a ".zdebug_" section as many bytes are read as it decompresses to; if the (mapped) file ends before that, memory outside it is read. *)
Definition C113_zfile : list Z := [0; 0; 0; 0] ++ [90; 76; 73; 66] ++ rev (leBytes 8 3) ++ [7] ++ [1].
Definition C113_zmem : memory := fun k => if (1000 <=? k) && (k <? 1018) then znth (k - 1000) C113_zfile else None.
Theorem C113_overread_refuted : forall step : Z -> list Z -> Z -> bool -> zret * Z * list Z * Z,
  holdsImage C113_zmem (RMem 1000 18) C113_zfile /\ fileAt C113_zfile 4 ([90; 76; 73; 66] ++ rev (leBytes 8 3) ++ [7]) /\
  sectionIo 0 step true 40 C113_zmem (RMem 1000 18) (mkShd 0 1 0 0 4 13 0 0) [46; 122; 100; 101; 98; 117; 103; 95; 105] = UB.
Proof.
  intros step. split.
  { split; [vm_compute; reflexivity|]. right. exists 1000. split; [reflexivity|]. split; [lia|]. split; [vm_compute; reflexivity|]. intros k Hk. change (zlen C113_zfile) with 18 in Hk.
    unfold C113_zmem. replace (1000 <=? 1000 + k) with true by lia. replace (1000 + k <? 1018) with true by lia. cbn [andb]. f_equal. lia. }
  split; [split; [lia|vm_compute; reflexivity]|]. reflexivity.
Qed.
Print Assumptions C113_overread_refuted.

(** ** C117: opening an image *)
(** An ELF64 image is accepted, and its program headers are those of its table: by type, in order of address. *)
Definition sortsByVaddr (srt : list phdr -> list phdr) : Prop := forall l, Permutation (srt l) l /\ StronglySorted (fun a b => p_vaddr a <= p_vaddr b) (srt l).
Theorem C117_program_headers_partial : forall m io file h hs srt,
  holdsImage m io file -> ehdrOk h -> identElf64 (x_ident h) -> fileAt file 0 (ehdrBytes h) ->
  x_phnum h = zlen hs -> x_phoff h <= zlen file -> Forall phdrOk hs -> fileAt file (x_phoff h) (flat_map phdrBytes hs) -> sortsByVaddr srt ->
  exists eh l, readEhdr m io = Ok eh /\ readPhdrs m io eh = Ok l /\
    l = map (fun y => mkPh (y_type y) (y_offset y) (y_vaddr y) (y_filesz y) (y_memsz y)) hs /\
    forall type, Permutation (segmentsOf srt l type) (filter (fun x => p_type x =? type) l) /\ StronglySorted (fun a b => p_vaddr a <= p_vaddr b) (segmentsOf srt l type).
Proof.
  intros m io file h hs srt HI HO Hid HF Hn Hp Hok HA HS. exists (ehS h), (map phS hs).
  split; [apply (readEhdr_spec m io file); [assumption..|now apply identElf64_v1|assumption]|]. split; [now apply (readPhdrs_spec m io file)|]. split; [reflexivity|].
  intros type. apply HS.
Qed.
Print Assumptions C117_program_headers_partial.
(** The interpreter is the text the (only) PT_INTERP header points to; without one there is none. *)
Theorem C117_interpreter : forall m io file fuel l srt, holdsImage m io file -> (length file < fuel)%nat -> sortsByVaddr srt ->
  (filter (fun x => p_type x =? 3) l = [] -> getInterpreter fuel m io srt l = Ok []) /\
  (forall x t, filter (fun x => p_type x =? 3) l = [x] -> 0 < p_offset x -> textAt file (p_offset x) t -> getInterpreter fuel m io srt l = Ok t).
Proof.
  intros m io file fuel l srt HI Hf HS. unfold getInterpreter, segmentsOf. split.
  - intros ->. destruct (HS []) as [P _]. apply Permutation_sym, Permutation_nil in P. now rewrite P.
  - intros x t -> Ho Ht. destruct (HS [x]) as [P _]. apply Permutation_sym, Permutation_length_1_inv in P. rewrite P. now apply (img_string m io file HI).
Qed.
Print Assumptions C117_interpreter.
(** endVA is the end of the highest loadable segment, if they do not overlap. *)
Theorem C117_end_of_image : forall l srt, sortsByVaddr srt ->
  (forall x, In x l -> p_type x = 1 -> 0 <= p_vaddr x /\ 0 < p_memsz x /\ p_vaddr x + p_memsz x < 2 ^ 64) ->
  (forall x y, In x l -> In y l -> p_type x = 1 -> p_type y = 1 -> x = y \/ p_vaddr x + p_memsz x <= p_vaddr y \/ p_vaddr y + p_memsz y <= p_vaddr x) ->
  (filter (fun x => p_type x =? 1) l = [] -> endVA srt l = Throw) /\
  (filter (fun x => p_type x =? 1) l <> [] -> exists x, In x l /\ p_type x = 1 /\ endVA srt l = Ok (p_vaddr x + p_memsz x) /\
     forall y, In y l -> p_type y = 1 -> p_vaddr y + p_memsz y <= p_vaddr x + p_memsz x).
Proof.
  intros l srt HS HB HD. unfold endVA, segmentsOf. split.
  - intros ->. destruct (HS []) as [P _]. apply Permutation_sym, Permutation_nil in P. now rewrite P.
  - intros NE. destruct (HS (filter (fun x => p_type x =? 1) l)) as [P S]. set (q := srt (filter (fun x => p_type x =? 1) l)) in *.
    assert (IN : forall x, In x q <-> In x l /\ p_type x = 1).
    { intros x. split.
      - intros H. apply (Permutation_in _ P) in H. apply filter_In in H as [H1 H2]. split; [exact H1|lia].
      - intros [H1 H2]. apply (Permutation_in _ (Permutation_sym P)). apply filter_In. split; [exact H1|lia]. }
    destruct (rev q) as [|x r] eqn:E.
    { exfalso. apply NE. apply (f_equal (@length phdr)) in E. rewrite rev_length in E. apply Permutation_length in P. destruct (filter (fun x => p_type x =? 1) l); [reflexivity|]. cbn in *. lia. }
    assert (Eq : q = rev r ++ [x]) by (rewrite <- (rev_involutive q), E; reflexivity).
    assert (Hx : In x l /\ p_type x = 1) by (apply IN; rewrite Eq; apply in_or_app; right; left; reflexivity).
    exists x. destruct Hx as [X1 X2]. split; [exact X1|]. split; [exact X2|]. split.
    + f_equal. unfold phEnd. apply u64_id. destruct (HB x X1 X2) as (B1 & B2 & B3). change (2 ^ 64) with W64 in B3. unfold isU64. lia.
    + intros y Y1 Y2. assert (Hy : In y q) by now apply IN. rewrite Eq in Hy. apply in_app_or in Hy. destruct Hy as [Hy|[->|[]]]; [|lia].
      assert (p_vaddr y <= p_vaddr x).
      { rewrite Eq in S. clear -S Hy. induction (rev r) as [|a t IH]; [destruct Hy|]. cbn [app] in S. inversion S; subst. destruct Hy as [->|Hy]; [|now apply IH].
        rewrite Forall_forall in H2. apply H2. apply in_or_app. right. left. reflexivity. }
      destruct (HB x X1 X2) as (B1 & B2 & B3). destruct (HB y Y1 Y2) as (B4 & B5 & B6). destruct (HD x y X1 Y1 X2 Y2) as [->|[?|?]]; lia.
Qed.
Print Assumptions C117_end_of_image.
(** Program headers exist that do all this *)
Fixpoint insPh (x : phdr) (l : list phdr) : list phdr := match l with [] => [x] | y :: r => if p_vaddr x <=? p_vaddr y then x :: l else y :: insPh x r end.
Fixpoint sortPh (l : list phdr) : list phdr := match l with [] => [] | x :: r => insPh x (sortPh r) end.
Lemma sortPh_sorts : sortsByVaddr sortPh.
Proof.
  assert (P1 : forall x l, Permutation (insPh x l) (x :: l)).
  { intros x. induction l as [|y l IH]; cbn [insPh]; [apply Permutation_refl|]. destruct (p_vaddr x <=? p_vaddr y); [apply Permutation_refl|]. eapply perm_trans; [apply perm_skip, IH|apply perm_swap]. }
  assert (P2 : forall x l, StronglySorted (fun a b => p_vaddr a <= p_vaddr b) l -> StronglySorted (fun a b => p_vaddr a <= p_vaddr b) (insPh x l)).
  { intros x. induction l as [|y l IH]; cbn [insPh]; intros H; [repeat constructor|]. inversion H; subst. destruct (p_vaddr x <=? p_vaddr y) eqn:E.
    - constructor; [exact H|]. constructor; [lia|]. eapply Forall_impl; [|exact H3]. cbv beta. intros; lia.
    - constructor; [now apply IH|]. apply (Permutation_Forall (Permutation_sym (P1 x l))). constructor; [lia|exact H3]. }
  intros l. induction l as [|x l [IH1 IH2]]; cbn [sortPh]; [split; constructor|]. split; [eapply perm_trans; [apply P1|now apply perm_skip]|now apply P2].
Qed.
Definition C117_hdrs : list sphdr := [mkSPh 1 5 0 8192 8192 100 100 4096; mkSPh 3 4 64 64 64 4 4 1; mkSPh 1 5 0 4096 4096 100 200 4096].
Definition C117_h : sehdr := mkSEh ([127; 69; 76; 70; 2; 1; 1] ++ repeat 0 9) 3 62 1 0 68 0 0 64 56 3 64 0 0.
Definition C117_file : list Z := ehdrBytes C117_h ++ [47; 108; 100; 0] ++ flat_map phdrBytes C117_hdrs.
Example C117_nonvacuous : holdsImage (fun _ => None) (RFile C117_file) C117_file /\ ehdrOk C117_h /\ fileAt C117_file 0 (ehdrBytes C117_h) /\
  x_phnum C117_h = zlen C117_hdrs /\ Forall phdrOk C117_hdrs /\ fileAt C117_file (x_phoff C117_h) (flat_map phdrBytes C117_hdrs) /\
  (let* eh := readEhdr (fun _ => None) (RFile C117_file) in let* l := readPhdrs (fun _ => None) (RFile C117_file) eh in
   let* i := getInterpreter 500 (fun _ => None) (RFile C117_file) sortPh l in let* e := endVA sortPh l in Ok (map p_vaddr (segmentsOf sortPh l 1), i, e)) =
  Ok ([4096; 8192], [47; 108; 100], 8292).
Proof.
  split; [split; [vm_compute; reflexivity|now left]|]. split; [vm_compute; intuition congruence|]. split; [split; [lia|vm_compute; reflexivity]|]. split; [reflexivity|].
  split; [repeat (apply Forall_cons; [vm_compute; intuition congruence|]); apply Forall_nil|]. split; [split; [cbn; lia|vm_compute; reflexivity]|]. vm_compute. reflexivity.
Qed.
(** Refuted: all program headers are found however many there are.  More than 65534 do not fit e_phnum, which is then 0xffff (PN_XNUM) with the number in
    sh_info of section 0 (gABI; Linux writes such core files).  The first 65535 are read. *)
Theorem C117_many_segments_refuted : forall m io file h hs,
  holdsImage m io file -> ehdrOk h -> fileAt file 0 (ehdrBytes h) -> Forall phdrOk hs -> fileAt file (x_phoff h) (flat_map phdrBytes hs) ->
  x_phnum h = 65535 -> 65535 < zlen hs ->
  exists l, readPhdrs m io (ehS h) = Ok l /\ l = map phS (ztake 65535 hs) /\ zlen l < zlen hs.
Proof.
  intros m io file h hs HI HO HF Hok HA Hn Hl. assert (E : zlen (ztake 65535 hs) = 65535) by (rewrite zlen_ztake by lia; lia).
  exists (map phS (ztake 65535 hs)). split; [|split; [reflexivity|rewrite zlen_map; lia]].
  assert (E2 : flat_map phdrBytes hs = flat_map phdrBytes (ztake 65535 hs) ++ flat_map phdrBytes (zdrop 65535 hs)) by (rewrite <- flat_map_app, ztake_zdrop; reflexivity).
  pose proof (fileAt_len _ _ _ HA) as B.
  assert (NE : flat_map phdrBytes hs <> []). { intros X. pose proof (flat_len phdrBytes 56 phdrBytes_len hs) as Y. rewrite X in Y. change (zlen (@nil Z)) with 0 in Y. lia. }
  specialize (B NE). pose proof (zlen_nonneg (flat_map phdrBytes hs)).
  apply (readPhdrs_spec m io file); [assumption|assumption| |lia|lia|].
  - rewrite <- (ztake_zdrop 65535 hs) in Hok. apply Forall_app in Hok as [Hk _]. exact Hk.
  - rewrite E2 in HA. pose proof (fileAt_sub file (x_phoff h) [] (flat_map phdrBytes (ztake 65535 hs)) (flat_map phdrBytes (zdrop 65535 hs)) HA) as G.
    now replace (x_phoff h + zlen []) with (x_phoff h) in G by (change (zlen (@nil Z)) with 0; lia).
Qed.
Print Assumptions C117_many_segments_refuted.
(** Refuted: a file that is not an ELF64 image is refused.  Only the magic number and the version are looked at: a 32-bit image is taken for a 64-bit one. *)
Definition C117_elf32 : list Z := [127; 69; 76; 70; 1; 1; 1] ++ repeat 0 57.
Theorem C117_elf32_refuted : ztake 5 C117_elf32 = [127; 69; 76; 70; 1] /\ exists eh, readEhdr (fun _ => None) (RFile C117_elf32) = Ok eh.
Proof. split; [reflexivity|]. eexists. vm_compute. reflexivity. Qed.
Print Assumptions C117_elf32_refuted.
(** What is not an ELF file at all, or too short, is refused. *)
Theorem C117_not_elf : forall m io file, holdsImage m io file -> (zlen file < 64 \/ ztake 4 file <> [127; 69; 76; 70]) -> readEhdr m io = Throw.
Proof.
  intros m io file HI H. pose proof (zlen_nonneg file) as N. unfold readEhdr, readObj. change (1 =? 0) with false. change (u64 (1 * 64)) with 64. cbv iota.
  rewrite (img_read m io file HI) by lia. cbn [bind]. rewrite zdrop_neg by lia. rewrite zlen_ztake by lia. destruct (Z.min 64 (zlen file) =? 64) eqn:E; [|reflexivity]. cbn [bind].
  rewrite ztake_ztake by lia. destruct H as [H|H]; [lia|]. destruct (beq (ztake 4 file) [127; 69; 76; 70]) eqn:EB; [|reflexivity]. apply beq_spec in EB. contradiction.
Qed.
Print Assumptions C117_not_elf.

(** ** C118: damaged images *)
(** Reading the headers of a core file (read from disk) never does anything undefined, whatever it contains. *)
Lemma file_noUB m c off n : rread m (RFile c) off n <> UB.
Proof. cbn [rread]. destruct (off >=? W64 / 2); discriminate. Qed.
Lemma fview_noUB m c o l off n : rread m (rview (RFile c) o l) off n <> UB.
Proof. cbn [rview]. unfold mkOffset. cbn [rread]. destruct (off >? _); [discriminate|]. destruct (_ >=? _); discriminate. Qed.
Lemma obj_noUB rd sz off : (forall o n, rd o n <> UB) -> readObj rd sz off 1 <> UB.
Proof. intros H. unfold readObj. change (1 =? 0) with false. cbv iota. specialize (H off (u64 (1 * sz))). destruct (rd off (u64 (1 * sz))); try congruence; cbn [bind]; try discriminate. destruct (_ =? _); discriminate. Qed.
Theorem C118_core_headers : forall m contents fuel,
  readEhdr m (RFile contents) <> UB /\
  forall eh, readPhdrs m (RFile contents) eh <> UB /\ (forall off i count, snd (loadHeaders m (RFile contents) fuel eh off i count) <> UB).
Proof.
  intros m c fuel. split.
  - unfold readEhdr. pose proof (obj_noUB (rread m (RFile c)) 64 0 (file_noUB m c)) as H. destruct (readObj _ _ _ _); try congruence; cbn [bind]; try discriminate. destruct (_ && _); discriminate.
  - intros eh. split.
    + unfold readPhdrs, ioArray. unfold arrayEof. destruct (negb _ && negb _); [discriminate|]. cbn [bind].
      assert (LI : forall n s i, snd (iterate (ioRead m (IoR (rview (RFile c) (e_phoff eh) (u64 (e_phnum eh * 56))))) 56 (1024 / 56) 0 n s i) <> UB).
      { induction n as [|n IH]; intros s i; cbn [iterate]; [discriminate|].
        assert (G : snd (getitem (ioRead m (IoR (rview (RFile c) (e_phoff eh) (u64 (e_phnum eh * 56))))) 56 (1024 / 56) 0 s i) <> UB).
        { unfold getitem. destruct (_ || _); [|discriminate]. cbn [ioRead].
          pose proof (fview_noUB m c (e_phoff eh) (u64 (e_phnum eh * 56)) (u64 (i * 56 + 0)) (u64 (1024 / 56 * 56))) as X.
          destruct (rread m (rview (RFile c) (e_phoff eh) (u64 (e_phnum eh * 56))) (u64 (i * 56 + 0)) (u64 (1024 / 56 * 56))); [|discriminate|congruence|discriminate]. destruct (_ <? _); discriminate. }
        destruct (getitem _ _ _ _ s i) as [s' [y| | |]]; cbn [snd] in G; try congruence; try discriminate.
        specialize (IH s' (i + 1)). destruct (iterate _ _ _ _ n s' (i + 1)) as [s'' [q| | |]]; cbn [snd] in *; congruence. }
      specialize (LI (Z.to_nat (u64 (ioSize (IoR (rview (RFile c) (e_phoff eh) (u64 (e_phnum eh * 56)))) - 0) / 56)) ainit 0).
      destruct (snd (iterate _ _ _ _ _ _ _)); cbn [bind]; congruence.
    + induction fuel as [|f IH]; intros off i count; cbn [loadHeaders]; [discriminate|]. destruct (i <? count); [|discriminate].
      pose proof (obj_noUB (rread m (RFile c)) 64 off (file_noUB m c)) as H. destruct (readObj (rread m (RFile c)) 64 off 1) as [b| | |]; try discriminate; [|congruence].
      destruct ((i =? 0) && (e_shnum eh =? 0) && _); [discriminate|]. specialize (IH (u64 (off + e_shentsize eh)) (i + 1) (if (i =? 0) && (e_shnum eh =? 0) then h_size (shdOf b) else count)).
      destruct (loadHeaders m (RFile c) f eh (u64 (off + e_shentsize eh)) (i + 1) (if (i =? 0) && (e_shnum eh =? 0) then h_size (shdOf b) else count)) as [r x]. exact IH.
Qed.
Print Assumptions C118_core_headers.
(** Refuted for mapped images (all but core files): a truncated file makes pstack read memory outside the mapping, for the program headers, and for the
    contents of a section. *)
Definition mapped (file : list Z) : memory := fun k => if (1000 <=? k) && (k <? 1000 + zlen file) then znth (k - 1000) file else None.
Lemma mapped_holds file : zlen file < 2 ^ 62 -> holdsImage (mapped file) (RMem 1000 (zlen file)) file.
Proof.
  intros H. split; [exact H|]. right. exists 1000. split; [reflexivity|]. split; [lia|]. split; [change (2 ^ 64) with (4 * 2 ^ 62); assert (1000 < 2 ^ 62) by reflexivity; lia|].
  intros k Hk. unfold mapped. replace (1000 <=? 1000 + k) with true by lia. replace (1000 + k <? 1000 + zlen file) with true by lia. cbn [andb]. f_equal. lia.
Qed.
Theorem C118_truncated_refuted :
  (exists file eh, zlen file < 2 ^ 62 /\ readEhdr (mapped file) (RMem 1000 (zlen file)) = Ok eh /\ readPhdrs (mapped file) (RMem 1000 (zlen file)) eh = UB) /\
  (exists file h i, zlen file < 2 ^ 62 /\ sectionIo tt noZ true 100 (mapped file) (RMem 1000 (zlen file)) h [] = Ok i /\ ioRead (mapped file) i 0 8 = UB).
Proof.
  split.
  - exists (ehdrBytes C117_h), (ehS C117_h). split; [vm_compute; reflexivity|]. split; vm_compute; reflexivity.
  - exists C112_file, (mkShd 1 1 0 0 190 100 0 0), (IoR (RMem 1190 100)). split; [vm_compute; reflexivity|]. split; [vm_compute; reflexivity|]. vm_compute. reflexivity.
Qed.
Print Assumptions C118_truncated_refuted.
