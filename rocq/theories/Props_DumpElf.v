(** Properties C151 to C154: the dump of an ELF image, pstack -d (see properties.jsonl). *)
From Coq Require Import Ascii String Permutation Sorted.
From Verif Require Import Props_Elf Props_ElfSym.
From Verif Require Import Base Leb LebSpec LebProofs DwarfReader DwarfReaderProofs ExprProofs Reader ReaderSpec ReaderProofs ReaderArray ReaderArrayProofs CfiSpec CfiProofs Cursor MapsSpec ElfHash ElfHashSpec ElfHashProofs ElfObj ElfObjSpec ElfObjProofs
  ElfFile ElfFileSpec ElfFileProofs ElfFileProofs2 ElfFileProofs3 Context Args ArgsSpec FrameText FrameTextSpec JsonDoc JsonDocSpec JsonDocProofs Dump DumpProofs Props_Dump DumpCfi DumpTables DumpDie DumpDieSpec DumpDieProofs
  DumpElf DumpElfSpec DumpElfProofs DumpElfProofs2.
Open Scope Z_scope.

(** [ord] is the order a std::set<const char *> has: anything. *)
Definition anyOrder (ord : list string -> list string) : Prop := forall l, Permutation (ord l) l.
(** [srt] sorts by address, and is otherwise free *)
Definition sorts (srt : list dph -> list dph) : Prop := (forall l, Permutation (srt l) l) /\ (forall l, StronglySorted (fun a b => dVaddr a <= dVaddr b) (srt l)).
(** [c], lastSegmentForAddress: nothing, or one of the segments that are loaded *)
Definition lastSegment (hs : list sphdr) (c : option phdr) : Prop :=
  forall x, c = Some x -> exists h, In h hs /\ y_type h = 1 /\ x = mkPh 1 (y_offset h) (y_vaddr h) (y_filesz h) (y_memsz h).

(** ** C151: the section list *)
Theorem C151_sections_dump_partial : forall (zst : Type) (zinit : zst) zinflate zlib m io fuel file h secs ord, image m io fuel file h secs -> anyOrder ord ->
  Forall (fun s => exists x, sectionDoc file secs s x) secs ->
  exists eh ss vs t xs, readEhdr m io = Ok eh /\ snd (sectionHeaders zinit zinflate zlib fuel m io eh None) = Ok ss /\
    dumpSections zinit zinflate zlib fuel m io ord ss false 0 ss = Ok vs /\ jprint (VList vs) = Ok t /\
    Forall2 (sectionDoc file secs) secs xs /\ jsonDoc t (XArr xs) /\ forall y, jsonDoc t y -> y = XArr xs.
Proof.
  intros zst zinit zi zl m io fuel file h secs ord IM OP HD. destruct (C114_section_list_partial _ zinit zi zl _ _ _ _ _ _ IM) as (eh & E1 & E2).
  destruct IM as [HI Hf HO Hid (first & stri & str & HS & T) ND].
  destruct (sections_doc zinit zi zl fuel m io file HI Hf ord OP secs (hs_ok _ _ _ _ _ _ HS) secs 0 ltac:(intros k s X; exact X) HD) as (vs & xs & V1 & V2 & V3).
  destruct (C137_documents (VList vs) (XArr xs) (mList _ _ V2)) as (t & P1 & P2 & P3). exists eh, (sectionList secs), vs, t, xs. repeat (split; [assumption|]). exact P3.
Qed.
Print Assumptions C151_sections_dump_partial.

(** ** C152: the segments *)
Theorem C152_segments_dump_partial : forall m io fuel file h hs ord srt c, holdsImage m io file -> (List.length file < fuel)%nat -> ehdrOk h -> identElf64 (x_ident h) -> fileAt file 0 (ehdrBytes h) ->
  anyOrder ord -> sorts srt -> Forall phdrFull hs -> loadsApart hs -> x_phnum h = zlen hs -> x_phoff h <= zlen file -> fileAt file (x_phoff h) (flat_map phdrBytes hs) -> lastSegment hs c ->
  Forall (fun h => exists x, segDoc file hs h x) hs ->
  exists eh ds v t x, readEhdr m io = Ok eh /\ readDphs m io eh = Ok ds /\ snd (dumpSegs fuel m io ord srt ds c) = Ok v /\ jprint v = Ok t /\
    segmentsDoc file hs x /\ jsonDoc t x /\ forall y, jsonDoc t y -> y = x.
Proof.
  intros m io fuel file h hs ord srt c HI Hf HO Hid HF OP [SP SS] PF LA HN HP HA LS HD.
  destruct (segs_doc fuel m io file HI Hf ord OP srt SP SS hs PF LA c) as (c' & v & x & V1 & V2 & V3); [|exact HD|].
  { intros y Y. apply (loads_spec fuel m io file HI Hf ord OP srt SP SS hs PF LA). destruct (LS y Y) as (g & G1 & G2 & ->). exists g. repeat split; try assumption. unfold phS. now rewrite G2. }
  destruct (C137_documents v x V2) as (t & P1 & P2 & P3). exists (ehS h), (map dphS hs), v, t, x.
  split; [apply (readEhdr_spec m io file); [assumption..|now apply identElf64_v1|exact HF]|]. split; [now apply (readDphs_spec m io file)|]. rewrite V1. split; [reflexivity|]. repeat (split; [assumption|]). exact P3.
Qed.
Print Assumptions C152_segments_dump_partial.

(** ** C153: a note *)
Theorem C153_note_dump_partial : forall m r n x, 0 <= r < 2 ^ 64 -> wfNote n -> noteDoc r n x ->
  exists v t, dumpNote m r (mkNd (snName n) (snType n) (snDesc n)) = Ok v /\ jprint v = Ok t /\ jsonDoc t x /\ forall y, jsonDoc t y -> y = x.
Proof.
  intros m r n x HR W D. destruct (noteDesc_doc m r n x HR W D) as (v & V1 & V2). destruct (C137_documents v x V2) as (t & P1 & P2 & P3). exists v, t. repeat (split; [assumption|]). exact P3.
Qed.
Print Assumptions C153_note_dump_partial.

(** ** C154: the whole image *)
Lemma notes_wf ns : wfNotes ns -> Forall wfNote ns.
Proof. induction ns as [|n r IH]; intros H; constructor; [apply H|]. apply IH. apply H. Qed.
Lemma fileAt_at file off bs : fileAt file off bs -> at_ file off bs.
Proof. intros [H1 H2]. split; [exact H1|]. exists (zdrop (zlen bs) (zdrop off file)). rewrite <- H2 at 1. symmetry. apply ztake_zdrop. Qed.
Lemma perm_flat {X Y} (f : X -> list Y) a b : Permutation a b -> List.length (flat_map f a) = List.length (flat_map f b).
Proof. intros P. apply Permutation_length. now apply Permutation_flat_map. Qed.
Lemma flat_filter_len {X Y} (f : X -> list Y) p l : (List.length (flat_map f (filter p l)) <= List.length (flat_map f l))%nat.
Proof. induction l as [|a l IH]; cbn [filter flat_map]; [lia|]. destruct (p a); cbn [flat_map]; rewrite !app_length; lia. Qed.
Lemma notes_docs m r l : 0 <= r < 2 ^ 64 -> Forall wfNote l -> Forall (fun n => exists x, noteDoc r n x) l ->
  exists vs xs, dumpAll (dumpNote m r) (map (fun n => mkNd (snName n) (snType n) (snDesc n)) l) = Ok vs /\ meanL vs xs /\ Forall2 (noteDoc r) l xs.
Proof.
  intros HR W D. induction W as [|n l W1 W IH]; [exists [], []; repeat split; constructor|]. inversion D as [|? ? (x & D1) D2]; subst. destruct (IH D2) as (vs & xs & E1 & E2 & E3).
  destruct (noteDesc_doc m r n x HR W1 D1) as (v & V1 & V2). exists (v :: vs), (x :: xs). cbn [map dumpAll]. rewrite V1. cbn [bind]. rewrite E1. cbn [bind]. split; [reflexivity|]. split; constructor; assumption.
Qed.
Lemma needs_range file secs needs : hasNeeds file secs needs -> Forall (fun n => Forall (fun e => 0 <= fst e < 2 ^ 16) (snd n)) needs.
Proof. intros [(_ & ->)|(i & sec & link & str & _ & _ & _ & H)]; [constructor|]. exact (need_range _ _ _ _ H). Qed.
Lemma type_name n t : called stdTypes n t -> 0 <= n < 5 /\ means (vs (nth (Z.to_nat n) typeNames ""%string)) (XStr t).
Proof.
  intros C. assert (PT : plainText t t) by (apply (called_plain stdTypes eq_refl n); exact C). destruct C as (s & I & ->). cbn in I.
  repeat (destruct I as [I|I]; [injection I as <- <-; split; [lia|now apply mStr]|]). destruct I.
Qed.
Lemma abi_name n t : called stdAbis n t -> 0 <= n < 13 /\ means (vs (nth (Z.to_nat n) abiNames ""%string)) (XStr t).
Proof.
  intros C. assert (PT : plainText t t) by (apply (called_plain stdAbis eq_refl n); exact C). destruct C as (s & I & ->). cbn in I.
  repeat (destruct I as [I|I]; [injection I as <- <-; split; [lia|now apply mStr]|]). destruct I.
Qed.
Lemma interp_doc m io file fuel srt hs ms : holdsImage m io file -> (List.length file < fuel)%nat -> (forall l, Permutation (srt l) l) -> interpDoc file hs ms ->
  exists ip, interp fuel m io srt (map dphS hs) = Ok ip /\ meanM (if beq ip [] then [] else [(txt "interpreter", VStr ip)]) ms.
Proof.
  intros HI Hf SP H. assert (E : filter (fun d => dType d =? 3) (map dphS hs) = map dphS (filter (fun h => y_type h =? 3) hs)).
  { clear. induction hs as [|h l IH]; [reflexivity|]. cbn [map filter dphS dType]. destruct (y_type h =? 3); cbn [map]; now rewrite IH. }
  unfold interp, segsOf. rewrite E. destruct H as [(HN & ->)|(h & s & t & HF & O0 & HT & NE & PT & ->)].
  - assert (E0 : filter (fun h => y_type h =? 3) hs = []).
    { clear - HN. induction hs as [|h l IH]; [reflexivity|]. cbn [filter]. pose proof (HN h (or_introl eq_refl)). replace (y_type h =? 3) with false by lia. apply IH. intros g G. apply HN. now right. }
    rewrite E0. cbn [map]. pose proof (SP []) as P. apply Permutation_sym, Permutation_nil in P. rewrite P. exists []. split; [reflexivity|]. constructor.
  - rewrite HF. cbn [map]. pose proof (SP [dphS h]) as P. apply Permutation_sym, Permutation_length_1_inv in P. rewrite P. cbn [dphS dOffset]. exists s. split; [now apply (img_string m io file HI)|].
    destruct (beq s []) eqn:B; [apply beq_spec in B; contradiction|]. apply mmCons; [lits|now apply mStr|constructor].
Qed.
(** [hs] are the program headers, [notes] the notes of each note segment.  The document is [elfDoc] of DumpElfSpec.v.
    Partial: only what [elfDoc] and its parts describe; see the refutations below. *)
Record elfImage (m : memory) (io : reader) (fuel : nat) (file : list Z) (h : sehdr) (secs : list (sshdr * list Z)) (hs : list sphdr) (notes : sphdr -> list snote)
    (needs : list (list Z * list (Z * list Z))) (defs : list (Z * list (list Z))) : Prop := {
  ei_image : image m io fuel file h secs;
  ei_phdrs : Forall phdrFull hs /\ loadsApart hs /\ x_phnum h = zlen hs /\ x_phoff h <= zlen file /\ fileAt file (x_phoff h) (flat_map phdrBytes hs);
  ei_notes : forall g, In g hs -> y_type g = 4 -> notesAt file g (notes g);
  ei_fuel : (List.length (flat_map notes hs) < fuel)%nat;
  ei_versions : hasNeeds file secs needs /\ hasDefs file secs defs }.
Theorem C154_object_dump_partial : forall (zst : Type) (zinit : zst) zinflate zlib m io fuel file h secs hs notes needs defs ord srt c r,
  elfImage m io fuel file h secs hs notes needs defs -> anyOrder ord -> sorts srt -> lastSegment hs c -> 0 <= r < 2 ^ 64 ->
  (exists t, called stdTypes (x_type h) t) -> (exists a t, znth 7 (x_ident h) = Some a /\ called stdAbis a t) ->
  Forall (fun s => exists x, sectionDoc file secs s x) secs -> Forall (fun g => exists x, segDoc file hs g x) hs ->
  (forall g n, In g hs -> y_type g = 4 -> In n (notes g) -> exists x, noteDoc r n x) -> Forall (fun n => exists t, plainText (fst n) t) needs -> (exists ip, interpDoc file hs ip) ->
  exists v t x, dumpElf zinit zinflate zlib fuel m io ord srt file r c = Ok v /\ jprint v = Ok t /\
    elfDoc file r h secs hs notes needs x /\ jsonDoc t x /\ forall y, jsonDoc t y -> y = x.
Proof.
  intros zst zinit zi zl m io fuel file h secs hs notes needs defs ord srt c r [IM (PF & LA & HN & HP & HA) NA NF [VN VD]] OP [SP SS] LS HR (ty & TY) (a & abi & AZ & AB) SD GD ND PN (ip & IP).
  destruct (image_secs _ _ _ _ _ _ IM) as (first' & n0 & rest & E0 & T0). destruct IM as [HI Hf HO Hid (first & stri & str & HS & T) NDp].
  destruct (type_name _ _ TY) as [TR TM]. destruct (abi_name _ _ AB) as [AR AM].
  assert (EA : e_osabi (ehS h) = a) by (cbn [ehS e_osabi]; apply znth_fld1; [exact AZ|unfold isByte; lia]).
  destruct (sections_doc zinit zi zl fuel m io file HI Hf ord OP secs (hs_ok _ _ _ _ _ _ HS) secs 0 ltac:(intros k s X; exact X) SD) as (sv & sx & S1 & S2 & S3).
  destruct (segs_doc fuel m io file HI Hf ord OP srt SP SS hs PF LA c) as (c' & gv & gx & G1 & G2 & G3); [|exact GD|].
  { intros y Y. apply (loads_spec fuel m io file HI Hf ord OP srt SP SS hs PF LA). destruct (LS y Y) as (g & Q1 & Q2 & ->). exists g. repeat split; try assumption. unfold phS. now rewrite Q2. }
  destruct (segsOf_spec fuel m io file HI Hf ord OP srt SP SS hs PF LA 4) as (l & L1 & L2 & L3).
  assert (LI : forall g, In g l -> In g hs /\ y_type g = 4).
  { intros g X. apply (Permutation_in _ L2) in X. apply filter_In in X as [X1 X2]. split; [exact X1|lia]. }
  assert (SN : segNotes fuel file (map asPh (segsOf srt (map dphS hs) 4)) 0 = Ok (map (fun n => mkNd (snName n) (snType n) (snDesc n)) (flat_map notes l))).
  { rewrite L1, map_map, flat_map_concat_map. apply C32_segment_notes_partial.
    - pose proof (img_len m io file HI). unfold W64 in *. lia.
    - clear - LI NA. induction l as [|g l IH]; constructor; [|apply IH; intros k K; apply LI; now right]. destruct (LI g (or_introl eq_refl)) as [I1 I2]. destruct (NA g I1 I2) as (N1 & N2 & N3 & N4).
      cbn [asPh dphS p_offset p_filesz dOffset dFilesz]. split; [exact N1|]. split; [exact N2|]. split; [now apply fileAt_at|exact N4].
    - rewrite <- flat_map_concat_map. rewrite (perm_flat notes _ _ L2). pose proof (flat_filter_len notes (fun h => y_type h =? 4) hs). lia. }
  destruct (notes_docs m r (flat_map notes l) HR) as (nv & nx & N1 & N2 & N3).
  { rewrite Forall_forall. intros n X. apply in_flat_map in X as (g & X1 & X2). destruct (LI g X1) as [I1 I2]. destruct (NA g I1 I2) as (_ & W & _). pose proof (notes_wf _ W) as F. rewrite Forall_forall in F. now apply F. }
  { rewrite Forall_forall. intros n X. apply in_flat_map in X as (g & X1 & X2). destruct (LI g X1) as [I1 I2]. now apply (ND g). }
  destruct (files_doc needs (needs_range _ _ _ VN) PN) as (fx & F1 & F2).
  pose proof (symbolVersions_spec zinit zi zl fuel m io file HI Hf secs first' n0 rest E0 T0 NDp needs defs VN VD) as SV.
  destruct (interp_doc m io file fuel srt hs ip HI Hf SP IP) as (iv & I1 & I2).
  assert (PH : negb (e_shoff (ehS h) <? rsize io) || ((e_shnum (ehS h) =? 0) && (e_shentsize (ehS h) =? 0)) = false).
  { cbn [ehS e_shoff e_shnum e_shentsize]. rewrite (img_size m io file HI). pose proof (hs_entsize _ _ _ _ _ _ HS) as HE. destruct (hs_first _ _ _ _ _ _ HS) as (fn & fr & EF).
    pose proof (hs_table _ _ _ _ _ _ HS 0 (first, fn) ltac:(rewrite EF; reflexivity)) as FA. pose proof (fileAt_len _ _ _ FA) as B. pose proof (zlen_nonneg file).
    assert (SL : zlen (shdrBytes first) = 64) by (unfold shdrBytes; rewrite !zlen_app, !leBytes_len; reflexivity). cbn [fst] in B. rewrite SL in B.
    assert (x_shoff h + 0 * x_shentsize h + 64 <= zlen file) by (apply B; intros X; rewrite X in SL; discriminate). replace (x_shoff h <? zlen file) with true by lia. replace (x_shentsize h =? 0) with false by lia. now rewrite Bool.andb_false_r. }
  assert (DE : dumpElf zinit zi zl fuel m io ord srt file r c = Ok (VObj ([(txt "type", vs (nth (Z.to_nat (x_type h)) typeNames ""%string)); nf "entry" (x_entry h); (txt "abi", vs (nth (Z.to_nat a) abiNames ""%string));
    (txt "sections", VList sv); (txt "segments", gv); (txt "notes", VList nv); (txt "versioninfo", dumpFiles (map (fun n => (fst n, map fst (snd n))) needs))] ++ (if beq iv [] then [] else [(txt "interpreter", VStr iv)])))).
  { unfold dumpElf. rewrite (readEhdr_spec m io file h HI HO (identElf64_v1 _ Hid) (hs_header _ _ _ _ _ _ HS)). cbn [bind].
    rewrite (readDphs_spec m io file h hs HI HO PF HN HP HA). cbn [bind]. change (e_type (ehS h)) with (x_type h). replace (x_type h <? 5) with true by lia. cbn [bind].
    rewrite EA. replace (a <? 13) with true by lia. cbn [bind]. rewrite (sectionHeaders_spec zinit zi zl m io file HI fuel Hf h first secs stri str HO HS). cbn [snd bind]. rewrite PH, S1. cbn [bind]. rewrite G1. cbn [snd bind].
    rewrite SN. cbn [bind]. rewrite N1. cbn [bind]. rewrite SV. cbn [bind]. rewrite I1. cbn [bind svFiles]. reflexivity. }
  set (x := XObj ([(lit "type", XStr ty); num "entry" (x_entry h); (lit "abi", XStr abi); (lit "sections", XArr sx); (lit "segments", gx); (lit "notes", XArr nx); (lit "versioninfo", fx)] ++ ip)).
  destruct HO as (_ & _ & HEn & _).
  match type of DE with _ = Ok ?v => assert (M : means v x) end.
  { apply mObj. apply mM_app; [|exact I2]. apply mmCons; [lits|exact TM|]. apply mmCons; [lits|apply mInt; lia|]. apply mmCons; [lits|exact AM|]. apply mmCons; [lits|now apply mList|].
    apply mmCons; [lits|exact G2|]. apply mmCons; [lits|now apply mList|]. apply mmCons; [lits|exact F1|]. constructor. }
  destruct (C137_documents _ _ M) as (t & P1 & P2 & P3). eexists _, t, x. split; [exact DE|]. split; [exact P1|]. split; [|split; assumption].
  exists ty, a, abi, sx, gx, l, nx, fx, ip. repeat (split; [assumption|]). reflexivity.
Qed.
Print Assumptions C154_object_dump_partial.
(** A concrete image: a shared object with a symbol table, relocations, a dynamic section, notes, an interpreter and a version it needs *)
Definition C154_h : sehdr := mkSEh ([127; 69; 76; 70; 2; 1; 1; 3] ++ repeat 0 8) 3 62 1 4160 64 757 0 64 56 5 64 10 1.
Definition C154_secs : list (sshdr * list Z) := [
  (mkSSh 0 0 0 0 0 0 0 0 0 0, []);
  (mkSSh 1 3 0 0 344 81 0 0 1 0, [46; 115; 104; 115; 116; 114; 116; 97; 98]);
  (mkSSh 11 3 2 4521 425 23 0 0 1 0, [46; 100; 121; 110; 115; 116; 114]);
  (mkSSh 19 2 0 0 448 48 2 1 1 0, [46; 115; 121; 109; 116; 97; 98]);
  (mkSSh 27 4 66 4592 496 48 3 0 1 0, [46; 114; 101; 108; 97; 46; 100; 121; 110]);
  (mkSSh 37 1 48 0 544 9 0 0 1 0, [46; 99; 111; 109; 109; 101; 110; 116]);
  (mkSSh 46 8 3 8192 697 100 0 0 1 0, [46; 98; 115; 115]);
  (mkSSh 51 6 3 4649 553 112 2 0 1 0, [46; 100; 121; 110; 97; 109; 105; 99]);
  (mkSSh 60 1879048190 2 4761 665 32 2 0 1 0, [46; 103; 110; 117; 46; 118; 101; 114; 115; 105; 111; 110; 95; 114]);
  (mkSSh 75 7 2 4793 697 52 0 0 1 0, [46; 110; 111; 116; 101])].
Definition C154_hs : list sphdr := [mkSPh 1 5 0 4096 4096 757 857 4096; mkSPh 2 6 553 4649 4649 112 112 8; mkSPh 4 4 697 4793 0 52 52 4; mkSPh 3 4 749 4845 0 8 8 1; mkSPh 1685382481 6 0 0 0 0 0 16].
Definition C154_dyns : list (Z * Z) := [(1, 1); (14, 12); (5, 4521); (1879048190, 4761); (1879048191, 1); (1879047925, 77); (0, 0)].
Definition C154_syms : list ssym := [mkSS [] 0 0 0 0 0 0; mkSS [109; 97; 105; 110] 18 18 0 1 4200 8].
Definition C154_relas : list (Z * Z * Z * Z) := [(5000, 1, 6, 0); (5008, 0, 8, -4)].
Definition C154_str : list Z := [0; 108; 105; 98; 99; 46; 115; 111; 0; 86; 49; 0; 109; 101; 46; 115; 111; 0; 109; 97; 105; 110; 0].
Definition C154_comment : list Z := [71; 67; 67; 32; 49; 50; 0; 120; 0].
Definition C154_n1 : snote := mkSN [71; 78; 85] 1 (leBytes 4 0 ++ leBytes 4 3 ++ leBytes 4 2 ++ leBytes 4 0) [] []. Definition C154_n2 : snote := mkSN [71; 78; 85] 3 [1; 171; 255; 16] [] [].
Definition C154_need : list Z := vneedBytes 1 1 1 16 0 ++ vauxBytes 7 0 2 9 0.
Definition C154_needs : list (list Z * list (Z * list Z)) := [([108; 105; 98; 99; 46; 115; 111], [(2, [86; 49])])].
Definition C154_interp : list Z := [47; 108; 105; 98; 47; 108; 100].
Definition C154_file : list Z := ehdrBytes C154_h ++ flat_map phdrBytes C154_hs ++ [0; 46; 115; 104; 115; 116; 114; 116; 97; 98; 0; 46; 100; 121; 110; 115; 116; 114; 0; 46; 115; 121; 109; 116; 97; 98; 0; 46; 114; 101; 108; 97; 46; 100; 121; 110; 0; 46; 99; 111; 109; 109; 101; 110; 116; 0; 46; 98; 115; 115; 0; 46; 100; 121; 110; 97; 109; 105; 99; 0; 46; 103; 110; 117; 46; 118; 101; 114; 115; 105; 111; 110; 95; 114; 0; 46; 110; 111; 116; 101; 0] ++ C154_str ++ flat_map encodeSym C154_syms ++ flat_map relaBytes C154_relas ++
  C154_comment ++ flat_map dynBytes C154_dyns ++ C154_need ++ encodeNote C154_n1 ++ encodeNote C154_n2 ++ (C154_interp ++ [0]) ++ flat_map (fun s => shdrBytes (fst s)) C154_secs.
Ltac inTab := solve [repeat first [left; reflexivity | right]].
Ltac asc := apply asciiB_plain; vm_compute; reflexivity.
Ltac calls := eexists; split; [inTab|reflexivity].
Lemma C154_all (P : Z -> sshdr * list Z -> Prop) : (forall k, (k < 10)%nat -> match nth_error C154_secs k with Some s => P (Z.of_nat k) s | None => True end) -> forall i s, znth i C154_secs = Some s -> P i s.
Proof.
  intros H i s Hz. pose proof (znth_some _ _ _ Hz) as R. change (zlen C154_secs) with 10 in R. rewrite znth_nth_error in Hz by lia. specialize (H (Z.to_nat i) ltac:(lia)). rewrite Hz, Z2Nat.id in H by lia. exact H.
Qed.
Definition noMem : memory := fun _ => None.
Example C154_image : image noMem (RFile C154_file) 2000 C154_file C154_h C154_secs.
Proof.
  constructor.
  - split; [vm_compute; reflexivity|now left].
  - apply Nat.ltb_lt. vm_compute. reflexivity.
  - vm_compute; intuition congruence.
  - eexists; reflexivity.
  - exists (mkSSh 0 0 0 0 0 0 0 0 0 0), 1, (fst (nth 1 C154_secs (mkSSh 0 0 0 0 0 0 0 0 0 0, []))). split; [|reflexivity]. constructor.
    + fat.
    + eexists; eexists; reflexivity.
    + vm_compute; discriminate.
    + apply C154_all. intros k Hk. do 10 (destruct k as [|k]; [cbn [nth_error C154_secs fst]; split; [vm_compute; discriminate|vm_compute; reflexivity]|]). lia.
    + repeat (apply Forall_cons; [vm_compute; intuition congruence|]). apply Forall_nil.
    + left. split; [vm_compute; split; reflexivity|reflexivity].
    + left. split; [lia|reflexivity].
    + eexists; reflexivity.
    + vm_compute. intuition congruence.
    + repeat (apply Forall_cons; [cbn [nth fst snd C154_secs z_offset z_name]; Props_ElfSym.txt|]). apply Forall_nil.
  - assert (H : forall l : list (list Z), (fix nd l := match l with [] => true | x :: r => negb (existsb (beq x) r) && nd r end) l = true -> NoDup l).
    { induction l as [|x r IH]; intros H; constructor; apply andb_prop in H as [H1 H2]; [|now apply IH]. intros X. apply Bool.negb_true_iff in H1. assert (existsb (beq x) r = true) by (apply existsb_exists; exists x; split; [exact X|now apply beq_spec]). congruence. }
    apply H. vm_compute. reflexivity.
Qed.
Lemma C154_wf : Forall (wfSym C154_str) C154_syms.
Proof.
  assert (W0 : wfSym C154_str (mkSS [] 0 0 0 0 0 0)) by (unfold wfSym, isName, isByte; cbn; repeat split; try lia; [constructor|eexists; reflexivity]).
  assert (W1 : wfSym C154_str (mkSS [109; 97; 105; 110] 18 18 0 1 4200 8)) by (unfold wfSym, isName, isByte; cbn; repeat split; try lia; [repeat constructor; lia|eexists; reflexivity]).
  unfold C154_syms. now repeat (apply Forall_cons; [assumption|]).
Qed.
Example C154_strings : linkedStrings C154_file C154_secs 2 C154_str.
Proof. exists (lit ".dynstr"), 0. split; [sis|]. intros r. discriminate. Qed.
Ltac sdoc flags := eexists; do 5 eexists; split; [asc|]; split; [intros r; discriminate|]; split; [vm_compute; reflexivity|]; split; [exists flags; split; [vm_compute; first [reflexivity|apply perm_swap]|reflexivity]|].
Ltac sdata := unfold sectionData; cbn [fst z_type z_offset z_size]; vm_compute; intuition congruence.
Example C151_nonvacuous : Forall (fun s => exists x, sectionDoc C154_file C154_secs s x) C154_secs.
Proof.
  repeat apply Forall_cons; [..|apply Forall_nil].
  - sdoc (@nil (list Z)). split; [left; eexists; split; [calls|reflexivity]|]. split; [apply SBNull; reflexivity|]. split; [apply STNone; vm_compute; intuition congruence|reflexivity].
  - sdoc (@nil (list Z)). split; [left; eexists; split; [calls|reflexivity]|]. split; [eapply SBOther; [vm_compute; intuition congruence|sdata]|]. split; [apply STNone; vm_compute; intuition congruence|reflexivity].
  - sdoc [lit "SHF_ALLOC"]. split; [left; eexists; split; [calls|reflexivity]|]. split; [eapply SBOther; [vm_compute; intuition congruence|sdata]|]. split; [apply STNone; vm_compute; intuition congruence|reflexivity].
  - sdoc (@nil (list Z)). split; [left; eexists; split; [calls|reflexivity]|].
    split; [eapply (SBSyms _ _ _ C154_syms C154_str); [left; reflexivity|sdata|exact C154_strings|exact C154_wf|]|split; [apply STNone; vm_compute; intuition congruence|reflexivity]].
    repeat (apply Forall2_cons; [do 3 eexists; split; [asc|]; split; [calls|]; split; [calls|reflexivity]|]). apply Forall2_nil.
  - sdoc [lit "SHF_ALLOC"; lit "SHF_INFO_LINK"]. split; [left; eexists; split; [calls|reflexivity]|].
    split; [apply (SBRela _ _ _ C154_relas); [reflexivity|sdata|repeat (apply Forall_cons; [cbn; lia|]); apply Forall_nil]|split; [apply STNone; vm_compute; intuition congruence|reflexivity]].
  - sdoc [lit "SHF_STRINGS"; lit "SHF_MERGE"]. split; [left; eexists; split; [calls|reflexivity]|]. split; [eapply SBOther; [vm_compute; intuition congruence|sdata]|].
    split; [|reflexivity]. apply (STText _ _ C154_comment [71; 67; 67; 32; 49; 50] [120; 0]); [inTab|sdata|reflexivity|repeat (apply Forall_cons; [lia|]); apply Forall_nil|reflexivity|asc].
  - sdoc [lit "SHF_ALLOC"; lit "SHF_WRITE"]. split; [left; eexists; split; [calls|reflexivity]|]. split; [apply SBNoBits; [reflexivity|vm_compute; reflexivity]|]. split; [apply STNone; vm_compute; intuition congruence|reflexivity].
  - sdoc [lit "SHF_WRITE"; lit "SHF_ALLOC"]. split; [left; eexists; split; [calls|reflexivity]|]. split; [eapply SBOther; [vm_compute; intuition congruence|sdata]|]. split; [apply STNone; vm_compute; intuition congruence|reflexivity].
  - sdoc [lit "SHF_ALLOC"]. split; [right; split; [vm_compute; reflexivity|reflexivity]|]. split; [eapply SBOther; [vm_compute; intuition congruence|sdata]|]. split; [apply STNone; vm_compute; intuition congruence|reflexivity].
  - sdoc [lit "SHF_ALLOC"]. split; [left; eexists; split; [calls|reflexivity]|]. split; [eapply SBOther; [vm_compute; intuition congruence|sdata]|]. split; [apply STNone; vm_compute; intuition congruence|reflexivity].
Qed.

Example C154_phdrs : Forall phdrFull C154_hs /\ loadsApart C154_hs /\ x_phnum C154_h = zlen C154_hs /\ x_phoff C154_h <= zlen C154_file /\ fileAt C154_file (x_phoff C154_h) (flat_map phdrBytes C154_hs).
Proof.
  split; [repeat (apply Forall_cons; [unfold phdrFull, phdrOk; cbn; lia|]); apply Forall_nil|]. split; [|split; [reflexivity|split; [vm_compute; discriminate|split; [vm_compute; discriminate|vm_compute; reflexivity]]]].
  split; [intros a I T; repeat (destruct I as [<-|I]; [cbn in *; first [lia|discriminate T]|]); destruct I|].
  repeat (apply FOP_cons; [rewrite Forall_forall; intros b I; repeat (destruct I as [<-|I]; [cbn; intros; first [lia|discriminate]|]); destruct I|]). apply FOP_nil.
Qed.
Ltac gdoc flags := eexists; do 3 eexists; split; [left; calls|]; split; [exists flags; split; [vm_compute; first [reflexivity|apply perm_swap]|reflexivity]|].
Ltac plainTag := left; eexists; split; [calls|reflexivity].
Ltac notStr := left; split; [vm_compute; intuition congruence|reflexivity].
Definition C154_load : sphdr := mkSPh 1 5 0 4096 4096 757 857 4096.
Example C152_nonvacuous : Forall (fun h => exists x, segDoc C154_file C154_hs h x) C154_hs.
Proof.
  repeat apply Forall_cons; [..|apply Forall_nil].
  - gdoc [lit "PF_X"; lit "PF_R"]. split; [apply GBOther; discriminate|reflexivity].
  - gdoc [lit "PF_R"; lit "PF_W"]. split; [|reflexivity]. apply (GBDyn _ _ _ C154_dyns 4521 [XObj [(lit "tag", XStr (lit "DT_NEEDED")); num "word" 1; (lit "lib", XStr (lit "libc.so"))];
      XObj [(lit "tag", XStr (lit "DT_SONAME")); num "word" 12; (lit "soname", XStr (lit "me.so"))]; XObj [(lit "tag", XStr (lit "DT_STRTAB")); num "word" 4521]; XObj [(lit "tag", XStr (lit "DT_VERNEED")); num "word" 4761];
      XObj [(lit "tag", XStr (lit "DT_VERNEEDNUM")); num "word" 1]; XObj [(lit "tag", XNum 1879047925); num "word" 77]; XObj [(lit "tag", XStr (lit "DT_NULL")); num "word" 0]]).
    + reflexivity.
    + split; [vm_compute; discriminate|vm_compute; reflexivity].
    + vm_compute; discriminate.
    + reflexivity.
    + repeat (apply Forall_cons; [unfold dynOk; cbn; lia|]); apply Forall_nil.
    + exists [(1, 1); (14, 12)], [(1879048190, 4761); (1879048191, 1); (1879047925, 77); (0, 0)]. split; [reflexivity|cbn; lia].
    + exists C154_load. split; [now left|]. cbn. lia.
    + assert (DS : forall off s, textAt C154_file (425 + off) s -> 0 <= off -> dynString C154_file C154_hs 4521 off s).
      { intros off s X Y. exists C154_load. split; [now left|]. cbn [C154_load y_type y_vaddr y_memsz y_offset]. split; [reflexivity|]. split; [lia|]. split; [lia|]. replace (0 + (4521 - 4096) + off) with (425 + off) by lia. exact X. }
      apply Forall2_cons; [do 2 eexists; split; [plainTag|]; split; [right; do 3 eexists; split; [calls|]; split; [apply (DS 1 [108; 105; 98; 99; 46; 115; 111]); [Props_ElfSym.txt|lia]|]; split; [asc|reflexivity]|reflexivity]|].
      apply Forall2_cons; [do 2 eexists; split; [plainTag|]; split; [right; do 3 eexists; split; [calls|]; split; [apply (DS 12 [109; 101; 46; 115; 111]); [Props_ElfSym.txt|lia]|]; split; [asc|reflexivity]|reflexivity]|].
      do 3 (apply Forall2_cons; [do 2 eexists; split; [plainTag|]; split; [notStr|reflexivity]|]).
      apply Forall2_cons; [do 2 eexists; split; [right; split; [inTab|reflexivity]|]; split; [notStr|reflexivity]|].
      apply Forall2_cons; [do 2 eexists; split; [plainTag|]; split; [notStr|reflexivity]|]. apply Forall2_nil.
  - gdoc [lit "PF_R"]. split; [apply GBOther; discriminate|reflexivity].
  - gdoc [lit "PF_R"]. split; [apply GBOther; discriminate|reflexivity].
  - gdoc [lit "PF_W"; lit "PF_R"]. split; [apply GBOther; discriminate|reflexivity].
Qed.
(** the notes of a core file and of an executable *)
Definition C153_status : procStatus := mkPS 11 1 0 11 0 (2 ^ 63) 4711 (-1) 4711 1 (0, 40000) (1, -5) (0, 0) (0, 0) (repeat 7 216) 1.
Definition C153_info : procInfo := mkPI 0 82 0 (-5) 4194560 1000 1000 4711 1 4711 4711 (lit "sleep") (lit "sleep 1").
Definition C153_notes : list snote := [
  mkSN (lit "CORE") 1 (statusBytes C153_status [0; 0] [0; 0; 0; 0]) [0; 0; 0] [];
  mkSN (lit "CORE") 3 (infoBytes C153_info [9; 9; 9; 9] (lit "sleep" ++ 0 :: repeat 1 10) (lit "sleep 1" ++ 0 :: repeat 0 72)) [0; 0; 0] [];
  mkSN (lit "CORE") 6 (flat_map dynBytes [(3, 64); (100, 1); (0, 0)]) [0; 0; 0] [];
  mkSN (lit "CORE") 2 [1; 2; 3] [0; 0; 0] []; mkSN (lit "LINUX") 1 [] [0; 0] [];
  C154_n1; C154_n2].
Lemma wfNoteB n : forallb (fun b => (0 <? b) && (b <? 256)) (snName n) && forallb (fun b => (0 <=? b) && (b <? 256)) (snDesc n ++ snPad1 n ++ snPad2 n) &&
  (zlen (snName n) + 1 <? 4294967296) && (zlen (snDesc n) <? 4294967296) && (0 <=? snType n) && (snType n <? 2147483648) && (zlen (snPad1 n) <? 4) && ((zlen (snName n) + 1 + zlen (snPad1 n)) mod 4 =? 0) = true -> wfNote n.
Proof.
  rewrite !Bool.andb_true_iff, !forallb_forall. intros (((((((A1 & A2) & A3) & A4) & A5) & A6) & A7) & A8). unfold wfNote. rewrite !Forall_forall.
  split; [intros b I; specialize (A1 b I); lia|]. split; [intros b I; specialize (A2 b I); unfold isByte; lia|]. change (2 ^ 32) with 4294967296. change (2 ^ 31) with 2147483648. lia.
Qed.
Ltac ndoc := eexists; do 2 eexists; split; [asc|].
Example C153_nonvacuous : Forall (fun n => wfNote n /\ exists x, noteDoc 12345 n x) C153_notes.
Proof.
  unfold C153_notes. repeat apply Forall_cons; [..|apply Forall_nil]; (split; [apply wfNoteB; vm_compute; reflexivity|]).
  - ndoc. split; [|reflexivity]. apply (NBStatus _ _ C153_status [0; 0] [0; 0; 0; 0]); try reflexivity. unfold statusOk, sint. cbn. lia.
  - ndoc. split; [|reflexivity]. eapply (NBInfo _ _ C153_info [9; 9; 9; 9] (lit "sleep" ++ 0 :: repeat 1 10) (lit "sleep 1" ++ 0 :: repeat 0 72)); try reflexivity.
    + unfold infoOk, sint. cbn. lia.
    + split; [reflexivity|]. split; [cbn; repeat (apply Forall_cons; [lia|]); apply Forall_nil|right; eexists; reflexivity].
    + split; [reflexivity|]. split; [cbn; repeat (apply Forall_cons; [lia|]); apply Forall_nil|right; eexists; reflexivity].
    + do 3 eexists. split; [asc|]. split; [asc|]. split; [asc|]. reflexivity.
  - ndoc. split; [|reflexivity]. apply (NBAux _ _ [(3, 64); (100, 1); (0, 0)] [XObj [(lit "a_type", XStr (lit "AT_PHDR")); num "a_val" 64]; XObj [(lit "a_type", XNum 100); num "a_val" 1]; XObj [(lit "a_type", XStr (lit "AT_NULL")); num "a_val" 0]]); try reflexivity.
    + repeat (apply Forall_cons; [unfold dynOk; cbn; lia|]); apply Forall_nil.
    + apply Forall2_cons; [eexists; split; [left; eexists; split; [calls|reflexivity]|reflexivity]|]. apply Forall2_cons; [eexists; split; [right; split; [reflexivity|reflexivity]|reflexivity]|].
      apply Forall2_cons; [eexists; split; [left; eexists; split; [calls|reflexivity]|reflexivity]|apply Forall2_nil].
  - ndoc. split; [|reflexivity]. apply NBOther; vm_compute; intuition congruence.
  - ndoc. split; [|reflexivity]. apply NBOther; vm_compute; intuition congruence.
  - ndoc. split; [|reflexivity]. apply (NBAbi _ _ 0 3 2 0 []); try reflexivity; unfold u32r; lia.
  - ndoc. split; [|reflexivity]. apply (NBBuildId _ _ [48; 49; 97; 98; 102; 102; 49; 48]); try reflexivity.
    apply (HBCons 0 1); [left; lia|left; lia|]. apply (HBCons 10 11); [right; lia|right; lia|]. apply (HBCons 15 15); [right; lia|right; lia|]. apply (HBCons 1 0); [left; lia|left; lia|]. apply HBNil.
Qed.
Definition C154_notes (g : sphdr) : list snote := if y_type g =? 4 then [C154_n1; C154_n2] else [].
Example C154_elf : elfImage noMem (RFile C154_file) 2000 C154_file C154_h C154_secs C154_hs C154_notes C154_needs [].
Proof.
  constructor.
  - exact C154_image.
  - exact C154_phdrs.
  - intros g I T. repeat (destruct I as [<-|I]; [try discriminate T|]); [|destruct I]. unfold notesAt. cbn [C154_notes y_type y_offset y_filesz]. split; [discriminate|].
    split; [|split; [fat|reflexivity]]. cbn [wfNotes]. repeat split; try (vm_compute; intuition congruence); apply wfNoteB; vm_compute; reflexivity.
  - apply Nat.ltb_lt. vm_compute. reflexivity.
  - split.
    + right. exists 8, C154_need, 2, C154_str. split; [sis|]. split; [exact C154_strings|].
      split; [exists 7, C154_dyns, 2; split; [sis|split; [repeat (apply Forall_cons; [unfold dynOk; cbn; lia|]); apply Forall_nil|exists [(1, 1); (14, 12); (5, 4521); (1879048190, 4761)], [(1879047925, 77); (0, 0)]; split; [reflexivity|cbn; lia]]]|].
      apply (NeedCons _ _ 0 1 1 16 0); [fat|reflexivity|unfold u32r; lia..|Props_ElfSym.txt| |apply NeedNil]. apply (AuxCons _ _ 16 7 0 2 9 0); [fat|lia|unfold u32r; lia..|Props_ElfSym.txt|]. apply AuxNil.
    + left. split; [|reflexivity]. intros s I. repeat (destruct I as [<-|I]; [vm_compute; intuition congruence|]). destruct I.
Qed.
(** insertion sort *)
Fixpoint insD (d : dph) (l : list dph) : list dph := match l with [] => [d] | x :: r => if dVaddr d <=? dVaddr x then d :: l else x :: insD d r end.
Definition sortD (l : list dph) : list dph := fold_right insD [] l.
Lemma sortD_sorts : sorts sortD.
Proof.
  assert (P : forall d l, Permutation (insD d l) (d :: l)).
  { induction l as [|x r IH]; cbn [insD]; [reflexivity|]. destruct (dVaddr d <=? dVaddr x); [reflexivity|]. rewrite IH. apply perm_swap. }
  assert (Q : forall l, Permutation (sortD l) l) by (induction l as [|x r IH]; [reflexivity|]; cbn [sortD fold_right]; rewrite P; now apply perm_skip).
  split; [exact Q|]. induction l as [|d l IH]; [constructor|]. cbn [sortD fold_right]. fold (sortD l). revert IH. generalize (sortD l). clear - P. induction l as [|x r IH]; intros S; cbn [insD]; [repeat constructor|].
  destruct (dVaddr d <=? dVaddr x) eqn:E; inversion S as [|? ? S1 F]; subst.
  - constructor; [exact S|]. constructor; [lia|]. eapply Forall_impl; [|exact F]. cbn. intros. lia.
  - constructor; [now apply IH|]. rewrite Forall_forall in *. intros y I. apply (Permutation_in _ (P d r)) in I. destruct I as [<-|I]; [lia|now apply F].
Qed.
Definition noZ (z : unit) (i : list Z) (a : Z) (f : bool) : zret * Z * list Z * unit := (ZError, 0, [], tt).
Example C154_nonvacuous : exists v t x, dumpElf tt noZ true 2000 noMem (RFile C154_file) (fun l => rev l) sortD C154_file 12345 None = Ok v /\ jprint v = Ok t /\
    elfDoc C154_file 12345 C154_h C154_secs C154_hs C154_notes C154_needs x /\ jsonDoc t x /\ forall y, jsonDoc t y -> y = x.
Proof.
  apply (C154_object_dump_partial unit tt noZ true noMem (RFile C154_file) 2000 C154_file C154_h C154_secs C154_hs C154_notes C154_needs [] (fun l => rev l) sortD None 12345).
  - exact C154_elf.
  - intros l. apply Permutation_sym, Permutation_rev.
  - exact sortD_sorts.
  - discriminate.
  - lia.
  - eexists. calls.
  - do 2 eexists. split; [reflexivity|calls].
  - exact C151_nonvacuous.
  - exact C152_nonvacuous.
  - intros g n I T J. pose proof C153_nonvacuous as F. rewrite Forall_forall in F. apply F. unfold C154_notes in J. rewrite T in J. cbn in J. unfold C153_notes. destruct J as [<-|[<-|[]]]; cbn [In]; tauto.
  - repeat (apply Forall_cons; [eexists; asc|]). apply Forall_nil.
  - exists [(lit "interpreter", XStr (lit "/lib/ld"))]. right. exists (mkSPh 3 4 749 4845 0 8 8 1), C154_interp, (lit "/lib/ld"). split; [reflexivity|]. cbn [y_offset]. split; [lia|]. unfold C154_interp. split; [Props_ElfSym.txt|]. split; [discriminate|]. split; [asc|reflexivity].
Qed.

(** ** Refutations: what the dump does not say, or says wrongly *)
(** SHF_EXCLUDE (0x80000000) is shown as the processor-specific mask and as the text of the cast in pstack's own source; SHF_GNU_RETAIN (0x200000) as the OS-specific mask. *)
Theorem C151_exclude_refuted : shFlags 0x80000000 = ["SHF_MASKPROC"; "(Elf::Word)SHF_EXCLUDE"]%string /\ shFlags 0x200000 = ["SHF_MASKOS"]%string.
Proof. split; reflexivity. Qed.
(** the type of a thread-local symbol (STT_TLS, 6) and of an indirect function (STT_GNU_IFUNC, 10), the binding of a unique one (STB_GNU_UNIQUE, 10) and the last processor-specific one (STB_HIPROC, 15) *)
Theorem C151_symbol_type_refuted : nth 6 symTypeNames ""%string = "STT_6"%string /\ nth 10 symTypeNames ""%string = "STT_A"%string /\ nth 10 bindingNames ""%string = "unknowna"%string /\
  nth 15 bindingNames ""%string = "STB_HIPROC + 1"%string.
Proof. repeat split; reflexivity. Qed.
(** an image that has no section header table shows one section, called "null" *)
Definition C151_bare : sehdr := mkSEh ([127; 69; 76; 70; 2; 1; 1; 0] ++ repeat 0 8) 4 62 1 0 0 0 0 64 56 0 0 0 0.
Theorem C151_no_sections_refuted : exists v ms, dumpElf tt noZ true 200 noMem (RFile (ehdrBytes C151_bare)) (fun l => l) sortD (ehdrBytes C151_bare) 0 None = Ok v /\ v = VObj ms /\
  In (txt "sections", VList [VObj [nf "size" 0; nf "uncompressedSize" 0; (txt "name", VStr (txt "null")); (txt "flags", VList []); nf "address" 0; nf "offset" 0; nf "link" 0; nf "info" 0; (txt "type", vs "SHT_NULL")]]) ms.
Proof. eexists _, _. split; [vm_compute; reflexivity|]. split; [reflexivity|]. vm_compute. tauto. Qed.
(** a symbol table whose sh_link is not a section is undefined behaviour *)
Definition C151_badlink : list sec := map secS [(mkSSh 0 0 0 0 0 0 0 0 0 0, []); (mkSSh 1 2 0 0 64 24 9 0 1 0, [115])].
Theorem C151_bad_link_refuted : dumpSections tt noZ true 200 noMem (RFile (repeat 0 100)) (fun l => l) C151_badlink false 0 C151_badlink = UB.
Proof. vm_compute. reflexivity. Qed.
(** two types pstack has no name for: the object has two members of the same name *)
Definition C152_two : list dph := map dphS [mkSPh 0x6474e553 4 0 0 0 0 0 8; mkSPh 0x70000001 4 0 0 0 0 0 8].
Theorem C152_duplicate_key_refuted : exists a b, snd (dumpSegs 200 noMem (RFile []) (fun l => l) sortD C152_two None) = Ok (VMap [(txt "invalid program header type", a); (txt "invalid program header type", b)]).
Proof. eexists _, _. vm_compute. reflexivity. Qed.
(** PT_DYNAMIC without a string table in a loaded segment (here no PT_LOAD at all, as in a separate debug image's stripped copy): a null pointer is dereferenced *)
Theorem C152_dynamic_refuted : snd (dumpSegs 200 noMem (RFile (flat_map dynBytes [(21, 0); (0, 0)])) (fun l => l) sortD (map dphS [mkSPh 2 6 0 0 0 32 32 8]) None) = UB.
Proof. vm_compute. reflexivity. Qed.
(** DT_PREINIT_ARRAY (32) is called DT_ENCODING; tags are cut to 32 bits, so that 2^32 + 1 is called DT_NEEDED *)
Theorem C152_tags_refuted : dynTagJ 32 = vs "DT_ENCODING" /\ dynTagJ (2 ^ 32 + 1) = vs "DT_NEEDED".
Proof. split; vm_compute; reflexivity. Qed.
(** the registers of a thread in a core file are not shown: "pr_reg" is an address in pstack, whatever they are *)
Theorem C153_registers_refuted : forall r p a b regs, zlen a = 2 -> zlen b = 4 -> statusOk p -> zlen regs = 216 -> 0 <= r < 2 ^ 64 ->
  means (prstatusJ r (statusBytes (mkPS (ps_signo p) (ps_code p) (ps_errno p) (ps_cursig p) (ps_pend p) (ps_hold p) (ps_pid p) (ps_ppid p) (ps_pgrp p) (ps_sid p) (ps_utime p) (ps_stime p) (ps_cutime p) (ps_cstime p) regs (ps_fpvalid p)) a b)) (statusDoc r p).
Proof.
  intros r p a b regs Ha Hb HO HL HR. set (q := mkPS _ _ _ _ _ _ _ _ _ _ _ _ _ _ _ _). change (statusDoc r p) with (statusDoc r q). apply status_doc; [exact HR|exact Ha|exact Hb|]. unfold statusOk in *. cbn. tauto.
Qed.
Print Assumptions C153_registers_refuted.
(** a note called CORE of type NT_PRSTATUS that is shorter, as in a core file of a 32-bit process: the dump fails *)
Theorem C153_short_refuted : dumpNote noMem 0 (mkNd (lit "CORE") 1 (repeat 0 144)) = Throw.
Proof. vm_compute. reflexivity. Qed.
(** an OS-specific or processor-specific e_type, or an OSABI above 12 (ARM 97, standalone 255), reads past the end of an array *)
Definition C154_bare (ty abi : Z) : list Z := ehdrBytes (mkSEh ([127; 69; 76; 70; 2; 1; 1; abi] ++ repeat 0 8) ty 62 1 0 0 0 0 64 56 0 0 0 0).
Theorem C154_unknown_refuted : dumpElf tt noZ true 200 noMem (RFile (C154_bare 0xfe00 0)) (fun l => l) sortD (C154_bare 0xfe00 0) 0 None = UB /\
  dumpElf tt noZ true 200 noMem (RFile (C154_bare 3 97)) (fun l => l) sortD (C154_bare 3 97) 0 None = UB.
Proof. split; vm_compute; reflexivity. Qed.
Print Assumptions C151_exclude_refuted.
Print Assumptions C151_symbol_type_refuted.
Print Assumptions C151_no_sections_refuted.
Print Assumptions C151_bad_link_refuted.
Print Assumptions C152_duplicate_key_refuted.
Print Assumptions C152_dynamic_refuted.
Print Assumptions C152_tags_refuted.
Print Assumptions C153_short_refuted.
Print Assumptions C154_unknown_refuted.
