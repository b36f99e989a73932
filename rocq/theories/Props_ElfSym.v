(** Properties C114 to C116: symbol versions, symbols by name, build IDs and the separate debug image (see properties.jsonl). *)
From Verif Require Import Base Leb LebSpec DwarfReader DwarfReaderProofs Reader ReaderSpec ReaderProofs ReaderArray ReaderArrayProofs CfiSpec CfiProofs ElfHash ElfHashSpec ElfHashProofs
  ElfObj ElfObjSpec ElfObjProofs ElfFile ElfFileSpec ElfFileProofs ElfFileProofs2 ElfFileProofs3 Props_Elf.

(** An image with these sections, whose names are distinct and the first of which is the empty one. *)
Record image (m : memory) (io : reader) (fuel : nat) (file : list Z) (h : sehdr) (secs : list (sshdr * list Z)) : Prop := {
  im_holds : holdsImage m io file;
  im_fuel : (length file < fuel)%nat;
  im_ehdr : ehdrOk h;
  im_ident : identElf64 (x_ident h);
  im_secs : exists first stri str, hasSections file h first secs stri str /\ z_type first = 0;
  im_names : NoDup (map snd secs) }.
Lemma image_secs m io fuel file h secs : image m io fuel file h secs -> exists first n0 rest, secs = (first, n0) :: rest /\ z_type first = 0.
Proof. intros [_ _ _ _ (first & stri & str & HS & T) _]. destruct (hs_first _ _ _ _ _ _ HS) as (n & r & E). exists first, n, r. split; assumption. Qed.
(** What sectionHeaders gives for it (C112) *)
Definition sectionList (secs : list (sshdr * list Z)) : list sec := map secS secs.
Theorem C114_section_list_partial : forall (zst : Type) (zinit : zst) zinflate zlib m io fuel file h secs, image m io fuel file h secs ->
  exists eh, readEhdr m io = Ok eh /\ snd (sectionHeaders zinit zinflate zlib fuel m io eh None) = Ok (sectionList secs).
Proof.
  intros zst zinit zi zl m io fuel file h secs [HI Hf HO Hid (first & stri & str & HS & T) ND]. exists (ehS h).
  split; [apply (readEhdr_spec m io file); [assumption..|now apply identElf64_v1|exact (hs_header _ _ _ _ _ _ HS)]|].
  rewrite (sectionHeaders_spec zinit zi zl m io file HI fuel Hf h first secs stri str HO HS). reflexivity.
Qed.

(** ** C114 *)
(** For every image whose .gnu.version_r and .gnu.version_d, if there, are as the LSB says, with distinct version numbers: the name of every version,
    whether the symbol is hidden (bit 15) or not; none for the reserved numbers; an exception for a number there is no version for.  The predecessors
    and the files are those recorded. *)
Lemma mapAt_some l k v : NoDup (map fst l) -> In (k, v) l -> mapAt l k = Some v.
Proof.
  intros ND HIn. unfold mapAt. assert (NR : NoDup (map fst (rev l))) by (rewrite map_rev; now apply NoDup_rev). assert (HR : In (k, v) (rev l)) by now apply in_rev in HIn.
  revert NR HR. generalize (rev l). clear. intros l. induction l as [|[k' v'] l IH]; intros ND H; [destruct H|]. cbn [find fst]. cbn [map fst] in ND. apply NoDup_cons_iff in ND as [N1 N2]. destruct H as [H|H].
  - injection H as -> ->. rewrite Z.eqb_refl. reflexivity.
  - destruct (k' =? k) eqn:E; [|now apply IH]. exfalso. apply N1. replace k' with k by lia. apply (in_map fst) in H. exact H.
Qed.
Lemma mapAt_in l k v : mapAt l k = Some v -> In (k, v) l.
Proof.
  unfold mapAt. destruct (find _ (rev l)) as [e|] eqn:E; [|discriminate]. intros X. injection X as <-. apply find_some in E as [E1 E2]. apply in_rev in E1. destruct e as [k' v']. cbn in *. replace k with k' by lia. exact E1.
Qed.
Definition firstNames (defs : list (Z * list (list Z))) : list (Z * list Z) := flat_map (fun d => match snd (fst d) with Some s => [(fst (fst d), s)] | None => [] end) (map defS defs).
Definition secondNames (defs : list (Z * list (list Z))) : list (Z * list Z) := flat_map (fun d => match snd d with Some s => [(fst (fst d), s)] | None => [] end) (map defS defs).
Lemma firstNames_in defs k name : In (k, name) (firstNames defs) <-> definedVersion defs k name.
Proof.
  unfold firstNames, definedVersion. rewrite in_flat_map. split.
  - intros (x & Hx & HIn). apply in_map_iff in Hx as ((k' & names) & <- & Hd). unfold defS in HIn. cbn [fst snd] in HIn. destruct names as [|n r]; [destruct HIn|]. cbn in HIn. destruct HIn as [HIn|[]]. injection HIn as -> ->. now exists r.
  - intros (r & Hd). exists (defS (k, name :: r)). split; [now apply in_map|]. now left.
Qed.
Lemma secondNames_in defs k name : In (k, name) (secondNames defs) <-> exists n r, In (k, n :: name :: r) defs.
Proof.
  unfold secondNames. rewrite in_flat_map. split.
  - intros (x & Hx & HIn). apply in_map_iff in Hx as ((k' & names) & <- & Hd). unfold defS in HIn. cbn [fst snd] in HIn. destruct names as [|n [|n2 r]]; [destruct HIn..|]. cbn in HIn. destruct HIn as [HIn|[]]. injection HIn as -> ->. now exists n, r.
  - intros (n & r & Hd). exists (defS (k, n :: name :: r)). split; [now apply in_map|]. now left.
Qed.
Lemma names_keys (f : Z * option (list Z) * option (list Z) -> option (list Z)) defs : NoDup (map fst defs) ->
  NoDup (map fst (flat_map (fun d => match f d with Some s => [(fst (fst d), s)] | None => [] end) (map defS defs))) /\
  forall k, In k (map fst (flat_map (fun d => match f d with Some s => [(fst (fst d), s)] | None => [] end) (map defS defs))) -> In k (map fst defs).
Proof.
  induction defs as [|[k names] defs IH]; intros ND; [split; [constructor|intros k []]|]. cbn [map fst] in ND. apply NoDup_cons_iff in ND as [N1 N2]. destruct (IH N2) as [I1 I2].
  cbn [map flat_map]. destruct (f (defS (k, names))) as [s|]; cbn [app map fst defS].
  - split; [constructor; [intros X; apply N1, I2, X|exact I1]|]. intros k' [<-|X]; [now left|right; now apply I2].
  - split; [exact I1|]. intros k' X. right. now apply I2.
Qed.
Lemma nodup_app {A} (x y : list A) : NoDup (x ++ y) <-> NoDup x /\ (forall k, In k x -> ~ In k y) /\ NoDup y.
Proof.
  induction x as [|a x IH]; cbn [app].
  - split; [intros H; split; [constructor|split; [intros k []|exact H]]|now intros (_ & _ & H)].
  - rewrite !NoDup_cons_iff, IH, in_app_iff. split.
    + intros (N & H1 & H2 & H3). split; [split; tauto|]. split; [|exact H3]. intros k [<-|X]; [tauto|now apply H2].
    + intros ((N & H1) & H2 & H3). split; [intros [X|X]; [tauto|now apply (H2 a (or_introl eq_refl))]|]. split; [exact H1|]. split; [|exact H3]. intros k X. apply H2. now right.
Qed.
Theorem C114_symbol_versions_partial : forall (zst : Type) (zinit : zst) zinflate zlib m io fuel file h secs needs defs, image m io fuel file h secs ->
  hasNeeds file secs needs -> hasDefs file secs defs -> NoDup (map fst (neededVersions needs) ++ map fst defs) ->
  let version := symbolVersion zinit zinflate zlib fuel m io (sectionList secs) in
  (forall idx, 0 <= idx < 65536 ->
    (idx mod 32768 < 2 -> version idx = Ok None) /\
    (2 <= idx mod 32768 -> forall name, In (idx mod 32768, name) (neededVersions needs) \/ definedVersion defs (idx mod 32768) name -> version idx = Ok (Some name)) /\
    (2 <= idx mod 32768 -> (forall name, ~ In (idx mod 32768, name) (neededVersions needs) /\ ~ definedVersion defs (idx mod 32768) name) -> version idx = Throw)) /\
  exists sv, symbolVersions zinit zinflate zlib fuel m io (sectionList secs) = Ok sv /\
    (forall k p, mapAt (svPreds sv) k = Some p <-> exists n r, In (k, n :: p :: r) defs) /\
    svFiles sv = map (fun n => (fst n, map fst (snd n))) needs.
Proof.
  intros zst zinit zi zl m io fuel file h secs needs defs IM HN HD ND version. destruct (image_secs _ _ _ _ _ _ IM) as (first & n0 & rest & E & T).
  pose proof (symbolVersions_spec zinit zi zl fuel m io file (im_holds _ _ _ _ _ _ IM) (im_fuel _ _ _ _ _ _ IM) secs first n0 rest E T (im_names _ _ _ _ _ _ IM) needs defs HN HD) as SV.
  fold (firstNames defs) in SV. fold (secondNames defs) in SV. fold (sectionList secs) in SV.
  assert (EC : concat (map snd needs) = neededVersions needs) by (unfold neededVersions; symmetry; apply flat_map_concat_map).
  rewrite EC in SV. apply nodup_app in ND as ND'. destruct ND' as (D1 & D2 & D3).
  assert (KN : NoDup (map fst (neededVersions needs ++ firstNames defs))).
  { rewrite map_app. destruct (names_keys (fun d => snd (fst d)) defs D3) as [K1 K2]. apply nodup_app. split; [exact D1|]. split; [|exact K1]. intros k X Y. apply (D2 k X). now apply K2. }
  split.
  - intros idx R. assert (EL : Z.land idx 32767 = idx mod 32768) by (change 32767 with (Z.ones 15); rewrite Z.land_ones by lia; reflexivity).
    unfold version, symbolVersion. rewrite SV. cbn [bind svVersions]. rewrite EL. split; [|split].
    + intros Hk. destruct (idx mod 32768 >=? 2) eqn:G; [lia|reflexivity].
    + intros Hk name HIn. destruct (idx mod 32768 >=? 2) eqn:G; [|lia]. rewrite (mapAt_some _ _ name KN); [reflexivity|]. apply in_or_app. destruct HIn as [HIn|HIn]; [now left|right; now apply firstNames_in].
    + intros Hk HIn. destruct (idx mod 32768 >=? 2) eqn:G; [|lia]. destruct (mapAt _ _) as [v|] eqn:M; [|reflexivity]. exfalso. apply mapAt_in in M. destruct (HIn v) as [Q1 Q2]. apply in_app_or in M as [M|M]; [now apply Q1|apply Q2; now apply firstNames_in].
  - eexists. split; [exact SV|]. cbn [svPreds svFiles]. split; [|reflexivity]. intros k p. rewrite <- secondNames_in. split; [apply mapAt_in|].
    intros X. apply mapAt_some; [exact (proj1 (names_keys snd defs D3))|exact X].
Qed.
Print Assumptions C114_symbol_versions_partial.
(** .gnu.version: the entry of the symbol; without the section none; an exception for a symbol it has no entry for. *)
Lemma le2_len v : zlen (leBytes 2 v) = 2. Proof. apply leBytes_len. Qed.
Lemma holds_short fuel m i d off n : ioHolds fuel m i d -> 0 <= off -> 0 < n < W64 / 4 -> off < W64 / 2 -> zlen d < off + n -> ioObj m i off n = Throw.
Proof.
  intros H Ho Hn Hw Hb. pose proof (zlen_nonneg d) as D0. unfold ioObj, readObj. change (1 =? 0) with false. cbv iota. rewrite Z.mul_1_l, u64_id by (unfold isU64, W64 in *; lia).
  destruct (ih_serves _ _ _ _ H off n Ho ltac:(lia) ltac:(unfold W64 in *; lia)) as [E|[E P]]; rewrite E; [|reflexivity].
  rewrite prefix_ofList, Z2Nat.id by lia. cbn [bind]. destruct (zlen _ =? n) eqn:X; [|reflexivity]. rewrite zlen_ztake, zlen_zdrop in X by lia. lia.
Qed.
Lemma version_safe : safeName dotVersion. Proof. unfold safeName, dotVersion. repeat split; discriminate. Qed.
Theorem C114_version_index_partial : forall (zst : Type) (zinit : zst) zinflate zlib m io fuel file h secs, image m io fuel file h secs ->
  let index := versionIdx zinit zinflate zlib fuel m io (sectionList secs) in
  (noSection secs dotVersion -> forall idx, index idx = Ok None) /\
  (forall i vs link, sectionIs file secs i dotVersion 1879048191 (flat_map (leBytes 2) vs) link -> Forall (fun v => 0 <= v < 65536) vs ->
     (forall idx v, znth idx vs = Some v -> index idx = Ok (Some v)) /\ (forall idx, zlen vs <= idx < 2 ^ 61 -> index idx = Throw)).
Proof.
  intros zst zinit zi zl m io fuel file h secs IM index. destruct (image_secs _ _ _ _ _ _ IM) as (first & n0 & rest & E & T). unfold index, versionIdx, sectionList. change gnuVersion with dotVersion. split.
  - intros HN idx. destruct (find_none zinit zi zl fuel file (im_fuel _ _ _ _ _ _ IM) secs first n0 rest E T dotVersion 1879048191 HN ltac:(intros r; discriminate) version_safe) as (i & E1 & E2).
    rewrite E1. cbn [bind]. rewrite E2. reflexivity.
  - intros i vs link HS HV.
    destruct (find_section zinit zi zl fuel m io file (im_holds _ _ _ _ _ _ IM) (im_fuel _ _ _ _ _ _ IM) secs first n0 rest E T (im_names _ _ _ _ _ _ IM) i _ _ _ link HS ltac:(lia) ltac:(lia) eq_refl version_safe) as (E1 & E2 & x & E3 & E4).
    pose proof (ih_len _ _ _ _ E4) as HL. rewrite (flat_len (leBytes 2) 2 le2_len) in HL. pose proof (zlen_nonneg vs) as V0. split.
    + intros idx v Hz. pose proof (znth_some _ _ _ Hz) as R. rewrite E1. cbn [bind]. rewrite E2, E3. cbn [bind]. rewrite u64_id by (unfold isU64, W64 in *; lia).
      rewrite (holds_obj _ _ _ _ (idx * 2) 2 E4) by (rewrite ?(flat_len (leBytes 2) 2 le2_len); lia). cbn [bind]. rewrite (flat_at (leBytes 2) 2 ltac:(lia) le2_len vs idx v Hz). do 2 f_equal. apply (fld_only 2).
      rewrite Forall_forall in HV. apply (HV v). rewrite znth_nth_error in Hz by lia. eapply nth_error_In, Hz.
    + intros idx R. change (2 ^ 61) with (W64 / 8) in R. rewrite E1. cbn [bind]. rewrite E2, E3. cbn [bind]. rewrite u64_id by (unfold isU64, W64 in *; lia).
      rewrite (holds_short _ _ _ _ (idx * 2) 2 E4); [reflexivity|lia|unfold W64; lia|unfold W64 in *; lia|]. rewrite (flat_len (leBytes 2) 2 le2_len). lia.
Qed.
Print Assumptions C114_version_index_partial.

(** ** C115 *)
Definition dotSymtab : list Z := [46; 115; 121; 109; 116; 97; 98].
Lemma symtab_safe : safeName dotSymtab. Proof. unfold safeName, dotSymtab. repeat split; discriminate. Qed.
(** Whatever was looked up before: the last symbol of the name with its index, or the undefined one if there is none of that name. *)
Theorem C115_symbol_by_name_partial : forall (zst : Type) (zinit : zst) zinflate zlib m io fuel file h secs i link syms str, image m io fuel file h secs ->
  sectionIs file secs i dotSymtab 2 (flat_map encodeSym syms) link -> linkedStrings file secs link str -> Forall (wfSym str) syms ->
  exists a b, symtabOf zinit zinflate zlib fuel m io (sectionList secs) dotSymtab 2 = Ok (a, b) /\
  forall before name, let answer := snd (findDebugSymbol fuel m a b (symHistory fuel m a b None before) name) in
    (exists k s, answer = Ok (mkSym (ssNameOff s) (ssInfo s) (ssOther s) (ssShndx s) (ssValue s) (ssSize s), k) /\ znth k syms = Some s /\ ssName s = name /\
       forall j s', k < j -> znth j syms = Some s' -> ssName s' <> name) \/
    (answer = Ok (mkSym 0 0 0 0 0 0, 0) /\ forall j s, znth j syms = Some s -> ssName s <> name).
Proof.
  intros zst zinit zi zl m io fuel file h secs i link syms str IM HS HL WF. destruct (image_secs _ _ _ _ _ _ IM) as (first & n0 & rest & E & T).
  destruct (find_section zinit zi zl fuel m io file (im_holds _ _ _ _ _ _ IM) (im_fuel _ _ _ _ _ _ IM) secs first n0 rest E T (im_names _ _ _ _ _ _ IM) i _ _ _ link HS ltac:(lia) ltac:(lia) eq_refl symtab_safe) as (E1 & E2 & x & E3 & E4).
  destruct (link_section zinit zi zl fuel m io file (im_holds _ _ _ _ _ _ IM) (im_fuel _ _ _ _ _ _ IM) secs i _ 2 _ link str HS ltac:(lia) ltac:(lia) HL) as (E5 & y & E6 & E7).
  exists x, y. split; [unfold symtabOf, sectionList; rewrite E1; cbn [bind]; rewrite E3; cbn [bind]; rewrite E5; cbn [bind]; rewrite E6; reflexivity|].
  intros before name answer. assert (EA : answer = lookS m x syms name).
  { unfold answer. destruct (symHistory_spec fuel m x y syms str E4 E7 WF before) as [-> | ->]; [rewrite (find_first fuel m x y syms str E4 E7 WF)|rewrite (find_later fuel m x y syms E4)]; reflexivity. }
  rewrite EA. destruct (lookS_spec fuel m x syms str E4 WF name) as [(k & s & L)|L]; [left; exists k, s; exact L|right; exact L].
Qed.
Print Assumptions C115_symbol_by_name_partial.
(** Refuted: a damaged table gives the same result every time.  The first lookup fails; later ones answer from what had been read until then, and say
    that symbols after that point do not exist. *)
Definition C115_sym : ssym := mkSS [97] 1 18 0 1 4096 8.
Theorem C115_damaged_refuted : exists file a b name, zlen file = 72 /\ a = IoR (rview (RFile file) 40 48) /\ b = IoR (rview (RFile file) 33 7) /\
  findDebugSymbol 100 (fun _ => None) a b None name = (Some [([97], 0)], Throw) /\
  snd (findDebugSymbol 100 (fun _ => None) a b (Some [([97], 0)]) name) = Ok (mkSym 1 18 0 1 4096 8, 0) /\
  snd (findDebugSymbol 100 (fun _ => None) a b (Some [([97], 0)]) [98]) = Ok (undef, 0).
Proof.
  exists (repeat 0 34 ++ [97; 0; 98; 0; 0; 0] ++ encodeSym C115_sym ++ repeat 0 8). do 3 eexists. split; [vm_compute; reflexivity|]. split; [reflexivity|]. split; [reflexivity|].
  split; [|split]; [instantiate (1 := [97])|..]; vm_compute; reflexivity.
Qed.
Print Assumptions C115_damaged_refuted.

(** ** C116 *)
(** An image's build ID: the descriptor of the first note called "GNU" of type 3 in its note segments; empty if there is none. *)
Theorem C116_build_id_partial : forall file phs nss fuel, zlen file + 32 < W64 ->
  Forall2 (fun ph ns => ns <> [] /\ wfNotes ns /\ at_ file (p_offset ph) (flat_map encodeNote ns) /\ p_filesz ph = zlen (flat_map encodeNote ns)) phs nss ->
  (length (concat nss) < fuel)%nat ->
  exists notes, segNotes fuel file phs 0 = Ok notes /\
  (forall pre n post, concat nss = pre ++ n :: post -> snName n = [71; 78; 85] -> snType n = 3 -> Forall (fun x => ~ (snName x = [71; 78; 85] /\ snType x = 3)) pre -> imageBuildId notes = snDesc n) /\
  (Forall (fun x => ~ (snName x = [71; 78; 85] /\ snType x = 3)) (concat nss) -> imageBuildId notes = []).
Proof.
  intros file phs nss fuel Hf H Hl. eexists. split; [exact (C32_segment_notes_partial file phs nss fuel Hf H Hl)|].
  assert (B : forall x, ~ (snName x = [71; 78; 85] /\ snType x = 3) -> beq (snName x) [71; 78; 85] && (snType x =? 3) = false).
  { intros x Hx. destruct (beq (snName x) [71; 78; 85]) eqn:E1; [|reflexivity]. apply beq_spec in E1. destruct (snType x =? 3) eqn:E2; [|reflexivity]. exfalso. apply Hx. split; [exact E1|lia]. }
  split.
  - intros pre n post -> N T F. unfold imageBuildId. induction F as [|x pre Hx F IH]; cbn [app map find ndName ndType].
    + rewrite N, T. reflexivity.
    + rewrite (B x Hx). exact IH.
  - clear H Hl. intros F. unfold imageBuildId. induction F as [|x l Hx F IH]; cbn [map find ndName ndType]; [reflexivity|]. rewrite (B x Hx). exact IH.
Qed.
Print Assumptions C116_build_id_partial.
(** A debug image's: the descriptor of the note at the start of .note.gnu.build-id. *)
Definition dotBuildId : list Z := [46; 110; 111; 116; 101; 46; 103; 110; 117; 46; 98; 117; 105; 108; 100; 45; 105; 100].
Lemma buildid_safe : safeName dotBuildId. Proof. unfold safeName, dotBuildId. repeat split; discriminate. Qed.
Theorem C116_debug_build_id_partial : forall (zst : Type) (zinit : zst) zinflate zlib m io fuel file h secs, image m io fuel file h secs ->
  (noSection secs dotBuildId -> debugBuildId zinit zinflate zlib fuel m io (sectionList secs) = Ok []) /\
  (forall i link n rest, sectionIs file secs i dotBuildId 7 (encodeNote n ++ rest) link -> wfNote n -> snName n = [71; 78; 85] -> snType n = 3 -> snDesc n <> [] ->
     debugBuildId zinit zinflate zlib fuel m io (sectionList secs) = Ok (snDesc n)).
Proof.
  intros zst zinit zi zl m io fuel file h secs IM. destruct (image_secs _ _ _ _ _ _ IM) as (first & n0 & rest & E & T). unfold debugBuildId, sectionList. change noteBuildId with dotBuildId. split.
  - intros HN. destruct (find_none zinit zi zl fuel file (im_fuel _ _ _ _ _ _ IM) secs first n0 rest E T dotBuildId 7 HN ltac:(intros r; discriminate) buildid_safe) as (i & E1 & E2).
    rewrite E1. cbn [bind]. rewrite E2. reflexivity.
  - intros i link n more HS W HN HT HD.
    destruct (find_section zinit zi zl fuel m io file (im_holds _ _ _ _ _ _ IM) (im_fuel _ _ _ _ _ _ IM) secs first n0 rest E T (im_names _ _ _ _ _ _ IM) i _ _ _ link HS ltac:(lia) ltac:(lia) eq_refl buildid_safe) as (E1 & E2 & x & E3 & E4).
    rewrite E1. cbn [bind]. rewrite E2, E3. cbn [bind]. destruct W as (_ & _ & W1 & W2 & W3 & W4 & W5). rewrite HN in W1, W5. change (zlen [71; 78; 85]) with 3 in *. change (2 ^ 32) with 4294967296 in *. change (2 ^ 31) with 2147483648 in *.
    assert (P1 : snPad1 n = []). { destruct (snPad1 n) as [|p r]; [reflexivity|]. exfalso. rewrite zlen_cons in *. pose proof (zlen_nonneg r). lia. }
    assert (D0 : 0 < zlen (snDesc n)). { destruct (snDesc n) as [|p r]; [congruence|]. rewrite zlen_cons. pose proof (zlen_nonneg r). lia. }
    pose proof (zlen_nonneg (snPad2 n)) as P2. pose proof (zlen_nonneg more) as P3.
    set (hd := leBytes 4 (3 + 1) ++ leBytes 4 (zlen (snDesc n)) ++ leBytes 4 (snType n)).
    assert (HL : zlen hd = 12) by (unfold hd; rewrite !zlen_app, !leBytes_len; reflexivity).
    assert (ED : encodeNote n ++ more = hd ++ [71; 78; 85; 0] ++ snDesc n ++ snPad2 n ++ more).
    { unfold encodeNote, hd. rewrite HN, P1. change (zlen [71; 78; 85]) with 3. rewrite <- !app_assoc. reflexivity. }
    assert (EL : zlen (encodeNote n ++ more) = 16 + zlen (snDesc n) + zlen (snPad2 n) + zlen more) by (rewrite ED, !zlen_app, HL; change (zlen [71; 78; 85; 0]) with 4; lia).
    rewrite (ih_size _ _ _ _ E4), EL. destruct (_ >? 16) eqn:G; [|lia].
    rewrite (holds_at _ _ _ _ 0 hd 12 E4); [|split; [lia|]|exact HL|lia].
    2: { rewrite zdrop_neg by lia. rewrite ED. apply ztake_app_zlen. }
    assert (R1 : 0 <= snType n < 2 ^ 32) by (change (2 ^ 32) with 4294967296; lia). assert (R2 : 0 <= zlen (snDesc n) < 2 ^ 32) by (change (2 ^ 32) with 4294967296; lia).
    cbn [bind]. assert (F1 : fld 4 hd 8 = snType n) by (unfold hd; fldgo). assert (F2 : fld 4 hd 0 = 4) by (unfold hd; change (3 + 1) with 4; apply (fld_head 4); lia). assert (F3 : fld 4 hd 4 = zlen (snDesc n)) by (unfold hd; fldgo).
    rewrite F1, F2, F3, HT. change (3 =? 3) with true. cbv iota. change (12 + roundup2 4 4) with 16.
    unfold readObj. destruct (zlen (snDesc n) =? 0) eqn:Z0; [lia|]. rewrite Z.mul_1_r, u64_id by (unfold isU64, W64; lia). pose proof (ih_len _ _ _ _ E4) as HW.
    assert (ES : ztake (zlen (snDesc n)) (zdrop 16 (encodeNote n ++ more)) = snDesc n).
    { rewrite ED. rewrite app_assoc. change 16 with (12 + 4). rewrite <- HL. change 4 with (zlen [71; 78; 85; 0]). rewrite <- zlen_app, zdrop_app_zlen. apply ztake_app_zlen. }
    destruct (ih_serves _ _ _ _ E4 16 (zlen (snDesc n)) ltac:(lia) ltac:(lia) ltac:(unfold W64 in *; lia)) as [R|[R P]]; rewrite ?prefix_ofList, ?Z2Nat.id in * by lia.
    + rewrite R, ES. cbn [bind]. now rewrite Z.eqb_refl.
    + rewrite ES in P. congruence.
Qed.
Print Assumptions C116_debug_build_id_partial.
(** The debug image: by build ID; else as .gnu_debuglink names it; none with --no-ext-debug (or for a debug image itself: initial state (true, None)); the
    same one every time.  Here nothing fails, and the image found has the same build ID (see below). *)
Theorem C116_debug_image_partial : forall e bid link byId byLink calls,
  dBid e = Ok bid -> dById e bid = Ok byId -> dLink e = Ok link -> (forall l, link = Some l -> dByPath e l = Ok byLink) ->
  (forall d, byId = Some d \/ byLink = Some d -> dBidOf e d = Ok bid) ->
  exists moved, snd (getDebug e (dbgHistory e (false, None) calls)) =
    Ok (if dNoExt e then None else match byId with Some d => Some d | None => match link with Some _ => byLink | None => None end end, moved).
Proof.
  intros e bid link byId byLink calls H1 H2 H3 H4 H5.
  assert (Loaded : forall o n, dbgHistory e (true, o) n = (true, o)) by (intros o; induction n as [|n IH]; [reflexivity|exact IH]).
  destruct (dNoExt e) eqn:N.
  - assert (G : forall n, dbgHistory e (false, None) n = (false, None)) by (induction n as [|n IH]; [reflexivity|]; cbn [dbgHistory getDebug]; rewrite N; exact IH).
    rewrite G. cbn [getDebug]. rewrite N. exists 0. reflexivity.
  - set (res := match byId with Some d => Some d | None => match link with Some _ => byLink | None => None end end).
    assert (F : exists mv, getDebug e (false, None) = ((true, res), Ok (res, mv))).
    { cbn [getDebug]. rewrite N. cbn [orb]. rewrite H1. cbn [bind]. rewrite H2. cbn [bind].
      assert (G : forall d, dBidOf e d = Ok bid -> exists mv, ((true, Some d), let* dbid := dBidOf e d in
         let diff := u64 (dDynAddr e - dDynAddrOf e d) in
         if negb (beq dbid bid) && negb (dVerbose e) then UB else Ok (Some d, if negb (dDynAddrOf e d =? dDynAddr e) && dVerbose e then diff else 0)) = ((true, Some d), Ok (Some d, mv))).
      { intros d Hd. rewrite Hd. cbn [bind]. rewrite (proj2 (beq_spec bid bid) eq_refl). cbn [negb andb]. eexists. reflexivity. }
      unfold res. destruct byId as [d|].
      - apply G. apply H5. now left.
      - rewrite H3. cbn [bind]. destruct link as [l|]; [|exists 0; reflexivity]. rewrite (H4 l eq_refl). cbn [bind]. destruct byLink as [d|]; [|exists 0; reflexivity]. apply G, H5. now right. }
    destruct F as [mv F]. destruct calls as [|n].
    + cbn [dbgHistory]. rewrite F. exists mv. reflexivity.
    + cbn [dbgHistory]. rewrite F. cbn [fst]. rewrite Loaded. cbn [getDebug orb]. exists 0. reflexivity.
Qed.
Print Assumptions C116_debug_image_partial.
Definition C116_env (verbose : bool) (dbid : list Z) (dyn : Z) : dbgEnv :=
  mkDE false verbose (Ok [1; 2]) (fun _ => Ok None) (Ok (Some [97])) (fun _ => Ok (Some 5)) (fun _ => Ok dbid) 4096 (fun _ => dyn).
Example C116_debug_nonvacuous : exists link byId byLink, dBid (C116_env false [1; 2] 4096) = Ok [1; 2] /\ dById (C116_env false [1; 2] 4096) [1; 2] = Ok byId /\
  dLink (C116_env false [1; 2] 4096) = Ok link /\ (forall l, link = Some l -> dByPath (C116_env false [1; 2] 4096) l = Ok byLink) /\ byLink = Some 5 /\
  snd (getDebug (C116_env false [1; 2] 4096) (false, None)) = Ok (Some 5, 0).
Proof. exists (Some [97]), None, (Some 5). repeat split. Qed.
(** Refuted: a debug image with another build ID is handled.  Unless a debug stream is set, the message about it is written to a null pointer. *)
Theorem C116_mismatch_refuted : snd (getDebug (C116_env false [3; 4] 4096) (false, None)) = UB.
Proof. reflexivity. Qed.
Print Assumptions C116_mismatch_refuted.
(** Refuted: debug information for another address (a prelinked image) is moved.  Only with a debug stream set. *)
Theorem C116_prelink_refuted : snd (getDebug (C116_env true [1; 2] 0) (false, None)) = Ok (Some 5, 4096) /\ snd (getDebug (C116_env false [1; 2] 0) (false, None)) = Ok (Some 5, 0).
Proof. split; reflexivity. Qed.
Print Assumptions C116_prelink_refuted.
(** Refuted: a failure is reported every time.  If the first call fails (say, a damaged debug file), the image has no debug image from then on, although
    one could be found by the other means. *)
Definition C116_fail : dbgEnv := mkDE false false (Ok [1; 2]) (fun _ => Throw) (Ok (Some [97])) (fun _ => Ok (Some 5)) (fun _ => Ok [1; 2]) 0 (fun _ => 0).
Theorem C116_failure_refuted : snd (getDebug C116_fail (false, None)) = Throw /\ snd (getDebug C116_fail (dbgHistory C116_fail (false, None) 1)) = Ok (None, 0).
Proof. split; reflexivity. Qed.
Print Assumptions C116_failure_refuted.

(** A concrete image with all of these. *)
Definition C114_s0 : ssym := mkSS [] 0 0 0 0 0 0.
Definition C114_s1 : ssym := mkSS [102] 14 18 0 1 4096 8.
Definition C114_note : snote := mkSN [71; 78; 85] 3 [1; 2; 3] [] [].
Definition C114_h : sehdr := mkSEh ([127; 69; 76; 70; 2; 1; 1] ++ repeat 0 9) 3 62 1 0 0 451 0 64 56 0 64 9 1.
Definition C114_secs : list (sshdr * list Z) := [
  (mkSSh 0 0 0 0 0 0 0 0 0 0, []);
  (mkSSh 1 3 0 0 64 98 0 0 1 0, [46; 115; 104; 115; 116; 114; 116; 97; 98]);
  (mkSSh 11 3 0 0 162 16 0 0 1 0, [46; 100; 121; 110; 115; 116; 114]);
  (mkSSh 19 1879048190 0 0 178 48 2 0 1 0, [46; 103; 110; 117; 46; 118; 101; 114; 115; 105; 111; 110; 95; 114]);
  (mkSSh 34 1879048189 0 0 226 64 2 0 1 0, [46; 103; 110; 117; 46; 118; 101; 114; 115; 105; 111; 110; 95; 100]);
  (mkSSh 49 6 0 0 290 64 2 0 1 0, [46; 100; 121; 110; 97; 109; 105; 99]);
  (mkSSh 58 1879048191 0 0 354 6 7 0 1 0, [46; 103; 110; 117; 46; 118; 101; 114; 115; 105; 111; 110]);
  (mkSSh 71 2 0 0 360 72 2 0 1 0, [46; 115; 121; 109; 116; 97; 98]);
  (mkSSh 79 7 0 0 432 19 0 0 1 0, [46; 110; 111; 116; 101; 46; 103; 110; 117; 46; 98; 117; 105; 108; 100; 45; 105; 100])].
Definition C114_file : list Z := ehdrBytes C114_h ++ ([0; 46; 115; 104; 115; 116; 114; 116; 97; 98; 0; 46; 100; 121; 110; 115; 116; 114; 0; 46; 103; 110; 117; 46; 118; 101; 114; 115; 105; 111; 110; 95; 114; 0; 46; 103; 110; 117; 46; 118; 101; 114; 115; 105; 111; 110; 95; 100; 0; 46; 100; 121; 110; 97; 109; 105; 99; 0; 46; 103; 110; 117; 46; 118; 101; 114; 115; 105; 111; 110; 0; 46; 115; 121; 109; 116; 97; 98; 0; 46; 110; 111; 116; 101; 46; 103; 110; 117; 46; 98; 117; 105; 108; 100; 45; 105; 100; 0]) ++
  ([0; 108; 0; 86; 49; 0; 86; 50; 0; 109; 0; 86; 51; 0; 102; 0]) ++
  (vneedBytes 1 2 1 16 0 ++ vauxBytes 7 0 2 3 16 ++ vauxBytes 8 0 3 6 0) ++
  (vdefBytes 1 1 1 1 9 20 28 ++ vdauxBytes 9 0 ++ vdefBytes 1 0 4 2 5 20 0 ++ vdauxBytes 11 8 ++ vdauxBytes 3 0) ++
  (flat_map dynBytes [(1, 1); (1879048191, 1); (1879048189, 2); (0, 0)]) ++
  (flat_map (leBytes 2) [0; 1; 32771]) ++
  (flat_map encodeSym [C114_s0; C114_s1; C114_s1]) ++
  (encodeNote C114_note) ++ flat_map (fun s => shdrBytes (fst s)) C114_secs.
Definition C114_str : list Z := [0; 108; 0; 86; 49; 0; 86; 50; 0; 109; 0; 86; 51; 0; 102; 0].
Definition C114_off : list Z := [0; 64; 162; 178; 226; 290; 354; 360; 432].
Ltac txt := split; [split; [lia|vm_compute; reflexivity]|repeat (apply Forall_cons; [lia|]); apply Forall_nil].
Ltac fat := split; [lia|vm_compute; reflexivity].
Lemma C114_all (P : Z -> sshdr * list Z -> Prop) : (forall k, (k < 9)%nat -> match nth_error C114_secs k with Some s => P (Z.of_nat k) s | None => True end) -> forall i s, znth i C114_secs = Some s -> P i s.
Proof.
  intros H i s Hz. pose proof (znth_some _ _ _ Hz) as R. change (zlen C114_secs) with 9 in R. rewrite znth_nth_error in Hz by lia. specialize (H (Z.to_nat i) ltac:(lia)). rewrite Hz, Z2Nat.id in H by lia. exact H.
Qed.
Example C114_image : image (fun _ => None) (RFile C114_file) 2000 C114_file C114_h C114_secs.
Proof.
  constructor.
  - split; [vm_compute; reflexivity|now left].
  - apply Nat.ltb_lt. vm_compute. reflexivity.
  - vm_compute; intuition congruence.
  - eexists; reflexivity.
  - exists (mkSSh 0 0 0 0 0 0 0 0 0 0), 1, (fst (nth 1 C114_secs (mkSSh 0 0 0 0 0 0 0 0 0 0, []))). split; [|reflexivity]. constructor.
    + fat.
    + eexists; eexists; reflexivity.
    + vm_compute; discriminate.
    + apply C114_all. intros k Hk. do 9 (destruct k as [|k]; [cbn [nth_error C114_secs fst]; split; [vm_compute; discriminate|vm_compute; reflexivity]|]). lia.
    + repeat (apply Forall_cons; [vm_compute; intuition congruence|]). apply Forall_nil.
    + left. split; [vm_compute; split; reflexivity|reflexivity].
    + left. split; [lia|reflexivity].
    + eexists; reflexivity.
    + vm_compute. intuition congruence.
    + repeat (apply Forall_cons; [cbn [nth fst snd C114_secs z_offset z_name]; txt|]). apply Forall_nil.
  - assert (H : forall l : list (list Z), (fix nd l := match l with [] => true | x :: r => negb (existsb (beq x) r) && nd r end) l = true -> NoDup l).
    { induction l as [|x r IH]; intros H; constructor; apply andb_prop in H as [H1 H2]; [|now apply IH]. intros X. apply negb_true_iff in H1. assert (existsb (beq x) r = true) by (apply existsb_exists; exists x; split; [exact X|now apply beq_spec]). congruence. }
    apply H. vm_compute. reflexivity.
Qed.
Ltac sis := eexists; split; [reflexivity|]; vm_compute; intuition congruence.
Example C114_strings : linkedStrings C114_file C114_secs 2 C114_str.
Proof. exists [46; 100; 121; 110; 115; 116; 114], 0. split; [sis|]. intros r. discriminate. Qed.
Lemma C114_dyn tag v pre post : [(1, 1); (1879048191, 1); (1879048189, 2); (0, 0)] = pre ++ (tag, v) :: post -> ~ In tag (map fst pre) -> hasDyn C114_file C114_secs tag v.
Proof.
  intros E N. exists 5, [(1, 1); (1879048191, 1); (1879048189, 2); (0, 0)], 2. split; [sis|]. split; [|exists pre, post; split; assumption].
  repeat (apply Forall_cons; [vm_compute; intuition congruence|]). apply Forall_nil.
Qed.
Example C114_nonvacuous : let needs := [([108], [(2, [86; 49]); (3, [86; 50])])] in let defs := [(1, [[109]]); (4, [[86; 51]; [86; 49]])] in
  hasNeeds C114_file C114_secs needs /\ hasDefs C114_file C114_secs defs /\ NoDup (map fst (neededVersions needs) ++ map fst defs) /\
  sectionIs C114_file C114_secs 6 dotVersion 1879048191 (flat_map (leBytes 2) [0; 1; 32771]) 7 /\
  symbolVersion tt (fun z i a f => (ZError, 0, [], tt)) true 2000 (fun _ => None) (RFile C114_file) (sectionList C114_secs) 32771 = Ok (Some [86; 50]).
Proof.
  cbv zeta. split; [|split; [|split; [|split]]].
  - right. exists 3, (vneedBytes 1 2 1 16 0 ++ vauxBytes 7 0 2 3 16 ++ vauxBytes 8 0 3 6 0), 2, C114_str. split; [sis|]. split; [exact C114_strings|].
    split; [apply (C114_dyn _ _ [(1, 1)] [(1879048189, 2); (0, 0)]); [reflexivity|cbn; lia]|].
    apply (NeedCons _ _ 0 1 1 16 0); [fat|reflexivity|unfold u32r; lia..|txt| |apply NeedNil].
    apply (AuxCons _ _ 16 7 0 2 3 16); [fat|lia|unfold u32r; lia..|txt|]. apply (AuxCons _ _ 32 8 0 3 6 0); [fat|lia|unfold u32r; lia..|txt|]. apply AuxNil.
  - right. exists 4, (vdefBytes 1 1 1 1 9 20 28 ++ vdauxBytes 9 0 ++ vdefBytes 1 0 4 2 5 20 0 ++ vdauxBytes 11 8 ++ vdauxBytes 3 0), 2, C114_str. split; [sis|]. split; [exact C114_strings|].
    split; [apply (C114_dyn _ _ [(1, 1); (1879048191, 1)] [(0, 0)]); [reflexivity|cbn; lia]|].
    apply (DefCons _ _ 0 1 1 1 9 20 28); [fat|lia|reflexivity|unfold u32r; lia..| |].
    + apply (NamesCons _ _ 20 9 0); [fat|unfold u32r; lia..|txt|apply NamesNil].
    + apply (DefCons _ _ 28 1 0 4 5 20 0); [fat|lia|reflexivity|unfold u32r; lia..| |apply DefNil].
      apply (NamesCons _ _ 48 11 8); [fat|unfold u32r; lia..|txt|]. apply (NamesCons _ _ 56 3 0); [fat|unfold u32r; lia..|txt|apply NamesNil].
  - cbn. repeat (constructor; [cbn; lia|]). constructor.
  - sis.
  - vm_compute. reflexivity.
Qed.
Example C115_nonvacuous : sectionIs C114_file C114_secs 7 [46; 115; 121; 109; 116; 97; 98] 2 (flat_map encodeSym [C114_s0; C114_s1; C114_s1]) 2 /\ Forall (wfSym C114_str) [C114_s0; C114_s1; C114_s1].
Proof.
  split; [sis|]. assert (W0 : wfSym C114_str C114_s0) by (unfold wfSym, isName, isByte; cbn; repeat split; try lia; [constructor|eexists; reflexivity]).
  assert (W1 : wfSym C114_str C114_s1) by (unfold wfSym, isName, isByte; cbn; repeat split; try lia; [repeat constructor; lia|eexists; reflexivity]).
  now repeat (apply Forall_cons; [assumption|]).
Qed.
Example C116_note_nonvacuous : sectionIs C114_file C114_secs 8 [46; 110; 111; 116; 101; 46; 103; 110; 117; 46; 98; 117; 105; 108; 100; 45; 105; 100] 7 (encodeNote C114_note ++ []) 0 /\ wfNote C114_note.
Proof. split; [sis|]. unfold wfNote. cbn. repeat split; try lia; repeat constructor; unfold isByte; lia. Qed.
Print Assumptions C114_section_list_partial.
