(** Property C178: the symbol at an address, from an image's bytes (see properties.jsonl). *)
From Verif Require Import Base Leb LebSpec DwarfReader DwarfReaderProofs Reader ReaderSpec ReaderProofs ReaderArray ReaderArrayProofs CfiSpec CfiProofs ElfHash ElfHashSpec ElfHashProofs
  ElfObj ElfObjSpec ElfObjProofs ElfFile ElfFileSpec ElfFileProofs ElfFileProofs2 ElfFileProofs3 Props_Elf Props_ElfSym Props_ElfDyn ElfAddr.

Definition dotDynsym : list Z := [46; 100; 121; 110; 115; 121; 109].
(** A table of symbols of this name and type, linked to the table of their names; none if there is no such section.  SHT_SYMTAB is 2, SHT_DYNSYM 11. *)
Inductive tableIs (file : list Z) (secs : list (sshdr * list Z)) (name : list Z) (type : Z) : list ssym -> Prop :=
| TableIs i link tab str : sectionIs file secs i name type (flat_map encodeSym tab) link -> linkedStrings file secs link str -> Forall (wfSym str) tab -> tableIs file secs name type tab
| TableNone : noSection secs name -> tableIs file secs name type [].
(** A symbol covers an address: it is of the type wanted (0: any), the address is one of its bytes', and its section is allocated (SHF_ALLOC, bit 1). *)
Definition covers (secs : list (sshdr * list Z)) (addr want : Z) (s : ssym) : Prop :=
  (want = 0 \/ ssInfo s mod 16 = want) /\ ssValue s <= addr < ssValue s + ssSize s /\
  exists h n, znth (ssShndx s) secs = Some (h, n) /\ Z.testbit (z_flags h) 1 = true.
(** The symbols do not wrap around the address space. *)
Definition inSpace (s : ssym) : Prop := ssValue s + ssSize s < 2 ^ 64.

Section Go.
Context {zst : Type} (zinit : zst) (zi : zst -> list Z -> Z -> bool -> zret * Z * list Z * zst) (zl : bool) (fuel : nat).
Lemma no_table m io file h secs name type : image m io fuel file h secs -> noSection secs name -> safeName name -> (forall r, name <> dotDebug ++ r) ->
  symtabOf zinit zi zl fuel m io (sectionList secs) name type = Ok (IoR RNull, IoR RNull).
Proof.
  intros IM HN Sf ND. destruct (image_secs _ _ _ _ _ _ IM) as (first & n0 & rest & E & T). destruct (sect_zero secs first n0 rest E T) as (s0 & Z0 & TT0).
  destruct (getSection_cands (map asShdr (map secS secs)) type s0 Z0 TT0 4 name ltac:(lia) Sf) as (o & G & _ & Hc & _).
  assert (O0 : o = None).
  { destruct o as [i|]; [exfalso|reflexivity]. destruct (Hc i eq_refl) as (mm & Al & (s & Hz & Hnm & _)). apply all_inv in Hz as (hd & Hz & _).
    assert (I : In (hd, sh_nm s) secs) by (pose proof (znth_some _ _ _ Hz); rewrite znth_nth_error in Hz by lia; eapply nth_error_In, Hz).
    specialize (HN _ I). cbn [snd] in HN. rewrite Hnm in HN. destruct HN as [HN1 HN2]. inversion Al as [n P|n [r D] P|n D P|n [r D] D2 P]; subst.
    - now apply HN1.
    - now apply (ND r).
    - now apply HN2.
    - now apply (ND r). }
  subst o. cbn [o2z] in G. unfold symtabOf, sectionList. rewrite G. cbn [bind]. rewrite E. cbn [map].
  assert (TS : h_type (secHdr (secS (first, n0))) = 0) by exact T. generalize dependent (secS (first, n0)). intros q TS. generalize (map secS rest). intros r.
  assert (Z1 : znth 0 (q :: r) = Some q) by reflexivity.
  assert (SA : sectionAt zinit zi zl fuel m io (q :: r) 0 = Ok (IoR RNull)) by (unfold sectionAt, sectionIo; rewrite Z1, TS; reflexivity).
  assert (LS : linkedSection (q :: r) 0 = Ok 0).
  { unfold linkedSection. rewrite Z1. unfold secTrue. rewrite map_znth, Z1. cbn [option_map asShdr sh_type]. rewrite TS. reflexivity. }
  rewrite SA. cbn [bind]. rewrite LS. cbn [bind]. rewrite SA. reflexivity.
Qed.
Lemma eligible_covers secs addr want s : 0 <= ssInfo s -> eligible (map asShdr (sectionList secs)) addr want (symS s) <-> covers secs addr want s.
Proof.
  intros Hi. unfold eligible, covers, symS. cbn [st_info st_value st_size st_shndx]. change 15 with (Z.ones 4). rewrite Z.land_ones by lia. change (2 ^ 4) with 16.
  split; intros (H1 & H2 & H3); (split; [exact H1|]; split; [exact H2|]).
  - destruct H3 as (x & X1 & X2). unfold sectionList in X1. rewrite !map_znth in X1. destruct (znth (ssShndx s) secs) as [[h n]|] eqn:Z0; [|discriminate X1]. cbn in X1. injection X1 as <-. exists h, n. split; [reflexivity|exact X2].
  - destruct H3 as (h & n & X1 & X2). eexists. split; [exact (all_znth secs (ssShndx s) h n X1)|exact X2].
Qed.
Lemma table_find m io file h secs name type tab addr want : image m io fuel file h secs -> tableIs file secs name type tab -> type <> 0 -> type <> 8 -> safeName name ->
  (forall r, name <> dotDebug ++ r) -> startsWith zdebugName name = false -> Forall inSpace tab -> 0 <= addr < 2 ^ 64 ->
  (exists l1 s l2, tab = l1 ++ s :: l2 /\ covers secs addr want s /\ Forall (fun x => ~ covers secs addr want x) l1 /\
     symInTable zinit zi zl fuel m io (sectionList secs) name type addr want = Ok (Some (symS s, ssName s))) \/
  (symInTable zinit zi zl fuel m io (sectionList secs) name type addr want = Ok None /\ Forall (fun x => ~ covers secs addr want x) tab).
Proof.
  intros IM D T0 T8 Sf ND NZ SP Ha. unfold symInTable. destruct D as [i link tab str HS HL WF|HN].
  - destruct (image_secs _ _ _ _ _ _ IM) as (first & n0 & rest & E & T).
    destruct (find_section zinit zi zl fuel m io file (im_holds _ _ _ _ _ _ IM) (im_fuel _ _ _ _ _ _ IM) secs first n0 rest E T (im_names _ _ _ _ _ _ IM) i _ _ _ link HS T0 T8 NZ Sf) as (E1 & E2 & x & E3 & E4).
    destruct (link_section zinit zi zl fuel m io file (im_holds _ _ _ _ _ _ IM) (im_fuel _ _ _ _ _ _ IM) secs i _ type _ link str HS T0 T8 HL) as (E5 & y & E6 & E7).
    assert (ES : symtabOf zinit zi zl fuel m io (sectionList secs) name type = Ok (x, y)) by (unfold symtabOf, sectionList; rewrite E1; cbn [bind]; rewrite E3; cbn [bind]; rewrite E5; cbn [bind]; rewrite E6; reflexivity).
    rewrite ES. cbn [bind].
    rewrite (holds_array fuel m x encodeSym 24 tab E4 ltac:(lia) encodeSym_len). cbn [bind]. rewrite map_map.
    assert (EM : map (fun s => symOf (encodeSym s)) tab = map symS tab) by (apply map_ext_in; intros s Hs; apply (symOf_encode str); rewrite Forall_forall in WF; now apply WF).
    rewrite EM. assert (SO : Forall symOk (map symS tab)).
    { rewrite Forall_map, Forall_forall. intros s Hs. rewrite Forall_forall in WF, SP. destruct (WF s Hs) as (_ & _ & _ & _ & _ & W1 & W2 & W3). pose proof (SP s Hs) as W4. unfold inSpace in W4. unfold symOk, symS. cbn [st_value st_size st_shndx]. lia. }
    assert (CV : forall s, In s tab -> eligible (map asShdr (sectionList secs)) addr want (symS s) <-> covers secs addr want s).
    { intros s Hs. apply eligible_covers. rewrite Forall_forall in WF. destruct (WF s Hs) as (_ & _ & _ & [W1 _] & _). exact W1. }
    pose proof (findSym_spec [] (map asShdr (sectionList secs)) addr want _ SO Ha) as F. destruct (findSym [] _ addr want (map symS tab)) as [[c nm]|].
    + left. destruct F as (l1 & l2 & F1 & F2 & _ & F4). apply map_eq_app in F1 as (t1 & t2 & -> & M1 & M2). destruct t2 as [|s t2]; [discriminate M2|]. cbn [map] in M2. injection M2 as <- <-. subst l1.
      exists t1, s, t2. split; [reflexivity|]. assert (Is : In s (t1 ++ s :: t2)) by (apply in_or_app; right; now left). split; [now apply (CV s Is)|]. split.
      * rewrite Forall_map in F4. rewrite Forall_forall in F4 |- *. intros z Hz X. apply (F4 z Hz). apply CV; [apply in_or_app; now left|exact X].
      * rewrite Forall_forall in WF. change (st_name (symS s)) with (ssNameOff s). rewrite (ih_text _ _ _ _ E7 _ _ (wfSym_text str s (WF s Is))). reflexivity.
    + right. split; [reflexivity|]. rewrite Forall_map in F. rewrite Forall_forall in F |- *. intros z Hz X. apply (F z Hz). now apply CV.
  - right. rewrite (no_table _ _ _ _ _ name type IM HN Sf ND). split; [reflexivity|constructor].
Qed.
End Go.
Lemma dynsym_safe : safeName dotDynsym. Proof. unfold safeName, dotDynsym. repeat split; discriminate. Qed.
(** What is found is the first symbol of .symtab that covers the address or, if none does, the first of .dynsym, with its name; if none of either does,
    it is what the embedded debug data's image answers.  Symbols without a size do not cover anything. *)
Theorem C178_symbol_at_partial : forall (zst : Type) (zinit : zst) zinflate zlib m io fuel file h secs tab dyn addr want dd, image m io fuel file h secs ->
  tableIs file secs dotSymtab 2 tab -> tableIs file secs dotDynsym 11 dyn -> Forall inSpace (tab ++ dyn) -> 0 <= addr < 2 ^ 64 ->
  let answer := symbolAt zinit zinflate zlib fuel m io (sectionList secs) addr want dd in
  (exists l1 s l2, tab ++ dyn = l1 ++ s :: l2 /\ covers secs addr want s /\ Forall (fun x => ~ covers secs addr want x) l1 /\
     answer = Ok (Some (mkSym (ssNameOff s) (ssInfo s) (ssOther s) (ssShndx s) (ssValue s) (ssSize s), ssName s))) \/
  (Forall (fun x => ~ covers secs addr want x) (tab ++ dyn) /\ answer = dd).
Proof.
  intros zst zinit zi zl m io fuel file h secs tab dyn addr want dd IM HT HD SP Ha answer. apply Forall_app in SP as [SP1 SP2]. unfold answer, symbolAt. change symtabSection with dotSymtab. change dynsymSection with dotDynsym.
  destruct (table_find zinit zi zl fuel m io file h secs dotSymtab 2 tab addr want IM HT ltac:(lia) ltac:(lia) symtab_safe ltac:(intros r; discriminate) eq_refl SP1 Ha) as [(l1 & s & l2 & -> & C1 & C2 & E)|[E C]]; rewrite E; cbn [bind].
  - left. exists l1, s, (l2 ++ dyn). split; [now rewrite <- app_assoc|]. split; [exact C1|]. split; [exact C2|reflexivity].
  - destruct (table_find zinit zi zl fuel m io file h secs dotDynsym 11 dyn addr want IM HD ltac:(lia) ltac:(lia) dynsym_safe ltac:(intros r; discriminate) eq_refl SP2 Ha) as [(l1 & s & l2 & -> & C1 & C2 & E2)|[E2 C2]]; rewrite E2; cbn [bind].
    + left. exists (tab ++ l1), s, l2. split; [now rewrite <- app_assoc|]. split; [exact C1|]. split; [apply Forall_app; now split|reflexivity].
    + right. split; [apply Forall_app; now split|reflexivity].
Qed.
Print Assumptions C178_symbol_at_partial.
(** "a" is 4096 to 4111 (a function of type 2, in an allocated section), "foo" there too but in one that is not, "b" is an object in it; .dynsym also has a symbol after them. *)
Definition C178_tab : list ssym := [mkSS [] 0 0 0 0 0 0; mkSS [102; 111; 111] 3 18 0 1 4096 32; mkSS [97] 1 18 0 2 4096 16; mkSS [98] 7 17 0 2 4100 8].
Definition C178_dyn : list ssym := [mkSS [] 0 0 0 0 0 0; mkSS [97] 1 18 0 2 4096 16; mkSS [195; 169] 9 16 0 2 4112 0].
Definition C178_h : sehdr := mkSEh ([127; 69; 76; 70; 2; 1; 1] ++ repeat 0 9) 3 62 1 0 0 279 0 64 56 0 64 5 1.
Definition C178_secs : list (sshdr * list Z) := [
  (mkSSh 0 0 0 0 0 0 0 0 0 0, []);
  (mkSSh 1 3 0 0 64 35 0 0 1 0, [46; 115; 104; 115; 116; 114; 116; 97; 98]);
  (mkSSh 11 3 2 0 99 12 0 0 1 0, [46; 100; 121; 110; 115; 116; 114]);
  (mkSSh 19 11 2 0 111 72 2 0 1 0, [46; 100; 121; 110; 115; 121; 109]);
  (mkSSh 27 2 0 0 183 96 2 0 1 0, [46; 115; 121; 109; 116; 97; 98])].
Definition C178_file : list Z := ehdrBytes C178_h ++ ([0; 46; 115; 104; 115; 116; 114; 116; 97; 98; 0; 46; 100; 121; 110; 115; 116; 114; 0; 46; 100; 121; 110; 115; 121; 109; 0; 46; 115; 121; 109; 116; 97; 98; 0]) ++ (C29_st) ++ (flat_map encodeSym C178_dyn) ++ (flat_map encodeSym C178_tab) ++ flat_map (fun s => shdrBytes (fst s)) C178_secs.
Example C178_image : image (fun _ => None) (RFile C178_file) 2000 C178_file C178_h C178_secs.
Proof. imageTac C178_secs. Qed.
Lemma C178_tables : tableIs C178_file C178_secs dotSymtab 2 C178_tab /\ tableIs C178_file C178_secs dotDynsym 11 C178_dyn.
Proof.
  assert (ST : linkedStrings C178_file C178_secs 2 C29_st) by (exists [46; 100; 121; 110; 115; 116; 114], 0; split; [sis|intros r; discriminate]).
  split; [apply (TableIs _ _ _ _ 4 2 _ C29_st); [sis|exact ST|]|apply (TableIs _ _ _ _ 3 2 _ C29_st); [sis|exact ST|]];
    repeat (apply Forall_cons; [eapply wfSym_intro; [reflexivity|vm_compute; reflexivity]|]); apply Forall_nil.
Qed.
Definition C178_at (addr want : Z) (dd : res (option (esym * list Z))) : res (option (esym * list Z)) :=
  symbolAt tt (fun z i a f => (ZError, 0, [], tt)) true 2000 (fun _ => None) (RFile C178_file) (sectionList C178_secs) addr want dd.
Example C178_nonvacuous : Forall inSpace (C178_tab ++ C178_dyn) /\
  (exists s, znth 2 C178_tab = Some s /\ covers C178_secs 4101 0 s) /\
  C178_at 4101 0 (Ok None) = Ok (Some (mkSym 1 18 0 2 4096 16, [97])) /\ C178_at 4101 1 (Ok None) = Ok (Some (mkSym 7 17 0 2 4100 8, [98])) /\
  C178_at 4111 2 (Ok None) = Ok (Some (mkSym 1 18 0 2 4096 16, [97])) /\ C178_at 4113 2 (Ok None) = Ok None.
Proof.
  split; [repeat constructor|]. split; [|repeat split; vm_compute; reflexivity].
  eexists. split; [reflexivity|]. split; [left; reflexivity|]. split; [cbn; lia|]. eexists. eexists. split; reflexivity.
Qed.
(** Refuted: a symbol without a size is found at its own address.  The search remembers one, and then returns nothing. *)
Theorem C178_no_size_refuted : exists s, znth 2 C178_dyn = Some s /\ ssValue s = 4112 /\ ssSize s = 0 /\ (exists h n, znth (ssShndx s) C178_secs = Some (h, n) /\ Z.testbit (z_flags h) 1 = true) /\
  C178_at 4112 0 (Ok None) = Ok None.
Proof. eexists. split; [reflexivity|]. split; [reflexivity|]. split; [reflexivity|]. split; [eexists; eexists; split; reflexivity|vm_compute; reflexivity]. Qed.
Print Assumptions C178_no_size_refuted.
