(** Proofs about the dump of an ELF object. *)
From Coq Require Import Ascii String Permutation Sorted.
From Verif Require Import Base Leb LebSpec LebProofs DwarfReader DwarfReaderProofs Reader ReaderSpec ReaderProofs ReaderArray ReaderArrayProofs CfiSpec CfiProofs MapsSpec ElfHash ElfHashSpec ElfHashProofs ElfObj ElfObjSpec ElfObjProofs
  ElfFile ElfFileSpec ElfFileProofs ElfFileProofs2 ElfFileProofs3 Context Args ArgsSpec FrameText FrameTextSpec JsonDoc JsonDocSpec JsonDocProofs Dump DumpProofs DumpCfi DumpTables DumpDie DumpDieSpec DumpDieProofs DumpElf DumpElfSpec.
Open Scope Z_scope.

(** ** Values and lists *)
Lemma mM_app a b x y : meanM a x -> meanM b y -> meanM (a ++ b) (x ++ y).
Proof. intros HA HB. induction HA; cbn [app]; [exact HB|]. now constructor. Qed.
Lemma mL_map {X} (g : X -> jval) (h : X -> jvalue) (P : X -> Prop) : (forall x, P x -> means (g x) (h x)) -> forall l, Forall P l -> meanL (map g l) (map h l).
Proof. intros HG l. induction 1; cbn [map]; constructor; auto. Qed.
Lemma vs_plain t : forallb (fun p : Z * string => asciiB (lit (snd p))) t = true -> forall c n, In (c, n) t -> means (vs n) (XStr (lit n)).
Proof. intros F c n I. unfold vs. apply mStr. apply (called_plain t F c). now exists n. Qed.
Lemma dumpAll_ex {X Y} (g : X -> res Y) (P : X -> Prop) (Q : X -> Y -> Prop) : (forall x, P x -> exists y, g x = Ok y /\ Q x y) ->
  forall l, Forall P l -> exists m, dumpAll g l = Ok m /\ Forall2 Q l m.
Proof.
  intros HG l. induction 1 as [|x l Hx _ (m & E & F)]; [exists []; split; [reflexivity|constructor]|].
  destruct (HG x Hx) as (y & Ey & Hy). exists (y :: m). cbn [dumpAll]. rewrite Ey. cbn [bind]. rewrite E. cbn [bind]. split; [reflexivity|]. now constructor.
Qed.
Lemma dumpAll_docs {X} (g : X -> res jval) (doc : X -> jvalue -> Prop) (P : X -> Prop) : (forall x d, P x -> doc x d -> exists v, g x = Ok v /\ means v d) ->
  forall l ds, Forall P l -> Forall2 doc l ds -> exists m, dumpAll g l = Ok m /\ meanL m ds.
Proof.
  intros HG l ds HP H. induction H as [|x d l ds Hx _ IH]; [exists []; split; [reflexivity|constructor]|]. inversion HP; subst.
  destruct (HG x d ltac:(assumption) Hx) as (v & Ev & Mv). destruct (IH ltac:(assumption)) as (m & Em & Mm). exists (v :: m). cbn [dumpAll]. rewrite Ev. cbn [bind]. rewrite Em. cbn [bind].
  split; [reflexivity|]. now constructor.
Qed.

(** ** Flags *)
Lemma land_bit f k : 0 <= k -> (Z.land f (2 ^ k) =? 0) = negb (Z.testbit f k).
Proof.
  intros Hk. destruct (Z.testbit f k) eqn:E.
  - apply Z.eqb_neq. intros X. apply (f_equal (fun z => Z.testbit z k)) in X. rewrite Z.land_spec, Z.bits_0, E, Z.pow2_bits_true in X by lia. discriminate.
  - apply Z.eqb_eq. apply Z.bits_inj'. intros n Hn. rewrite Z.land_spec, Z.bits_0. destruct (Z.eq_dec n k) as [->|]; [rewrite E; reflexivity|]. rewrite Z.pow2_bits_false by lia. apply andb_false_r.
Qed.
Lemma land_high f k w : 0 <= k -> 0 <= f < 2 ^ k -> w mod 2 ^ k = 0 -> Z.land f w = 0.
Proof.
  intros Hk Hf Hw. apply Z.bits_inj'. intros n Hn. rewrite Z.land_spec, Z.bits_0. destruct (Z_lt_dec n k) as [L|G].
  - assert (X : Z.testbit (w mod 2 ^ k) n = false) by (rewrite Hw; apply Z.bits_0). rewrite Z.mod_pow2_bits_low in X by lia. rewrite X. apply andb_false_r.
  - replace (Z.testbit f n) with false; [reflexivity|]. symmetry. destruct (Z.eq_dec f 0) as [->|N]; [apply Z.bits_0|]. apply Z.bits_above_log2; [lia|]. assert (Z.log2 f < k) by (apply Z.log2_lt_pow2; lia). lia.
Qed.
Definition bitOf (p : Z * string) : bool := fst p =? 2 ^ Z.log2 (fst p).
Lemma filter_std (std : list (Z * string)) f : forallb bitOf std = true ->
  map fst (filter (fun p => negb (Z.land f (snd p) =? 0)) (map (fun p => (snd p, fst p)) std)) = map snd (filter (fun p => Z.testbit f (Z.log2 (fst p))) std).
Proof.
  induction std as [|[b n] std IH]; intros F; [reflexivity|]. cbn [forallb] in F. apply andb_true_iff in F as [F1 F2]. unfold bitOf in F1. cbn [fst] in F1. apply Z.eqb_eq in F1.
  cbn [map filter fst snd]. rewrite F1 at 1. rewrite land_bit by apply Z.log2_nonneg. rewrite negb_involutive. destruct (Z.testbit f (Z.log2 b)); cbn [map fst snd]; rewrite (IH F2); reflexivity.
Qed.
Lemma shFlags_std f : 0 <= f < 0x800 -> shFlags f = map snd (filter (fun p => Z.testbit f (Z.log2 (fst p))) stdFlags).
Proof.
  intros Hf. rewrite <- (filter_std stdFlags f eq_refl). unfold shFlags.
  assert (E : shfTable = map (fun p => (snd p, fst p)) stdFlags ++ [("SHF_MASKOS", 0x0ff00000); ("SHF_MASKPROC", 0xf0000000); ("SHF_ORDERED", 0x40000000); ("(Elf::Word)SHF_EXCLUDE", 0x80000000)]%string) by reflexivity.
  rewrite E, filter_app, map_app. rewrite <- app_nil_r. f_equal. cbn [filter snd]. rewrite !(land_high f 11) by (try reflexivity; lia). reflexivity.
Qed.
Lemma flags_means ord std f : (forall l : list string, Permutation (ord l) l) -> forallb (fun p : Z * string => asciiB (lit (snd p))) std = true ->
  exists y, flagsShown std f y /\ means (VList (map vs (ord (map snd (filter (fun p => Z.testbit f (Z.log2 (fst p))) std))))) y.
Proof.
  intros OP F. set (names := map snd _). exists (XArr (map XStr (map lit (ord names)))). split.
  - exists (map lit (ord names)). split; [|reflexivity]. rewrite (OP names). unfold names. rewrite map_map. reflexivity.
  - apply mList. rewrite map_map. apply mL_map with (P := fun n => In n names); [|rewrite Forall_forall; intros n I; exact (Permutation_in _ (OP names) I)].
    intros n I. unfold names in I. apply in_map_iff in I as ((c & n') & E & I). cbn [snd] in E. subst n'. apply filter_In in I as [I _]. exact (vs_plain std F c n I).
Qed.

Lemma bind_name i : 0 <= i -> forall b, called stdBinds i b -> vs (nth (Z.to_nat i) bindingNames ""%string) = VStr b /\ plainText b b.
Proof.
  intros Hi b (n & I & ->). split; [|apply (called_plain stdBinds eq_refl i); now exists n]. cbn in I. repeat (destruct I as [I|I]; [injection I as <- <-; reflexivity|]). destruct I.
Qed.
Lemma styp_name i : 0 <= i -> forall b, called stdSymTypes i b -> vs (nth (Z.to_nat i) symTypeNames ""%string) = VStr b /\ plainText b b.
Proof.
  intros Hi b (n & I & ->). split; [|apply (called_plain stdSymTypes eq_refl i); now exists n]. cbn in I. repeat (destruct I as [I|I]; [injection I as <- <-; reflexivity|]). destruct I.
Qed.
Ltac numr := unfold num, nf; apply mmCons; [lits|apply mInt; lia|].
Lemma rela_len r : zlen (relaBytes r) = 24.
Proof. destruct r as [[[o s] t] a]. unfold relaBytes. rewrite !zlen_app, !leBytes_len. reflexivity. Qed.
Lemma rela_info t s rest : 0 <= t < 2 ^ 32 -> 0 <= s < 2 ^ 32 -> fld 8 (leBytes 4 t ++ leBytes 4 s ++ rest) 0 = t + s * 2 ^ 32.
Proof.
  intros Ht Hs. unfold fld. rewrite zdrop_neg by lia. rewrite app_assoc. rewrite ztake_app_le by (rewrite zlen_app, !leBytes_len; cbn; lia). rewrite ztake_all by (rewrite zlen_app, !leBytes_len; cbn; lia). rewrite leValue_app, leBytes_len.
  rewrite !leValue_leBytes by (change (256 ^ Z.of_nat 4) with (2 ^ 32); lia). change (256 ^ Z.of_nat 4) with (2 ^ 32). ring.
Qed.
Lemma rela_doc r : relaOk r -> means (relaJ (relaBytes r)) (relaDoc r).
Proof.
  destruct r as [[[o s] t] a]. intros (Ho & Hs & Ht). unfold relaJ, relaDoc, relaBytes.
  assert (E : fld 8 (leBytes 8 o ++ leBytes 4 t ++ leBytes 4 s ++ leBytes 8 (a mod 2 ^ 64)) 8 = t + s * 2 ^ 32) by (rewrite fld_skipb by lia; change (8 - Z.of_nat 8) with 0; now apply rela_info).
  assert (E0 : fld 8 (leBytes 8 o ++ leBytes 4 t ++ leBytes 4 s ++ leBytes 8 (a mod 2 ^ 64)) 0 = o) by (change (fld (Z.of_nat 8) (leBytes 8 o ++ leBytes 4 t ++ leBytes 4 s ++ leBytes 8 (a mod 2 ^ 64)) 0 = o); apply fld_head; exact Ho).
  rewrite E, E0. rewrite Z.shiftr_div_pow2 by lia. change 0xffffffff with (Z.ones 32). rewrite Z.land_ones by lia. rewrite Z.div_add, Z.mod_add by lia. rewrite Z.div_small, Z.mod_small by lia.
  rewrite Z.add_0_l. change (2 ^ 64) with 18446744073709551616 in *. change (2 ^ 32) with 4294967296 in *. change (2 ^ 63) with 9223372036854775808. apply mObj. do 3 numr. constructor.
Qed.
Lemma untilNul_cut t rest n : Forall (fun c => c <> 0) t -> zlen t <= n -> untilNul (ztake n (t ++ 0 :: rest)) = t.
Proof.
  intros F H. pose proof (zlen_nonneg t). assert (N : forall x, In x t -> x <> 0) by (rewrite Forall_forall in F; exact F).
  assert (E : ztake n (t ++ 0 :: rest) = t ++ ztake (n - zlen t) (0 :: rest)).
  { rewrite !ztake_firstn by lia. rewrite firstn_app. unfold zlen in *. rewrite firstn_all2 by lia. do 2 f_equal. lia. }
  rewrite E. rewrite untilNul_app_nonul by exact N. cbn [ztake]. destruct (n - zlen t <=? 0); [now rewrite app_nil_r|]. cbn [untilNul Z.eqb]. apply app_nil_r.
Qed.
Lemma in_texts n : existsb (beq n) textNames = true <-> In n textSections.
Proof.
  unfold textNames, textSections. rewrite existsb_exists. split.
  - intros (x & I & E). apply beq_spec in E. subst x. exact I.
  - intros I. exists n. split; [exact I|]. now apply beq_spec.
Qed.
Lemma type_means h ty : 0 <= z_type h < 2 ^ 32 -> ((exists t, called stdSecTypes (z_type h) t /\ ty = XStr t) \/ (11 < z_type h /\ ty = XNum (z_type h))) ->
  means (if z_type h <=? 11 then vs (secTypeName (z_type h)) else VInt (z_type h)) ty.
Proof.
  change (2 ^ 32) with 4294967296. intros R [(t & C & ->)|[G ->]].
  - assert (L : z_type h <=? 11 = true). { destruct C as (n & I & _). cbn in I. repeat (destruct I as [I|I]; [injection I as <- <-; reflexivity|]). destruct I. }
    rewrite L. destruct (table_std stdSecTypes secTable ltac:(vm_compute; reflexivity) _ _ C) as (n & E & ->). unfold secTypeName. rewrite E. apply mStr. now apply (called_plain stdSecTypes eq_refl (z_type h)).
  - replace (z_type h <=? 11) with false by lia. apply mInt. change (2 ^ 63) with 9223372036854775808. change (2 ^ 64) with 18446744073709551616. lia.
Qed.
(** ** Sections *)
Section Sections.
Context {zst : Type} (zinit : zst) (zinflate : zst -> list Z -> Z -> bool -> zret * Z * list Z * zst) (zlib : bool).
Context (fuel : nat) (m : memory) (io : reader) (file : list Z) (HI : holdsImage m io file) (Hfuel : (List.length file < fuel)%nat).
Context (ord : list string -> list string) (OP : forall l, Permutation (ord l) l).
Context (secs : list (sshdr * list Z)) (HOK : Forall (fun s => shdrOk (fst s)) secs).
Lemma sym_doc str i link x sym d : linkedSection (map secS secs) i = Ok link -> sectionAt zinit zinflate zlib fuel m io (map secS secs) link = Ok x -> ioHolds fuel m x str ->
  wfSym str sym -> symDoc sym d -> exists v, dumpSym zinit zinflate zlib fuel m io (map secS secs) i (encodeSym sym) = Ok v /\ means v d.
Proof using All.
  intros HL HS HX HW (nm & b & t & Hnm & Hb & Ht & ->). pose proof HW as (W1 & W2 & W3 & W4 & W5 & W6 & W7 & W8). unfold isByte in *. unfold dumpSym. rewrite (symOf_encode str sym HW), HL. cbn [bind].
  rewrite HS. cbn [bind symS st_name]. rewrite (ih_text _ _ _ _ HX _ _ (wfSym_text _ _ HW)). cbn [bind symS st_value st_size st_info st_other st_shndx]. eexists. split; [reflexivity|].
  rewrite Z.shiftr_div_pow2 by lia. change (2 ^ 4) with 16. change 15 with (Z.ones 4). rewrite Z.land_ones by lia. change (2 ^ 4) with 16.
  destruct (bind_name (ssInfo sym / 16) ltac:(lia) b Hb) as [-> Pb]. destruct (styp_name (ssInfo sym mod 16) ltac:(lia) t Ht) as [-> Pt].
  apply mObj. apply mmCons; [lits|now apply mStr|]. change (2 ^ 64) with 18446744073709551616 in *. change (2 ^ 63) with 9223372036854775808. 
  do 3 numr. apply mmCons; [lits|now apply mStr|]. apply mmCons; [lits|now apply mStr|]. do 2 numr. constructor.
Qed.

Definition secOk (i : Z) (s : sshdr * list Z) : Prop := znth i secs = Some s.
Lemma data_io i s data : znth i secs = Some s -> z_flags (fst s) < 0x800 -> (forall r, snd s <> lit ".zdebug_" ++ r) -> sectionData file s data ->
  exists x, sectionAt zinit zinflate zlib fuel m io (map secS secs) i = Ok x /\ ioHolds fuel m x data /\ zlen data = z_size (fst s).
Proof using All.
  intros Hz Hf Hn (T0 & T8 & O0 & OB & ->). pose proof (proj1 (Forall_forall _ _) HOK s) as OK. assert (I : In s secs) by (pose proof (znth_some _ _ _ Hz); rewrite znth_nth_error in Hz by lia; eapply nth_error_In, Hz).
  specialize (OK I). destruct OK as (K1 & K2 & K3 & K4 & K5 & K6 & K7 & K8). unfold sectionAt. rewrite map_znth, Hz. cbn [option_map secS secHdr ElfFile.nameOf secName].
  assert (LF : Z.land (z_flags (fst s)) 2048 = 0) by (apply (land_high _ 11); [lia|change (2 ^ 11) with 0x800; lia|reflexivity]).
  destruct (secS_io zinit zinflate zlib fuel m io file HI Hfuel (fst s) (snd s) T0 LF) as (x & E & H); try lia.
  { destruct (startsWith zdebugName (snd s)) eqn:E; [|reflexivity]. apply startsWith_spec in E as [r E]. now destruct (Hn r). }
  exists x. split; [exact E|]. split; [exact H|]. apply ztake_zdrop_len; lia.
Qed.
Lemma other_io i s : znth i secs = Some s -> z_flags (fst s) < 0x800 -> (forall r, snd s <> lit ".zdebug_" ++ r) -> z_type (fst s) = 0 \/ (z_type (fst s) = 8 /\ z_size (fst s) < 2 ^ 62) ->
  exists x, sectionAt zinit zinflate zlib fuel m io (map secS secs) i = Ok x /\ ioSize x = if z_type (fst s) =? 0 then 0 else z_size (fst s).
Proof using All.
  intros Hz Hf Hn T. pose proof (proj1 (Forall_forall _ _) HOK s) as OK. assert (I : In s secs) by (pose proof (znth_some _ _ _ Hz); rewrite znth_nth_error in Hz by lia; eapply nth_error_In, Hz).
  specialize (OK I). destruct OK as (K1 & K2 & K3 & K4 & K5 & K6 & K7 & K8). unfold sectionAt. rewrite map_znth, Hz. cbn [option_map secS secHdr ElfFile.nameOf secName].
  destruct T as [T|[T S]].
  - unfold sectionIo. cbn [shdS h_type]. rewrite T. eexists. split; reflexivity.
  - rewrite (sectionIo_raw zinit zinflate zlib m io file fuel Hfuel).
    + eexists. split; [reflexivity|]. rewrite T. cbn [ioSize Z.eqb]. cbn [shdS h_offset h_size]. apply (view_size m io file HI). unfold W64. change (2 ^ 62) with 4611686018427387904 in S. lia.
    + cbn [shdS h_type]. lia.
    + cbn [shdS h_flags]. apply (land_high _ 11); [lia|change (2 ^ 11) with 0x800; lia|reflexivity].
    + destruct (startsWith zdebugName (snd s)) eqn:E; [|reflexivity]. apply startsWith_spec in E as [r E]. now destruct (Hn r).
Qed.
Lemma section_doc i s x : znth i secs = Some s -> sectionDoc file secs s x ->
  exists v y, dumpSection zinit zinflate zlib fuel m io ord (map secS secs) false i (secS s) = Ok v /\ means v y /\ sectionDoc file secs s y.
Proof using All.
  intros Hz (nm & flags & ty & body & text & Hnm & Hzd & Hf & Hfl & Hty & Hb & Ht & ->).
  assert (I : In s secs) by (pose proof (znth_some _ _ _ Hz); rewrite znth_nth_error in Hz by lia; eapply nth_error_In, Hz). pose proof (proj1 (Forall_forall _ _) HOK s I) as (K1 & K2 & K3 & K4 & K5 & K6 & K7 & K8).
  destruct (flags_means ord stdFlags (z_flags (fst s)) OP eq_refl) as (flags' & Hfl' & Mfl).
  assert (G : exists r extra content, sectionAt zinit zinflate zlib fuel m io (map secS secs) i = Ok r /\ ioSize r = (if z_type (fst s) =? 0 then 0 else z_size (fst s)) /\
     (if (z_type (fst s) =? 2) || (z_type (fst s) =? 11) then let* l := ioArray m r 24 in let* y := dumpAll (dumpSym zinit zinflate zlib fuel m io (map secS secs) i) l in Ok [(txt "symbols", VList y)]
      else if z_type (fst s) =? 4 then let* l := ioArray m r 24 in Ok [(txt "reloca", VList (map relaJ l))]
      else Ok []) = Ok extra /\ meanM extra body /\
     (if existsb (beq (snd s)) textNames then let* b := ioRead m r 0 (Z.min 1023 (ioSize r)) in Ok [(txt "content", VStr (untilNul b))] else Ok []) = Ok content /\ meanM content text).
  { assert (G2 : exists r, sectionAt zinit zinflate zlib fuel m io (map secS secs) i = Ok r /\ ioSize r = (if z_type (fst s) =? 0 then 0 else z_size (fst s)) /\
       (forall data, sectionData file s data -> ioHolds fuel m r data)).
    { assert (D : forall data, sectionData file s data -> exists r, sectionAt zinit zinflate zlib fuel m io (map secS secs) i = Ok r /\ ioSize r = (if z_type (fst s) =? 0 then 0 else z_size (fst s)) /\
         (forall data, sectionData file s data -> ioHolds fuel m r data)).
      { intros data HD. destruct (data_io i s data Hz Hf Hzd HD) as (r & E & HH & L). exists r. split; [exact E|]. split.
        - destruct HD as (T0 & _). rewrite (ih_size _ _ _ _ HH), L. destruct (z_type (fst s) =? 0) eqn:Q; [lia|reflexivity].
        - intros data' HD'. destruct (data_io i s data' Hz Hf Hzd HD') as (r' & E' & HH' & _). congruence. }
      clear Ht. destruct Hb as [T|T S|syms str xs T HD HL HW HX|rs T HD HR|data NT HD]; [| |exact (D _ HD)|exact (D _ HD)|exact (D _ HD)].
      - destruct (other_io i s Hz Hf Hzd (or_introl T)) as (r & E & S). exists r. split; [exact E|]. split; [exact S|]. intros data (T0 & _). congruence.
      - destruct (other_io i s Hz Hf Hzd (or_intror (conj T S))) as (r & E & S'). exists r. split; [exact E|]. split; [exact S'|]. intros data (_ & T8 & _). congruence. }
    destruct G2 as (r & Er & Sr & Dr). exists r.
    assert (GB : exists extra, (if (z_type (fst s) =? 2) || (z_type (fst s) =? 11) then let* l := ioArray m r 24 in let* y := dumpAll (dumpSym zinit zinflate zlib fuel m io (map secS secs) i) l in Ok [(txt "symbols", VList y)]
      else if z_type (fst s) =? 4 then let* l := ioArray m r 24 in Ok [(txt "reloca", VList (map relaJ l))]
      else Ok []) = Ok extra /\ meanM extra body).
    { clear Ht. destruct Hb as [T|T S|syms str xs T HD HL HW HX|rs T HD HR|data NT HD].
      - rewrite T. exists []. split; [reflexivity|constructor].
      - rewrite T. exists []. split; [reflexivity|constructor].
      - replace ((z_type (fst s) =? 2) || (z_type (fst s) =? 11)) with true by (destruct T as [-> | ->]; reflexivity). specialize (Dr _ HD).
        rewrite (holds_array fuel m r encodeSym 24 syms Dr) by (try lia; exact encodeSym_len). cbn [bind].
        assert (SI : sectionIs file secs i (snd s) (z_type (fst s)) (flat_map encodeSym syms) (z_link (fst s))).
        { destruct HD as (T0 & T8 & O0 & OB & HD). exists (fst s). rewrite <- surjective_pairing. repeat (split; [first [assumption|reflexivity|lia]|]). split; [apply (land_high _ 11); [lia|change (2 ^ 11) with 0x800; lia|reflexivity]|].
          split; [exact O0|]. split; [exact OB|]. split; [lia|]. split; [exact HD|reflexivity]. }
        destruct (link_section zinit zinflate zlib fuel m io file HI Hfuel secs i _ _ _ _ str SI ltac:(destruct T; lia) ltac:(destruct T; lia) HL) as (L1 & x & L2 & L3).
        assert (GD : exists y, dumpAll (dumpSym zinit zinflate zlib fuel m io (map secS secs) i) (map encodeSym syms) = Ok y /\ meanL y xs).
        { clear HD Dr SI. revert HW. induction HX as [|sy d syms xs Hd _ IH]; intros HW; [exists []; split; [reflexivity|constructor]|]. inversion HW; subst.
          destruct (sym_doc str i _ x sy d L1 L2 L3 ltac:(assumption) Hd) as (v & Ev & Mv). destruct (IH ltac:(assumption)) as (y & Ey & My). exists (v :: y). cbn [map dumpAll]. rewrite Ev. cbn [bind]. rewrite Ey. cbn [bind].
          split; [reflexivity|now constructor]. }
        destruct GD as (y & Ey & My). rewrite Ey. cbn [bind]. eexists. split; [reflexivity|]. apply mmCons; [lits|now apply mList|constructor].
      - rewrite T. cbn [Z.eqb orb Pos.eqb]. specialize (Dr _ HD). rewrite (holds_array fuel m r relaBytes 24 rs Dr) by (try lia; exact rela_len). cbn [bind]. eexists. split; [reflexivity|].
        apply mmCons; [lits| |constructor]. apply mList. rewrite map_map. apply mL_map with (P := relaOk); [exact rela_doc|exact HR].
      - replace ((z_type (fst s) =? 2) || (z_type (fst s) =? 11)) with false by (cbn [In] in NT; destruct (z_type (fst s) =? 2) eqn:Q1; [lia|]; destruct (z_type (fst s) =? 11) eqn:Q2; [lia|reflexivity]).
        replace (z_type (fst s) =? 4) with false by (cbn [In] in NT; lia). exists []. split; [reflexivity|constructor]. }
    destruct GB as (extra & Ee & Me). exists extra.
    assert (GT : exists content, (if existsb (beq (snd s)) textNames then let* b := ioRead m r 0 (Z.min 1023 (ioSize r)) in Ok [(txt "content", VStr (untilNul b))] else Ok []) = Ok content /\ meanM content text).
    { clear Hb Ee Me. destruct Ht as [NI|data t rest x IT HD HE HN HL HP].
      - destruct (existsb (beq (snd s)) textNames) eqn:Q; [apply in_texts in Q; contradiction|]. exists []. split; [reflexivity|constructor].
      - rewrite (proj2 (in_texts _) IT). specialize (Dr _ HD). rewrite (ih_size _ _ _ _ Dr). pose proof (ih_len _ _ _ _ Dr) as DL. pose proof (zlen_nonneg t) as Ht0.
        assert (DP : zlen t + 1 <= zlen data) by (rewrite HE, zlen_app, zlen_cons; pose proof (zlen_nonneg rest); lia).
        destruct (ih_serves _ _ _ _ Dr 0 (Z.min 1023 (zlen data)) ltac:(lia) ltac:(lia) ltac:(unfold W64 in *; lia)) as [E|[E P]].
        + rewrite E, prefix_ofList, Z2Nat.id by lia. cbn [bind]. rewrite zdrop_neg by lia. assert (EU : untilNul (ztake (Z.min 1023 (zlen data)) data) = t) by (set (k := Z.min 1023 (zlen data)) in *; assert (zlen t <= k) by lia; clearbody k; rewrite HE; now apply untilNul_cut). rewrite EU. eexists. split; [reflexivity|]. apply mmCons; [lits|now apply mStr|constructor].
        + exfalso. rewrite prefix_ofList, Z2Nat.id in P by lia. rewrite zdrop_neg in P by lia. apply (f_equal zlen) in P. rewrite zlen_ztake in P by lia. change (zlen (@nil Z)) with 0 in P. lia. }
    destruct GT as (content & Et & Mt). exists content. repeat (split; [assumption|]). assumption. }
  destruct G as (r & extra & content & Er & Sr & Ee & Me & Et & Mt).
  eexists. eexists. split; [|split].
  - unfold dumpSection. cbn [secS secHdr ElfFile.nameOf secName shdS h_type h_size h_flags h_addr h_offset h_link h_info]. rewrite Er. cbn [bind]. rewrite Ee. cbn [bind]. rewrite Et. cbn [bind]. rewrite Sr, shFlags_std by lia. reflexivity.
  - apply mObj. instantiate (1 := [num "size" (z_size (fst s)); num "uncompressedSize" (if z_type (fst s) =? 0 then 0 else z_size (fst s)); (lit "name", XStr nm); (lit "flags", flags');
               num "address" (z_addr (fst s)); num "offset" (z_offset (fst s)); num "link" (z_link (fst s)); num "info" (z_info (fst s)); (lit "type", ty)] ++ body ++ text).
    change (2 ^ 64) with 18446744073709551616 in *. change (2 ^ 32) with 4294967296 in *. 
    apply mM_app; [|now apply mM_app]. apply mmCons; [lits|apply mInt; change (2 ^ 63) with 9223372036854775808; lia|]. apply mmCons; [lits|apply mInt; change (2 ^ 63) with 9223372036854775808; destruct (z_type (fst s) =? 0); lia|].
    apply mmCons; [lits|now apply mStr|]. apply mmCons; [lits|exact Mfl|]. do 4 (apply mmCons; [lits|apply mInt; change (2 ^ 63) with 9223372036854775808; lia|]). apply mmCons; [lits|now apply type_means|constructor].
  - exists nm, flags', ty, body, text. repeat (split; [assumption|]). reflexivity.
Qed.
Lemma sections_doc : forall l i, (forall k s, znth k l = Some s -> znth (i + k) secs = Some s) -> Forall (fun s => exists x, sectionDoc file secs s x) l ->
  exists vs xs, dumpSections zinit zinflate zlib fuel m io ord (map secS secs) false i (map secS l) = Ok vs /\ meanL vs xs /\ Forall2 (sectionDoc file secs) l xs.
Proof using All.
  induction l as [|s l IH]; intros i HZ HF; [exists [], []; cbn [map dumpSections]; repeat split; constructor|]. inversion HF as [|? ? (x & Hx) HF']; subst.
  destruct (section_doc i s x) as (v & y & Ev & Mv & Dv); [rewrite <- (Z.add_0_r i); apply HZ; reflexivity|exact Hx|].
  destruct (IH (i + 1)) as (vs' & xs & Evs & Mvs & Dvs); [|exact HF'|].
  - intros k s' Hk. replace (i + 1 + k) with (i + (k + 1)) by lia. apply HZ. pose proof (znth_some _ _ _ Hk). cbn [znth]. destruct (k + 1 =? 0) eqn:Q1; [lia|]. destruct (k + 1 <? 0) eqn:Q2; [lia|]. replace (k + 1 - 1) with k by lia. exact Hk.
  - exists (v :: vs'), (y :: xs). cbn [map dumpSections]. rewrite Ev. cbn [bind]. rewrite Evs. cbn [bind]. split; [reflexivity|]. split; now constructor.
Qed.
End Sections.

(** ** Segments *)
Lemma dumpSt_spec {C X Y} (g : C -> X -> C * res Y) (Inv : C -> Prop) (P : X -> Prop) (R : X -> Y -> Prop) :
  (forall c x, Inv c -> P x -> exists c' y, g c x = (c', Ok y) /\ Inv c' /\ R x y) ->
  forall l c, Inv c -> Forall P l -> exists c' ys, dumpSt g c l = (c', Ok ys) /\ Inv c' /\ Forall2 R l ys.
Proof.
  intros HG l. induction l as [|x l IH]; intros c Hc HP; [exists c, []; repeat split; [exact Hc|constructor]|]. inversion HP; subst.
  destruct (HG c x Hc ltac:(assumption)) as (c1 & y & E & I1 & Ry). destruct (IH c1 I1 ltac:(assumption)) as (c2 & ys & E2 & I2 & Rs).
  exists c2, (y :: ys). cbn [dumpSt]. rewrite E, E2. repeat split; [exact I2|now constructor].
Qed.
Lemma F2_docs {X} (doc : X -> jvalue -> Prop) l vs : Forall2 (fun x v => exists d, means v d /\ doc x d) l vs -> exists ds, meanL vs ds /\ Forall2 doc l ds.
Proof.
  induction 1 as [|x v l vs (d & Md & Dd) _ (ds & M & D)]; [exists []; split; constructor|]. exists (d :: ds). split; now constructor.
Qed.
Definition dphS (h : sphdr) : dph := mkDph (y_type h) (y_flags h) (y_offset h) (y_vaddr h) (y_paddr h) (y_filesz h) (y_memsz h) (y_align h).
Lemma dphOf_bytes h : phdrFull h -> dphOf (phdrBytes h) = dphS h.
Proof.
  intros ((H1 & H2 & H3 & H4 & H5) & H6 & H7 & H8). change (2 ^ 64) with 18446744073709551616 in *. change (2 ^ 32) with 4294967296 in *. unfold dphOf, dphS, phdrBytes. f_equal; fldgo.
Qed.
Lemma readDphs_spec m io file h hs : holdsImage m io file -> ehdrOk h -> Forall phdrFull hs -> x_phnum h = zlen hs -> x_phoff h <= zlen file -> fileAt file (x_phoff h) (flat_map phdrBytes hs) ->
  readDphs m io (ehS h) = Ok (map dphS hs).
Proof.
  intros HI (L & H1 & H2 & H3 & H4 & H5 & H6) HO HN Hp HA. unfold readDphs. cbn [ehS e_phoff e_phnum]. rewrite HN. change (2 ^ 16) with 65536 in *.
  rewrite u64_id by (unfold isU64, W64; lia). rewrite (viewArray m io file _ 56 phdrBytes hs HI); [|lia|exact phdrBytes_len|exact HA|exact Hp].
  cbn [bind]. f_equal. rewrite map_map. apply map_ext_Forall. eapply Forall_impl; [|exact HO]. intros x Hx. now apply dphOf_bytes.
Qed.
Lemma addKey_in t l : forall x, In x (addKey t l) <-> x = t \/ In x l.
Proof.
  induction l as [|y l IH]; intros x; cbn [addKey In]; [intuition|]. destruct (t <? y) eqn:E1; [cbn [In]; intuition|]. destruct (t =? y) eqn:E2; [apply Z.eqb_eq in E2; subst; cbn [In]; intuition|]. cbn [In]. rewrite IH. intuition.
Qed.
Lemma addKey_sorted t l : StronglySorted Z.lt l -> StronglySorted Z.lt (addKey t l).
Proof.
  induction 1 as [|y l S IH F]; cbn [addKey]; [repeat constructor|]. destruct (t <? y) eqn:E1; [constructor; [now constructor|]; constructor; [lia|]; eapply Forall_impl; [|exact F]; cbv beta; intros; lia|].
  destruct (t =? y) eqn:E2; [now constructor|]. constructor; [exact IH|]. rewrite Forall_forall in *. intros x I. apply addKey_in in I as [->|I]; [lia|now apply F].
Qed.
Lemma segTypes_spec l : StronglySorted Z.lt (segTypes l) /\ forall t, In t (segTypes l) <-> exists d, In d l /\ dType d = t.
Proof.
  unfold segTypes. assert (G : forall l k, StronglySorted Z.lt k -> StronglySorted Z.lt (fold_left (fun k d => addKey (dType d) k) l k) /\
    forall t, In t (fold_left (fun k d => addKey (dType d) k) l k) <-> In t k \/ exists d, In d l /\ dType d = t).
  { clear. induction l as [|d l IH]; intros k S; cbn [fold_left]; [split; [exact S|]; intros t; split; [auto|intros [I|(d & [] & _)]; exact I]|].
    destruct (IH (addKey (dType d) k) (addKey_sorted _ _ S)) as [S' I']. split; [exact S'|]. intros t. rewrite I', addKey_in. split.
    - intros [[->|I]|(e & I & E)]; [right; exists d; split; [now left|reflexivity]|now left|right; exists e; split; [now right|exact E]].
    - intros [I|(e & [->|I] & E)]; [left; now right|left; left; now symmetry|right; now exists e]. }
  destruct (G l [] (SSorted_nil _)) as [S I]. split; [exact S|]. intros t. rewrite I. split; [intros [[]|X]; exact X|now right].
Qed.
Lemma seg_shown t : exists s, segTypeShown t s /\ s = txt (segName t) /\ plainText s s.
Proof.
  destruct (in_dec Z.eq_dec t (map fst stdSegTypes)) as [I|N].
  - apply in_map_iff in I as ((c & n) & E & I). cbn [fst] in E. subst c. assert (C : called stdSegTypes t (lit n)) by (now exists n). exists (lit n). split; [now left|].
    destruct (table_std stdSegTypes segTable ltac:(vm_compute; reflexivity) _ _ C) as (n' & E & E'). split; [unfold segName; rewrite E; exact E'|]. now apply (called_plain stdSegTypes eq_refl t).
  - exists (lit "invalid program header type"). split; [right; split; [exact N|reflexivity]|]. split; [|lits]. unfold segName, inTable.
    destruct (find (fun p => fst p =? t) segTable) as [q|] eqn:E; [|reflexivity]. exfalso. apply find_some in E as [I Q]. apply N. apply Z.eqb_eq in Q. subst t. change segTable with stdSegTypes in I. apply in_map. exact I.
Qed.
Lemma segFlags_std f : (if Z.land f 4 =? 0 then [] else ["PF_R"%string]) ++ (if Z.land f 2 =? 0 then [] else ["PF_W"%string]) ++ (if Z.land f 1 =? 0 then [] else ["PF_X"%string]) =
  map snd (filter (fun p => Z.testbit f (Z.log2 (fst p))) stdSegFlags).
Proof.
  rewrite <- (filter_std stdSegFlags f eq_refl). cbn [stdSegFlags map filter fst snd]. destruct (Z.land f 4 =? 0); destruct (Z.land f 2 =? 0); destruct (Z.land f 1 =? 0); reflexivity.
Qed.
Lemma sorted_map {X Y} (g : X -> Y) (R : Y -> Y -> Prop) l : StronglySorted R (map g l) -> StronglySorted (fun a b => R (g a) (g b)) l.
Proof. induction l as [|x l IH]; cbn [map]; intros H; [constructor|]. inversion H as [|? ? S F]; subst. constructor; [now apply IH|]. rewrite Forall_map in F. exact F. Qed.

Lemma dyn_bytes e : dynOk e -> fld 8 (dynBytes e) 0 = fst e /\ fld 8 (dynBytes e) 8 = snd e.
Proof. intros [D1 D2]. unfold dynBytes. split; fldgo. Qed.
Lemma tag_means (e : Z * Z) tag : ((exists t, called stdDynTags (fst e) t /\ tag = XStr t) \/ (In (fst e) plainTags /\ tag = XNum (fst e))) -> means (dynTagJ (fst e)) tag.
Proof.
  intros [(t & C & ->)|[I ->]].
  - assert (R : s32 (fst e) = fst e).
    { destruct C as (n & I & _). assert (F : forallb (fun p : Z * string => s32 (fst p) =? fst p) stdDynTags = true) by (vm_compute; reflexivity). rewrite forallb_forall in F. specialize (F _ I). cbn [fst] in F. lia. }
    unfold dynTagJ. rewrite R. destruct (table_std stdDynTags dynTable ltac:(vm_compute; reflexivity) _ _ C) as (n & E & ->). rewrite E. apply mStr. now apply (called_plain stdDynTags eq_refl (fst e)).
  - assert (F : forallb (fun c => match inTable dynTable (s32 c) with None => (s32 c =? c) && (0 <=? c) && (c <? 0x80000000) | Some _ => false end) plainTags = true) by (vm_compute; reflexivity).
    rewrite forallb_forall in F. specialize (F _ I). unfold dynTagJ. destruct (inTable dynTable (s32 (fst e))); [discriminate|]. apply andb_true_iff in F as [F F3]. apply andb_true_iff in F as [F1 F2].
    replace (s32 (fst e)) with (fst e) by lia. apply mInt. change (2 ^ 63) with 9223372036854775808. change (2 ^ 64) with 18446744073709551616. lia.
Qed.
Section Segments.
Context (fuel : nat) (m : memory) (io : reader) (file : list Z) (HI : holdsImage m io file) (Hfuel : (List.length file < fuel)%nat).
Context (ord : list string -> list string) (OP : forall l, Permutation (ord l) l).
Context (srt : list dph -> list dph) (SP : forall l, Permutation (srt l) l) (SS : forall l, StronglySorted (fun a b => dVaddr a <= dVaddr b) (srt l)).
Context (hs : list sphdr) (HF : Forall phdrFull hs) (HL : loadsApart hs).
Let loads := map asPh (segsOf srt (map dphS hs) 1).
Lemma segsOf_spec t : exists l, segsOf srt (map dphS hs) t = map dphS l /\ Permutation l (filter (fun h => y_type h =? t) hs) /\ StronglySorted (fun a b => y_vaddr a <= y_vaddr b) l.
Proof using All.
  unfold segsOf. assert (E : filter (fun d => dType d =? t) (map dphS hs) = map dphS (filter (fun h => y_type h =? t) hs)).
  { clear. induction hs as [|h l IH]; [reflexivity|]. cbn [map filter dphS dType]. destruct (y_type h =? t); cbn [map]; now rewrite IH. }
  rewrite E. pose proof (SP (map dphS (filter (fun h => y_type h =? t) hs))) as P. pose proof (SS (map dphS (filter (fun h => y_type h =? t) hs))) as S.
  apply Permutation_map_inv in P as (l & El & Pl). exists l. split; [exact El|]. split; [now apply Permutation_sym|]. rewrite El in S. exact (sorted_map dphS _ l S).
Qed.
Lemma loads_spec : Forall segOk loads /\ StronglySorted (fun x y => p_vaddr x <= p_vaddr y) loads /\ NoDup loads /\ (forall x y, In x loads -> In y loads -> x = y \/ segDisjoint x y) /\
  (forall x, In x loads <-> exists h, In h hs /\ y_type h = 1 /\ x = phS h).
Proof using All.
  unfold loads. destruct (segsOf_spec 1) as (l & El & Pl & Sl). rewrite El, map_map. change (fun x => asPh (dphS x)) with phS. destruct HL as [LA LD].
  assert (IN : forall h, In h l <-> In h hs /\ y_type h = 1).
  { intros h. split; intros X; [apply (Permutation_in _ Pl) in X; apply filter_In in X as [X1 X2]; split; [exact X1|lia]|apply (Permutation_in _ (Permutation_sym Pl)); apply filter_In; split; [apply X|lia]]. }
  assert (DJ : ForallOrdPairs (fun a b => y_vaddr a + y_memsz a <= y_vaddr b \/ y_vaddr b + y_memsz b <= y_vaddr a) l).
  { assert (FP : ForallOrdPairs (fun a b => y_vaddr a + y_memsz a <= y_vaddr b \/ y_vaddr b + y_memsz b <= y_vaddr a) (filter (fun h => y_type h =? 1) hs)).
    { clear - LD. induction LD as [|a l F _ IH]; cbn [filter]; [constructor|]. destruct (y_type a =? 1) eqn:E; [|exact IH]. constructor; [|exact IH]. rewrite Forall_forall in *. intros b I. apply filter_In in I as [I Eb]. apply F; [exact I|lia|lia]. }
    clear - FP Pl. apply Permutation_sym in Pl. revert FP. induction Pl as [|x l l' P IH|x y l|l1 l2 l3 P1 IH1 P2 IH2]; intros FP; [exact FP| | |now apply IH2, IH1].
    - inversion FP as [|? ? F FP']; subst. constructor; [|now apply IH]. rewrite Forall_forall in *. intros z I. apply F. now apply (Permutation_in _ (Permutation_sym P)).
    - inversion FP as [|? ? F FP']; subst. inversion FP' as [|? ? F' FP'']; subst. inversion F; subst. constructor; [constructor; [tauto|exact F']|]. now constructor. }
  assert (MM : forall h, In h l -> 0 < y_memsz h /\ y_vaddr h + y_memsz h <= 2 ^ 64) by (intros h X; apply LA; now apply IN).
  split; [|split; [|split; [|split]]].
  - rewrite Forall_map, Forall_forall. intros h X. destruct (MM h X) as [M1 M2]. rewrite Forall_forall in HF. destruct (HF h (proj1 (proj1 (IN h) X))) as ((_ & _ & V & _) & _). unfold segOk, phS. cbn. lia.
  - clear - Sl. induction Sl as [|h l S IH F]; cbn [map]; constructor; [exact IH|]. rewrite Forall_map. exact F.
  - clear - DJ MM. induction DJ as [|h l F _ IH]; cbn [map]; constructor.
    + intros X. apply in_map_iff in X as (g & E & X). rewrite Forall_forall in F. specialize (F g X). pose proof (MM g (or_intror X)). pose proof (MM h (or_introl eq_refl)). unfold phS in E. injection E as _ _ E1 _ E2. lia.
    + apply IH. intros g X. apply MM. now right.
  - intros x y X Y. apply in_map_iff in X as (a & <- & X). apply in_map_iff in Y as (b & <- & Y). clear - DJ X Y. induction DJ as [|h l F _ IH]; [destruct X|]. rewrite Forall_forall in F. unfold segDisjoint, phS in *. cbn in *.
    destruct X as [->|X], Y as [->|Y]; [now left|right; now apply F|right; specialize (F a X); tauto|now apply IH].
  - intros x. rewrite in_map_iff. split; [intros (h & <- & X); exists h; apply IN in X; tauto|intros (h & X1 & X2 & ->); exists h; split; [reflexivity|now apply IN]].
Qed.
Lemma dyn_doc strtab c e x : 0 <= strtab < 2 ^ 64 -> (exists g, In g hs /\ y_type g = 1 /\ y_vaddr g <= strtab < y_vaddr g + y_memsz g) -> cacheOk loads c -> dynOk e -> dynDoc file hs strtab e x ->
  exists c' v, dumpDyn fuel m io loads strtab c (dynBytes e) = (c', Ok v) /\ cacheOk loads c' /\ exists y, means v y /\ dynDoc file hs strtab e y.
Proof using All.
  intros Rs HC Hc He (tag & str & Htag & Hstr & ->). destruct loads_spec as (L1 & L2 & L3 & L4 & L5). destruct (dyn_bytes e He) as [E1 E2]. destruct He as [He1 He2].
  destruct (getSegment_spec loads L1 L2 L3 L4 c strtab Hc Rs) as [G1 G2]. unfold dumpDyn. destruct (getSegment loads c strtab) as [c' o]. cbn [fst snd] in *.
  destruct o as [g|]; [|exfalso; destruct HC as (g & I & T & C); apply (G2 (phS g)); [apply L5; now exists g|exact C]].
  destruct G2 as [Ig Cg]. rewrite E1, E2. pose proof (tag_means e tag Htag) as MT.
  assert (ST : forall k s t, called dynKeys (fst e) k -> dynString file hs strtab (snd e) s -> plainText s t -> rstring fuel m io (u64 (u64 (p_offset g + (strtab - p_vaddr g)) + snd e)) = Ok s).
  { intros k s t _ (g0 & I0 & T0 & C0 & P0 & A0) _. assert (Eg : g = phS g0) by (apply (cover_unique loads L4 strtab); [exact Ig|apply L5; now exists g0|exact Cg|exact C0]). subst g. cbn [phS p_offset p_vaddr].
    pose proof (textAt_len file _ _ A0) as [_ TL]. pose proof (img_len m io file HI) as IL. pose proof (zlen_nonneg s).
    assert (EU : u64 (u64 (y_offset g0 + (strtab - y_vaddr g0)) + snd e) = y_offset g0 + (strtab - y_vaddr g0) + snd e).
    { unfold u64. rewrite Zplus_mod_idemp_l. apply Z.mod_small. unfold W64 in *. lia. }
    rewrite EU. now apply (img_string m io file HI). }
  exists c'. change (2 ^ 64) with 18446744073709551616 in *.
  destruct Hstr as [[NK ->]|(k & s & t & CK & DS & PT & ->)].
  - cbn [dynKeys map fst In] in NK. replace (fst e =? 1) with false by lia. replace (fst e =? 15) with false by lia. replace (fst e =? 14) with false by lia. replace (fst e =? 29) with false by lia.
    eexists. split; [reflexivity|]. split; [exact G1|]. exists (XObj [(lit "tag", tag); num "word" (snd e)]). split.
    + apply mObj. apply mmCons; [lits|exact MT|]. unfold num, nf. apply mmCons; [lits|apply mInt; change (2 ^ 64) with 18446744073709551616; change (2 ^ 63) with 9223372036854775808; lia|constructor].
    + exists tag, []. split; [exact Htag|]. split; [|reflexivity]. left. split; [|reflexivity]. cbn [dynKeys map fst In]. exact NK.
  - specialize (ST k s t CK DS PT). rewrite ST. cbn [bind].
    assert (GK : exists v, (if fst e =? 1 then Ok (VObj ([(txt "tag", dynTagJ (fst e)); nf "word" (snd e)] ++ [(txt "lib", VStr s)])) else
      if fst e =? 15 then Ok (VObj ([(txt "tag", dynTagJ (fst e)); nf "word" (snd e)] ++ [(txt "rpath", VStr s)])) else
      if fst e =? 14 then Ok (VObj ([(txt "tag", dynTagJ (fst e)); nf "word" (snd e)] ++ [(txt "soname", VStr s)])) else
      if fst e =? 29 then Ok (VObj ([(txt "tag", dynTagJ (fst e)); nf "word" (snd e)] ++ [(txt "runpath", VStr s)])) else
      Ok (VObj [(txt "tag", dynTagJ (fst e)); nf "word" (snd e)])) = Ok v /\ means v (XObj ([(lit "tag", tag); num "word" (snd e)] ++ [(k, XStr t)]))).
    { assert (MP : forall q, plainText q q -> means (VObj ([(txt "tag", dynTagJ (fst e)); nf "word" (snd e)] ++ [(q, VStr s)])) (XObj ([(lit "tag", tag); num "word" (snd e)] ++ [(q, XStr t)]))).
      { intros q Hq. apply mObj. apply mmCons; [lits|exact MT|]. unfold num, nf. apply mmCons; [lits|apply mInt; change (2 ^ 64) with 18446744073709551616; change (2 ^ 63) with 9223372036854775808; lia|]. apply mmCons; [exact Hq|now apply mStr|constructor]. }
      destruct CK as (n & I & ->). cbn [dynKeys In] in I. repeat (destruct I as [I|I]; [injection I as E <-; rewrite <- E; eexists; split; [reflexivity|]; rewrite E; apply MP; lits|]). destruct I. }
    destruct GK as (v & Ev & Mv). exists v. split; [f_equal; exact Ev|]. split; [exact G1|]. eexists. split; [exact Mv|]. exists tag, [(k, XStr t)]. split; [exact Htag|]. split; [|reflexivity]. right. now exists k, s, t.
Qed.
Lemma seg_doc c h x : cacheOk loads c -> In h hs -> segDoc file hs h x ->
  exists c' v, dumpSeg fuel m io ord loads c (dphS h) = (c', Ok v) /\ cacheOk loads c' /\ exists y, means v y /\ segDoc file hs h y.
Proof using All.
  intros Hc Ih (ty & flags & body & Hty & Hfl & Hb & ->). rewrite Forall_forall in HF. destruct (HF h Ih) as ((H1 & H2 & H3 & H4 & H5) & H6 & H7 & H8). rewrite <- Forall_forall in HF.
  destruct (flags_means ord stdSegFlags (y_flags h) OP eq_refl) as (flags' & Hfl' & Mfl). destruct (seg_shown (y_type h)) as (sn & Hsn & Esn & Psn).
  unfold dumpSeg. cbn [dphS dType dFlags dOffset dVaddr dPaddr dFilesz dMemsz dAlign]. rewrite segFlags_std.
  set (pre := [nf "offset" (y_offset h); _; _; _; _; _; _; _]).
  assert (MP : meanM pre [num "offset" (y_offset h); num "vaddr" (y_vaddr h); num "paddr" (y_paddr h); num "filesz" (y_filesz h); num "memsz" (y_memsz h); (lit "type", XStr sn); (lit "flags", flags'); num "alignment" (y_align h)]).
  { unfold pre, num, nf. change (2 ^ 64) with 18446744073709551616 in *. do 5 (apply mmCons; [lits|apply mInt; change (2 ^ 64) with 18446744073709551616; change (2 ^ 63) with 9223372036854775808; lia|]).
    apply mmCons; [lits|unfold vs; rewrite <- Esn; now apply mStr|]. apply mmCons; [lits|exact Mfl|]. apply mmCons; [lits|apply mInt; change (2 ^ 64) with 18446744073709551616; change (2 ^ 63) with 9223372036854775808; lia|constructor]. }
  clearbody pre. destruct Hb as [NT|dyns strtab xs T FA OB FS DO DH CV HX|T FS OB].
  - replace (y_type h =? 2) with false by lia. exists c, (VObj pre). split; [reflexivity|]. split; [exact Hc|]. eexists. split; [apply mObj; exact MP|]. exists sn, flags', []. split; [exact Hsn|]. split; [exact Hfl'|]. split; [now apply GBOther|reflexivity].
  - rewrite T, Z.eqb_refl. rewrite FS. rewrite (Z.mul_comm 16). rewrite (viewArray m io file _ 16 dynBytes dyns HI); [|lia|exact dyn_len|exact FA|exact OB].
    assert (ES : match find (fun b => fld 8 b 0 =? 5) (map dynBytes dyns) with Some b => fld 8 b 8 | None => 0 end = strtab).
    { destruct DH as (pa & po & -> & NI). apply Forall_app in DO as [DP DQ]. clear - DP DQ NI. induction pa as [|e pa IH]; cbn [map app find].
      - inversion DQ as [|? ? D1 _]; subst. destruct (dyn_bytes _ D1) as [Q1 Q2]. rewrite Q1. cbn [fst]. rewrite Z.eqb_refl. exact Q2.
      - inversion DP as [|? ? D1 D2]; subst. destruct (dyn_bytes _ D1) as [Q1 Q2]. rewrite Q1. cbn [map In] in NI. destruct (fst e =? 5) eqn:E; [exfalso; apply NI; left; lia|]. apply IH; [exact D2|tauto]. }
    rewrite ES. assert (RS : 0 <= strtab < 2 ^ 64) by (destruct CV as (g & Ig & _ & C); rewrite Forall_forall in HF; destruct (HF g Ig) as ((_ & _ & V & _) & _); destruct HL as [LA _]; destruct DH as (pa & po & -> & _); apply Forall_app in DO as [_ DQ]; inversion DQ as [|? ? [_ D1] _]; subst; exact D1).
    destruct (dumpSt_spec (dumpDyn fuel m io loads strtab) (cacheOk loads) (fun b => exists e, b = dynBytes e /\ dynOk e /\ exists d, dynDoc file hs strtab e d)
       (fun b v => exists e, b = dynBytes e /\ dynOk e /\ exists d, means v d /\ dynDoc file hs strtab e d)) with (l := map dynBytes dyns) (c := c) as (c' & ys & E & I & R).
    { intros c0 b I0 (e & -> & De & d & Dd). destruct (dyn_doc strtab c0 e d RS CV I0 De Dd) as (c1 & v & Q1 & Q2 & Q3). exists c1, v. split; [exact Q1|]. split; [exact Q2|]. exists e. split; [reflexivity|]. split; [exact De|exact Q3]. }
    { exact Hc. }
    { rewrite Forall_map. clear - HX DO. induction HX; inversion DO; subst; constructor; eauto. }
    rewrite E. exists c'. eexists. split; [reflexivity|]. split; [exact I|].
    assert (RR : Forall2 (fun e v => exists d, means v d /\ dynDoc file hs strtab e d) dyns ys).
    { clear - R DO. revert ys R. induction dyns as [|e l IH]; intros ys R; inversion R as [|? v ? ys' (e' & Ee & De' & d & Md & Dd) R']; subst; constructor; inversion DO as [|? ? De DO']; subst.
      - destruct (dyn_bytes e De) as [P1 P2], (dyn_bytes e' De') as [P3 P4]. rewrite Ee in P1, P2. assert (e = e') by (destruct e, e'; cbn [fst snd] in *; congruence). subst e'. now exists d.
      - now apply IH. }
    destruct (F2_docs _ _ _ RR) as (ds & Mds & Dds). eexists. split; [apply mObj; apply mM_app; [exact MP|]; apply mmCons; [lits|apply mList; exact Mds|constructor]|].
    exists sn, flags', [(lit "dynamic", XArr ds)]. split; [exact Hsn|]. split; [exact Hfl'|]. split; [|reflexivity]. now apply (GBDyn file hs h dyns strtab ds).
  - rewrite T, Z.eqb_refl, FS. rewrite (viewArray m io file _ 16 dynBytes [] HI); [|lia|exact dyn_len|split; [lia|cbn [flat_map]; change (zlen (@nil Z)) with 0; now rewrite ztake_neg by lia]|exact OB].
    cbn [map find dumpSt]. exists c. eexists. split; [reflexivity|]. split; [exact Hc|]. eexists. split; [apply mObj; apply mM_app; [exact MP|]; apply mmCons; [lits|apply mList; constructor|constructor]|].
    exists sn, flags', [(lit "dynamic", XArr [])]. split; [exact Hsn|]. split; [exact Hfl'|]. split; [now apply GBEmpty|reflexivity].
Qed.
Lemma segs_doc c : cacheOk loads c -> Forall (fun h => exists x, segDoc file hs h x) hs ->
  exists c' v x, dumpSegs fuel m io ord srt (map dphS hs) c = (c', Ok v) /\ means v x /\ segmentsDoc file hs x.
Proof using All.
  intros Hc HD. unfold dumpSegs. fold loads. destruct (segTypes_spec (map dphS hs)) as [ST SI].
  destruct (dumpSt_spec (fun (c : option phdr) t => match dumpSt (dumpSeg fuel m io ord loads) c (segsOf srt (map dphS hs) t) with
      | (c, Ok y) => (c, Ok (txt (segName t), VList y)) | (c, Throw) => (c, Throw) | (c, UB) => (c, UB) | (c, OutOfFuel) => (c, OutOfFuel) end) (cacheOk loads) (fun t => True)
      (fun t (kv : list Z * jval) => exists k d, plainText (fst kv) k /\ means (snd kv) d /\ segTypeShown t k /\
         exists l xs, Permutation l (filter (fun h => y_type h =? t) hs) /\ StronglySorted (fun a b => y_vaddr a <= y_vaddr b) l /\ Forall2 (segDoc file hs) l xs /\ d = XArr xs)) with (l := segTypes (map dphS hs)) (c := c) as (c' & ys & E & I & R).
  - intros c0 t I0 _. destruct (segsOf_spec t) as (l & El & Pl & Sl). rewrite El.
    assert (IL : forall h, In h l -> In h hs) by (intros h X; apply (Permutation_in _ Pl) in X; now apply filter_In in X).
    assert (GS : exists c1 ys, dumpSt (dumpSeg fuel m io ord loads) c0 (map dphS l) = (c1, Ok ys) /\ cacheOk loads c1 /\ Forall2 (fun h v => exists d, means v d /\ segDoc file hs h d) l ys).
    { clear - I0 IL HD HI Hfuel OP SP SS HF HL. revert c0 I0. induction l as [|h l IH]; intros c0 I0; [exists c0, []; repeat split; [exact I0|constructor]|].
      rewrite Forall_forall in HD. destruct (HD h (IL h (or_introl eq_refl))) as (x & Hx). destruct (seg_doc c0 h x I0 (IL h (or_introl eq_refl)) Hx) as (c1 & v & E1 & I1 & Q1).
      destruct (IH ltac:(intros g X; apply IL; now right) c1 I1) as (c2 & ys & E2 & I2 & Q2). exists c2, (v :: ys). cbn [map dumpSt]. rewrite E1, E2. repeat split; [exact I2|now constructor]. }
    destruct GS as (c1 & ys & E1 & I1 & Q1). rewrite E1. exists c1. eexists. split; [reflexivity|]. split; [exact I1|]. destruct (F2_docs _ _ _ Q1) as (ds & Md & Dd).
    destruct (seg_shown t) as (s & Hs & Es & Ps). exists s, (XArr ds). cbn [fst snd]. split; [rewrite <- Es; exact Ps|]. split; [now apply mList|]. split; [exact Hs|]. now exists l, ds.
  - exact Hc.
  - now rewrite Forall_forall.
  - rewrite E. exists c', (VMap ys).
    assert (GM : exists ms, meanM ys ms /\ Forall2 (fun t m => segTypeShown t (fst m) /\
      exists l xs, Permutation l (filter (fun h => y_type h =? t) hs) /\ StronglySorted (fun a b => y_vaddr a <= y_vaddr b) l /\ Forall2 (segDoc file hs) l xs /\ snd m = XArr xs) (segTypes (map dphS hs)) ms).
    { clear - R. induction R as [|t [k v] ts ys (k' & d & Pk & Md & Sk & Q) _ (ms & Mm & Fm)]; [exists []; split; constructor|]. exists ((k', d) :: ms). split; [now constructor|]. constructor; [|exact Fm]. now split. }
    destruct GM as (ms & Mm & Fm). exists (XObj ms). split; [reflexivity|]. split; [now apply mMap|]. exists (segTypes (map dphS hs)), ms. split; [exact ST|]. split; [|split; [reflexivity|exact Fm]].
    intros t. rewrite SI. split; [intros (d & Id & Ed); apply in_map_iff in Id as (h & <- & Ih); now exists h|intros (h & Ih & Eh); exists (dphS h); split; [now apply in_map|exact Eh]].
Qed.
End Segments.
