From Verif Require Import Base Leb LebSpec DwarfReader DwarfReaderProofs Reader ReaderSpec ReaderProofs ReaderArray ReaderArrayProofs CfiSpec CfiProofs ElfHash ElfHashProofs ElfObj ElfFile ElfFileSpec ElfFileProofs.

(** ** Fields of encoded structures *)
Lemma fld_skipl n x y o : zlen x <= o -> fld n (x ++ y) o = fld n y (o - zlen x).
Proof.
  intros H. unfold fld. do 2 f_equal. pose proof (zlen_nonneg x). replace o with ((o - zlen x) + zlen x) at 1 by lia. rewrite <- zdrop_zdrop by lia. now rewrite zdrop_app_zlen.
Qed.
Lemma fld_skipb n k v y o : Z.of_nat k <= o -> fld n (leBytes k v ++ y) o = fld n y (o - Z.of_nat k).
Proof. intros H. rewrite fld_skipl by (rewrite leBytes_len; exact H). now rewrite leBytes_len. Qed.
Lemma fld_head k v y : 0 <= v < 256 ^ Z.of_nat k -> fld (Z.of_nat k) (leBytes k v ++ y) 0 = v.
Proof. exact (fld_at k [] v y 0 eq_refl). Qed.
Lemma fld_only k v : 0 <= v < 256 ^ Z.of_nat k -> fld (Z.of_nat k) (leBytes k v) 0 = v.
Proof. exact (fld_end k [] v 0 eq_refl). Qed.
Ltac fldgo :=
  repeat lazymatch goal with
  | |- fld ?n (leBytes ?k ?v ++ ?y) 0 = _ => fail
  | |- fld ?n (leBytes ?k ?v ++ ?y) ?o = _ =>
      rewrite (fld_skipb n k v y o) by (vm_compute; discriminate); let o' := eval vm_compute in (o - Z.of_nat k) in change (o - Z.of_nat k) with o'
  end;
  lazymatch goal with
  | |- fld ?n (leBytes ?k ?v ++ ?y) 0 = _ => apply (fld_head k v y); assumption
  | |- fld ?n (leBytes ?k ?v) 0 = _ => apply (fld_only k v); assumption
  end.

(** ** Section headers *)
Definition shdS (h : sshdr) : shd := mkShd (z_name h) (z_type h) (z_flags h) (z_addr h) (z_offset h) (z_size h) (z_link h) (z_info h).
Lemma shdOf_bytes h : shdrOk h -> shdOf (shdrBytes h) = shdS h.
Proof. intros (H1 & H2 & H3 & H4 & H5 & H6 & H7 & H8). unfold shdOf, shdS, shdrBytes. f_equal; fldgo. Qed.
Lemma shdrBytes_len h : zlen (shdrBytes h) = 64.
Proof. unfold shdrBytes. rewrite !zlen_app, !leBytes_len. reflexivity. Qed.
Lemma ehdrBytes_len h : zlen (x_ident h) = 16 -> zlen (ehdrBytes h) = 64.
Proof. intros H. unfold ehdrBytes. rewrite !zlen_app, !leBytes_len, H. reflexivity. Qed.
Lemma fileAt_slice file off bs n : fileAt file off bs -> zlen bs = n -> ztake n (zdrop off file) = bs.
Proof. intros [_ H] <-. exact H. Qed.

Definition ehS (h : sehdr) : ehdr := mkEh (fld 1 (x_ident h) 7) (x_type h) (x_entry h) (x_phoff h) (x_shoff h) (x_phnum h) (x_shentsize h) (x_shnum h) (x_shstrndx h).
Definition versionOne (i : list Z) : Prop := ztake 4 i = [127; 69; 76; 70] /\ znth 6 i = Some 1.
Lemma identElf64_v1 i : identElf64 i -> versionOne i.
Proof. intros (r & ->). split; reflexivity. Qed.
Lemma ztake_app_le {A} (x y : list A) n : n <= zlen x -> ztake n (x ++ y) = ztake n x.
Proof.
  intros H. rewrite <- (ztake_ztake (x ++ y) n (zlen x)) by exact H. now rewrite ztake_app_zlen.
Qed.
Lemma znth_fld1 b o x : znth o b = Some x -> isByte x -> fld 1 b o = x.
Proof.
  intros H Hb. pose proof (znth_some _ _ _ H) as Hr. unfold fld. rewrite <- (Z.add_0_r o) in H. rewrite <- znth_zdrop in H by lia. destruct (zdrop o b) as [|y l]; [discriminate|].
  cbn in H. inversion H; subst. cbn [ztake]. change (1 <=? 0) with false. cbv iota. rewrite ztake_neg by lia. cbn [leValue]. lia.
Qed.
Lemma zdrop_app_in {A} (l1 l2 : list A) : forall n, 0 <= n <= zlen l1 -> zdrop n (l1 ++ l2) = zdrop n l1 ++ l2.
Proof.
  induction l1 as [|x l1 IH]; intros n H; [change (zlen (@nil A)) with 0 in H; rewrite !zdrop_neg by lia; reflexivity|]. rewrite zlen_cons in H.
  cbn [app zdrop]. destruct (n <=? 0) eqn:E; [reflexivity|]. apply IH. lia.
Qed.
Lemma fld_first n x y o : 0 <= o -> o + n <= zlen x -> 0 <= n -> fld n (x ++ y) o = fld n x o.
Proof. intros H1 H2 H3. unfold fld. rewrite zdrop_app_in by lia. rewrite ztake_app_le; [reflexivity|]. rewrite zlen_zdrop by lia. lia. Qed.
Lemma readEhdr_spec m io file h : holdsImage m io file -> ehdrOk h -> versionOne (x_ident h) -> fileAt file 0 (ehdrBytes h) -> readEhdr m io = Ok (ehS h).
Proof.
  intros HI (L & Ht & He & H1 & H2 & H3 & H4 & H5 & H6) [M V] HF. unfold readEhdr.
  pose proof (ehdrBytes_len h L) as HL. pose proof (fileAt_len _ _ _ HF) as HB.
  rewrite (img_obj m io file HI) by (try lia; rewrite <- HL; apply HB; intros E; rewrite E in HL; discriminate).
  rewrite (fileAt_slice _ _ _ _ HF HL). cbn [bind].
  assert (E1 : ztake 4 (ehdrBytes h) = [127; 69; 76; 70]). { unfold ehdrBytes. rewrite ztake_app_le by lia. exact M. }
  assert (E2 : fld 1 (ehdrBytes h) 6 = 1). { apply znth_fld1; [|unfold isByte; lia]. unfold ehdrBytes. rewrite znth_app_l by lia. exact V. }
  rewrite E1, E2. rewrite (proj2 (beq_spec [127; 69; 76; 70] [127; 69; 76; 70]) eq_refl). change (1 =? 1) with true. cbn [andb]. cbv iota.
  unfold ehS. f_equal. unfold ehdrBytes. f_equal; [apply fld_first; lia|..]; rewrite fld_skipl by (rewrite L; vm_compute; discriminate); rewrite L;
  match goal with |- fld ?n ?y (?a - ?b) = _ => let o' := eval vm_compute in (a - b) in change (a - b) with o' end; fldgo.
Qed.

Section Sections.
Context {zst : Type} (zinit : zst) (zinflate : zst -> list Z -> Z -> bool -> zret * Z * list Z * zst) (zlib : bool).
Context (m : memory) (io : reader) (file : list Z) (HI : holdsImage m io file) (fuel : nat) (Hfuel : (length file < fuel)%nat).

Lemma loadHeaders_spec eh : 64 <= e_shentsize eh < 2 ^ 16 -> forall (hs : list sshdr) f off i count, (length hs < f)%nat -> 1 <= i -> count = i + zlen hs -> 0 <= off <= zlen file + 2 ^ 16 ->
  Forall shdrOk hs -> (forall k s, znth k hs = Some s -> fileAt file (off + k * e_shentsize eh) (shdrBytes s)) ->
  loadHeaders m io f eh off i count = (map shdS hs, Ok tt).
Proof.
  clear Hfuel. intros He. pose proof (img_len m io file HI) as HL. induction hs as [|s hs IH]; intros f off i count Hf Hi Hc Ho HF HT; (destruct f as [|f]; [cbn in Hf; lia|]); cbn [loadHeaders].
  - change (zlen (@nil sshdr)) with 0 in Hc. destruct (i <? count) eqn:E; [lia|]. reflexivity.
  - rewrite zlen_cons in Hc. pose proof (zlen_nonneg hs). destruct (i <? count) eqn:E; [|lia].
    pose proof (HT 0 s eq_refl) as A. rewrite Z.mul_0_l, Z.add_0_r in A. pose proof (fileAt_len _ _ _ A) as B. rewrite shdrBytes_len in B.
    assert (NE : shdrBytes s <> []) by (intros X; pose proof (shdrBytes_len s) as Y; rewrite X in Y; discriminate). specialize (B NE).
    rewrite (img_obj m io file HI) by lia. rewrite (fileAt_slice _ _ _ _ A (shdrBytes_len s)). apply Forall_cons_iff in HF as [F1 F2].
    rewrite shdOf_bytes by assumption. destruct (i =? 0) eqn:E0; [lia|]. cbn [andb]. change (2 ^ 16) with 65536 in *.
    rewrite u64_id by (unfold isU64, W64 in *; lia).
    rewrite (IH f (off + e_shentsize eh) (i + 1) count); [reflexivity|cbn in Hf; lia|lia|lia|lia|assumption|].
    intros k x Hk. pose proof (znth_some _ _ _ Hk). replace (off + e_shentsize eh + k * e_shentsize eh) with (off + (k + 1) * e_shentsize eh) by ring. apply HT.
    cbn [znth]. destruct (k + 1 =? 0) eqn:?; [lia|]. destruct (k + 1 <? 0) eqn:?; [lia|]. now replace (k + 1 - 1) with k by lia.
Qed.
Definition secS (s : sshdr * list Z) : sec := mkSec (shdS (fst s)) (Some (snd s)).
Lemma sectionIo_raw h name : h_type h <> 0 -> Z.land (h_flags h) 2048 = 0 -> startsWith zdebugName name = false ->
  sectionIo zinit zinflate zlib fuel m io h name = Ok (IoR (rview io (h_offset h) (h_size h))).
Proof.
  intros H1 H2 H3. unfold sectionIo. destruct (h_type h =? 0) eqn:E; [lia|]. rewrite H2. cbn [Z.eqb negb]. rewrite H3. reflexivity.
Qed.
Lemma sectionNames_spec str : z_type str <> 0 -> z_flags str = 0 -> 0 < z_offset str -> forall secs : list (sshdr * list Z),
  Forall (fun s => shdrOk (fst s)) secs -> Forall (fun s => textAt file (z_offset str + z_name (fst s)) (snd s)) secs ->
  sectionNames zinit zinflate zlib fuel m io (shdS str) (map shdS (map fst secs)) = (map secS secs, Ok tt).
Proof.
  intros T F O. induction secs as [|s secs IH]; intros H1 H2; [reflexivity|]. cbn [map sectionNames].
  apply Forall_cons_iff in H1 as [A1 A2]. apply Forall_cons_iff in H2 as [B1 B2].
  rewrite sectionIo_raw; [|exact T|unfold shdS; cbn [h_flags]; rewrite F; reflexivity|reflexivity]. cbn [bind ioString shdS h_offset h_size h_name].
  destruct A1 as [Z1 _]. rewrite (view_string m io file HI) with (t := snd s); [|lia|lia|lia|assumption|assumption].
  rewrite IH by assumption. reflexivity.
Qed.
Lemma map_znth {A B} (f : A -> B) : forall l k, znth k (map f l) = option_map f (znth k l).
Proof. induction l as [|x l IH]; intros k; [reflexivity|]. cbn [map znth]. destruct (k =? 0); [reflexivity|]. destruct (k <? 0); [reflexivity|apply IH]. Qed.
Lemma zlen_map {A B} (f : A -> B) l : zlen (map f l) = zlen l.
Proof. unfold zlen. now rewrite map_length. Qed.
Lemma sectionHeaders_spec h first secs stri str : ehdrOk h -> hasSections file h first secs stri str ->
  sectionHeaders zinit zinflate zlib fuel m io (ehS h) None = (Some (map secS secs), Ok (map secS secs)).
Proof.
  intros (L & H1 & H2 & H3 & H4 & H5 & H6) HS. destruct (hs_first _ _ _ _ _ _ HS) as (fn & r & ->).
  pose proof (hs_table _ _ _ _ _ _ HS) as HT. pose proof (hs_ok _ _ _ _ _ _ HS) as HO. pose proof (hs_count _ _ _ _ _ _ HS) as HC.
  pose proof (hs_strndx _ _ _ _ _ _ HS) as HX. pose proof (hs_str _ _ _ _ _ _ HS) as (sn & HSt). pose proof (hs_strok _ _ _ _ _ _ HS) as (T & F & O1 & O2).
  pose proof (hs_names _ _ _ _ _ _ HS) as HN. pose proof (hs_entsize _ _ _ _ _ _ HS) as HE. clear HS.
  pose proof (img_len m io file HI) as HL. pose proof (zlen_nonneg r) as Hr0. rewrite zlen_cons in HC.
  assert (NE : forall s, shdrBytes s <> []) by (intros s X; pose proof (shdrBytes_len s) as Y; rewrite X in Y; discriminate).
  pose proof (HT 0 _ eq_refl) as A. cbn [fst] in A. rewrite Z.mul_0_l, Z.add_0_r in A. pose proof (fileAt_len _ _ _ A (NE first)) as B. rewrite shdrBytes_len in B.
  assert (HR : x_shoff h + zlen r * x_shentsize h + 64 <= zlen file).
  { destruct (Z.eq_dec (zlen r) 0) as [->|]; [lia|]. destruct (znth_lt (zlen r) ((first, fn) :: r)) as [s Hs]; [rewrite zlen_cons; lia|].
    pose proof (fileAt_len _ _ _ (HT _ _ Hs) (NE (fst s))) as Q. rewrite shdrBytes_len in Q. exact Q. }
  assert (HR2 : zlen r * 64 <= zlen file) by nia.
  unfold sectionHeaders. rewrite (img_size m io file HI). cbn [ehS e_shoff e_shnum e_shentsize e_shstrndx].
  destruct (x_shoff h <? zlen file) eqn:E; [|lia].
  destruct (x_shentsize h =? 0) eqn:E0; [lia|]. cbn [negb]. rewrite andb_true_r.
  assert (HLd : loadHeaders m io fuel (ehS h) (x_shoff h) 0 (if x_shnum h =? 0 then 65536 else x_shnum h) = (map shdS (map fst ((first, fn) :: r)), Ok tt)).
  { destruct fuel as [|f]; [lia|]. cbn [loadHeaders ehS e_shnum e_shentsize]. destruct (0 <? (if x_shnum h =? 0 then 65536 else x_shnum h)) eqn:E1; [|destruct (x_shnum h =? 0) eqn:?; lia].
    rewrite (img_obj m io file HI) by lia. rewrite (fileAt_slice _ _ _ _ A (shdrBytes_len first)).
    apply Forall_cons_iff in HO as [F1 F2]. cbn [fst] in F1. rewrite shdOf_bytes by assumption. change (0 =? 0) with true. cbn [andb map fst].
    assert (HCnt : (if x_shnum h =? 0 then h_size (shdS first) else if x_shnum h =? 0 then 65536 else x_shnum h) = 1 + zlen (map fst r)).
    { rewrite zlen_map. cbn [shdS h_size]. destruct HC as [[C1 C2]|(C1 & C2 & C3)]; destruct (x_shnum h =? 0) eqn:?; lia. }
    rewrite HCnt. rewrite zlen_map.
    assert (G : (x_shnum h =? 0) && (1 + zlen r >=? W64 / 16) = false).
    { destruct (1 + zlen r >=? W64 / 16) eqn:G; [|apply andb_false_r]. assert (W64 / 16 = 4 * (W64 / 64)) by reflexivity. assert (W64 / 4 = 16 * (W64 / 64)) by reflexivity. assert (W64/64 > 100) by reflexivity. lia. }
    rewrite G. change (2 ^ 16) with 65536 in *. rewrite u64_id by (unfold isU64, W64 in *; lia).
    rewrite (loadHeaders_spec (ehS h)) with (hs := map fst r); [reflexivity|cbn [ehS e_shentsize]; change (2^16) with 65536; lia|rewrite map_length; unfold zlen in *; lia|lia|rewrite zlen_map; lia|change (2^16) with 65536; cbn [ehS]; lia| |].
    - apply Forall_map. exact F2.
    - intros k s Hk. rewrite map_znth in Hk. destruct (znth k r) as [s'|] eqn:Ek; [|discriminate]. cbn in Hk. inversion Hk; subst. pose proof (znth_some _ _ _ Ek).
      cbn [ehS e_shentsize]. replace (x_shoff h + x_shentsize h + k * x_shentsize h) with (x_shoff h + (k + 1) * x_shentsize h) by ring. apply (HT (k + 1) s').
      cbn [znth]. destruct (k + 1 =? 0) eqn:?; [lia|]. destruct (k + 1 <? 0) eqn:?; [lia|]. now replace (k + 1 - 1) with k by lia. }
  rewrite HLd. cbv iota beta.
  destruct (x_shstrndx h =? 0) eqn:E2; [destruct HX as [?|(? & ? & ?)]; lia|].
  assert (HIdx : (if x_shstrndx h =? 65535 then match map shdS (map fst ((first, fn) :: r)) with [] => None | h0 :: _ => Some (h_link h0) end else Some (x_shstrndx h)) = Some stri).
  { cbn [map fst shdS h_link]. destruct HX as [[X1 X2]|(X1 & X2 & X3)]; destruct (x_shstrndx h =? 65535) eqn:?; try lia; f_equal; lia. }
  rewrite HIdx. rewrite !map_znth, HSt. cbn [option_map fst].
  rewrite sectionNames_spec by assumption. reflexivity.
Qed.
End Sections.

(** ** Program headers *)
Definition phS (h : sphdr) : phdr := mkPh (y_type h) (y_offset h) (y_vaddr h) (y_filesz h) (y_memsz h).
Lemma phdrBytes_len h : zlen (phdrBytes h) = 56.
Proof. unfold phdrBytes. rewrite !zlen_app, !leBytes_len. reflexivity. Qed.
Lemma phOf_bytes h : phdrOk h -> phOf (phdrBytes h) = phS h.
Proof. intros (H1 & H2 & H3 & H4 & H5). unfold phOf, phS, phdrBytes. f_equal; fldgo. Qed.
Lemma records_flat {A} (f : A -> list Z) sz : 0 < sz -> (forall x, zlen (f x) = sz) -> forall l fuel, (length (flat_map f l) < fuel)%nat ->
  records fuel sz (flat_map f l) = map f l.
Proof.
  intros Hs Hf. induction l as [|x l IH]; intros fuel Hl; (destruct fuel as [|fu]; [lia|]); cbn [flat_map records map].
  - change (zlen (@nil Z)) with 0. destruct (0 <? sz) eqn:E; [reflexivity|lia].
  - cbn [flat_map] in Hl. rewrite app_length in Hl. pose proof (Hf x) as Hx. pose proof (zlen_nonneg (flat_map f l)). rewrite zlen_app, Hx. destruct (sz + zlen (flat_map f l) <? sz) eqn:E; [lia|].
    rewrite <- Hx at 1 3. rewrite ztake_app_zlen, zdrop_app_zlen. f_equal. apply IH. unfold zlen in Hx. lia.
Qed.
Lemma flat_len {A} (f : A -> list Z) sz : (forall x, zlen (f x) = sz) -> forall l, zlen (flat_map f l) = zlen l * sz.
Proof. intros H. induction l as [|x l IH]; [reflexivity|]. cbn [flat_map]. rewrite zlen_app, H, IH, zlen_cons. ring. Qed.
Lemma viewArray m io file o sz {A} (f : A -> list Z) l : holdsImage m io file -> 0 < sz <= 1024 -> (forall x, zlen (f x) = sz) -> fileAt file o (flat_map f l) -> o <= zlen file ->
  ioArray m (IoR (rview io o (zlen l * sz))) sz = Ok (map f l).
Proof.
  intros HI Hs Hf HA Ho. pose proof (img_len m io file HI) as HL. pose proof (flat_len f sz Hf l) as E. pose proof (zlen_nonneg l) as Hl0.
  assert (HB : o + zlen l * sz <= zlen file).
  { destruct l as [|x l]; [change (zlen (@nil A)) with 0; lia|]. rewrite <- E. apply fileAt_len; [exact HA|]. intros X. rewrite X in E. change (zlen (@nil Z)) with 0 in E. rewrite zlen_cons in E. pose proof (zlen_nonneg l). nia. }
  destruct HA as [HA1 HA2]. rewrite E in HA2. assert (0 <= zlen l * sz) by nia.
  unfold ioArray. cbn [ioSize]. change (ioRead m (IoR (rview io o (zlen l * sz)))) with (rread m (rview io o (zlen l * sz))). rewrite (view_size m io file HI) by lia. rewrite <- E at 1.
  assert (HC : 0 < 1024 / sz /\ 1024 / sz * sz <= 1024). { split; [apply Z.div_str_pos; lia|]. rewrite Z.mul_comm. apply Z.mul_div_le. lia. }
  destruct (array_iteration_lemma (flat_map f l) sz (1024 / sz) (rread m (rview io o (zlen l * sz)))) as [P1 P2].
  - rewrite <- HA2. apply (view_serves m io file HI); lia.
  - lia.
  - lia.
  - rewrite E. unfold W64 in *. lia.
  - assert (HM : zlen (flat_map f l) mod sz = 0) by (rewrite E; apply Z.mod_mul; lia).
    rewrite P1, HM. change (0 =? 0) with true. cbv iota. cbn [bind]. rewrite (P2 HM). f_equal. apply records_flat; [lia|exact Hf|lia].
Qed.
Lemma readPhdrs_spec m io file h hs : holdsImage m io file -> ehdrOk h -> Forall phdrOk hs -> x_phnum h = zlen hs -> x_phoff h <= zlen file -> fileAt file (x_phoff h) (flat_map phdrBytes hs) ->
  readPhdrs m io (ehS h) = Ok (map phS hs).
Proof.
  intros HI (L & H1 & H2 & H3 & H4 & H5 & H6) HO HN Hp HA. unfold readPhdrs. cbn [ehS e_phoff e_phnum]. rewrite HN. change (2 ^ 16) with 65536 in *.
  rewrite u64_id by (unfold isU64, W64; lia). rewrite (viewArray m io file _ 56 phdrBytes hs HI); [|lia|exact phdrBytes_len|exact HA|exact Hp].
  cbn [bind]. f_equal. rewrite map_map. apply map_ext_in. intros x Hx. apply phOf_bytes. now apply (proj1 (Forall_forall _ _) HO).
Qed.

(** ** Inflating *)
Section Inf.
Context {zst : Type} (zinit : zst) (step : zst -> list Z -> Z -> bool -> zret * Z * list Z * zst) (c d : list Z) (st : Z -> Z -> zst -> Prop).
Context (ZC : zcontract step c d st) (Hinit : st 0 0 zinit).
Context (rd : Z -> Z -> res (list Z)) (w : list Z).
Context (Hrd : forall off, 0 <= off <= zlen w -> rd off 32768 = Ok (ztake 32768 (zdrop off w))) (Hw : zlen w < W64 / 4).
(* the input starts with the stream, or with as much of it as there is *)
Context (HP : ztake (zlen w) c = ztake (zlen c) w).

Lemma compat i n : 0 <= i <= zlen c -> 0 <= n -> i + n <= zlen w -> ztake (zlen c - i) (ztake n (zdrop i w)) = ztake (zlen (ztake n (zdrop i w))) (zdrop i c).
Proof.
  intros Hi Hn Hb. rewrite ztake_zdrop_len by lia.
  assert (E : forall k, 0 <= k -> i + k <= zlen w -> i + k <= zlen c -> ztake k (zdrop i c) = ztake k (zdrop i w)).
  { intros k K1 K2 K3. replace k with ((i + k) - i) by lia. rewrite <- !zdrop_ztake by lia. f_equal.
    rewrite <- (ztake_ztake c (i + k) (zlen w)) by lia. rewrite <- (ztake_ztake w (i + k) (zlen c)) by lia. now rewrite HP. }
  destruct (Z_le_dec n (zlen c - i)).
  - rewrite (ztake_all (zlen c - i)) by (rewrite ztake_zdrop_len by lia; lia). symmetry. apply E; lia.
  - rewrite (ztake_all n (zdrop i c)) by (rewrite zlen_zdrop by lia; lia). rewrite ztake_ztake by lia.
    rewrite <- E by lia. rewrite ztake_all by (rewrite zlen_zdrop by lia; lia). reflexivity.
Qed.
(** Whatever comes out of a successful run is all of the output: then all the stream was there and there was room. *)
Lemma infLoop_sound : forall fuel z n eof i o avail r, st i o z -> 0 <= i <= zlen c -> 0 <= o <= zlen d -> 0 <= n -> i + n <= zlen w -> 0 <= avail ->
  infLoop step fuel rd z (ztake n (zdrop i w)) eof (i + n) avail = Ok r -> r = zdrop o d /\ zlen c <= zlen w /\ zlen d - o <= avail.
Proof.
  induction fuel as [|f IH]; intros z n eof i o avail r Hst Hi Ho Hn Hb Ha H; [discriminate|]. cbn [infLoop] in H. rewrite ztake_zdrop_len in H by lia.
  assert (G : exists n' eof', 0 <= n' /\ i + n' <= zlen w /\
     (if (n =? 0) && negb eof then let* b := rd (i + n) 32768 in Ok (b, zlen b =? 0, u64 (i + n + zlen b)) else Ok (ztake n (zdrop i w), eof, i + n)) = Ok (ztake n' (zdrop i w), eof', i + n')).
  { destruct ((n =? 0) && negb eof) eqn:E; [|exists n, eof; repeat split; lia]. apply andb_true_iff in E as [E _]. assert (n = 0) by lia. subst n. rewrite Z.add_0_r, Hrd by lia. cbn [bind].
    exists (Z.min 32768 (zlen w - i)). eexists. split; [lia|]. split; [lia|]. rewrite zlen_ztake, zlen_zdrop by lia. replace (Z.max 0 (zlen w - i)) with (zlen w - i) by lia.
    rewrite u64_id by (unfold isU64, W64 in *; lia). do 3 f_equal. destruct (Z_le_dec 32768 (zlen w - i)); [now rewrite Z.min_l by lia|]. rewrite Z.min_r by lia. rewrite !ztake_all by (rewrite zlen_zdrop by lia; lia). reflexivity. }
  destruct G as (n' & eof' & Hn' & Hb' & G). rewrite G in H. cbn [bind] in H. cbv iota beta in H. clear G.
  destruct (step z (ztake n' (zdrop i w)) avail eof') as [[[ret used] out] z'] eqn:Es.
  pose proof (zc_out _ _ _ _ ZC i o z _ avail eof' ret used out z' Hst Ha (compat i n' Hi Hn' Hb') Es) as (U1 & U2 & U3 & U4 & U5 & U6 & U7 & U8).
  rewrite ztake_zdrop_len in U1 by lia. pose proof (zlen_nonneg out) as Hout.
  destruct ret.
  - inversion H; subst r. destruct (U7 eq_refl) as [V1 V2]. split.
    { rewrite U5. rewrite ztake_all; [reflexivity|]. rewrite zlen_zdrop by lia. lia. }
    split; lia.
  - rewrite zdrop_ztake, zdrop_zdrop in H by lia. rewrite (Z.add_comm used i) in H. replace (i + n') with ((i + used) + (n' - used)) in H by lia.
    destruct (infLoop step f rd z' (ztake (n' - used) (zdrop (i + used) w)) eof' (i + used + (n' - used)) (avail - zlen out)) as [r'| | |] eqn:Er; try discriminate.
    cbn [bind] in H. inversion H; subst r. apply (IH z' (n' - used) eof' (i + used) (o + zlen out)) in Er as (E1 & E2 & E3); [|now apply U6|lia|lia|lia|lia|lia].
    split; [|lia]. rewrite E1. rewrite U5 at 1. rewrite (Z.add_comm o), <- zdrop_zdrop by lia. apply ztake_zdrop.
  - discriminate.
Qed.
(** With the whole stream there and room for the output, it is decompressed. *)
Lemma infLoop_complete : zlen c <= zlen w -> forall fuel z i o avail, st i o z -> 0 <= i <= zlen c -> 0 <= o <= zlen d -> zlen d - o <= avail -> (Z.to_nat (zlen c - i) < fuel)%nat ->
  infLoop step fuel rd z [] false i avail = Ok (zdrop o d).
Proof.
  intros Hcw. induction fuel as [|f IH]; intros z i o avail Hst Hi Ho Ha Hf; [lia|]. cbn [infLoop]. change (zlen (@nil Z)) with 0. change (0 =? 0) with true. cbn [negb andb]. cbv iota.
  rewrite Hrd by lia. cbn [bind]. set (n := Z.min 32768 (zlen w - i)).
  assert (En : ztake 32768 (zdrop i w) = ztake n (zdrop i w)).
  { subst n. destruct (Z_le_dec 32768 (zlen w - i)); [now rewrite Z.min_l by lia|]. rewrite Z.min_r by lia. rewrite !ztake_all by (rewrite zlen_zdrop by lia; lia). reflexivity. }
  rewrite En. assert (Hln : zlen (ztake n (zdrop i w)) = n) by (apply ztake_zdrop_len; lia). rewrite Hln. rewrite u64_id by (unfold isU64, W64 in *; lia).
  destruct (step z (ztake n (zdrop i w)) avail (n =? 0)) as [[[ret used] out] z'] eqn:Es.
  pose proof (compat i n Hi ltac:(lia) ltac:(lia)) as HCo. rewrite Hln in HCo.
  pose proof (zc_out _ _ _ _ ZC i o z _ avail (n =? 0) ret used out z' Hst ltac:(lia) ltac:(rewrite Hln; exact HCo) Es) as (U1 & U2 & U3 & U4 & U5 & U6 & U7 & U8). pose proof (zlen_nonneg out) as Hout.
  destruct (Z_le_dec (zlen c - i) n) as [Hle|Hgt].
  - assert (HR : ret = ZStreamEnd).
    { apply (zc_end _ _ _ _ ZC i o z (ztake n (zdrop i w)) avail (n =? 0) ret used out z'); [assumption|lia|lia| |assumption].
      rewrite HCo. rewrite ztake_all by (rewrite zlen_zdrop by lia; lia). reflexivity. }
    subst ret. f_equal. destruct (U7 eq_refl) as [_ V]. rewrite U5. apply ztake_all. rewrite zlen_zdrop by lia. lia.
  - assert (n > 0) by lia. destruct (n =? 0) eqn:E0; [lia|].
    destruct (zc_more _ _ _ _ ZC i o z (ztake n (zdrop i w)) avail ret used out z') as [-> HU]; [assumption|lia|lia| |assumption|].
    { rewrite Hln. rewrite <- HCo at 1. symmetry. apply ztake_all. lia. }
    rewrite HU, Hln. rewrite zdrop_ztake by lia. replace (n - n) with 0 by lia. rewrite ztake_neg by lia.
    rewrite HU, Hln in U6. rewrite (IH z' (i + n) (o + zlen out)); [|now apply U6|lia|lia|lia|lia].
    cbn [bind]. f_equal. rewrite (Z.add_comm o), <- zdrop_zdrop by lia. rewrite U5 at 1. apply ztake_zdrop.
Qed.
Lemma inflate_complete fuel size : zlen c <= zlen w -> zlen d <= size < W32 -> (length c < fuel)%nat ->
  inflateReader zinit step fuel size rd = Ok (d ++ repeat 0 (Z.to_nat (size - zlen d))).
Proof.
  intros H1 H2 H3. pose proof (zlen_nonneg d). pose proof (zlen_nonneg c). unfold inflateReader. destruct (size >=? W64 / 2) eqn:E; [unfold W32, W64 in *; lia|].
  rewrite u32_id by (unfold isU32; lia). rewrite (infLoop_complete H1 fuel zinit 0 0 size); [|assumption|lia|lia|lia|unfold zlen in *; lia].
  cbn [bind]. now rewrite zdrop_neg by lia.
Qed.
Lemma inflate_sound fuel size r : 0 <= size -> inflateReader zinit step fuel size rd = Ok r -> zlen c <= zlen w /\ zlen d <= u32 size /\ r = d ++ repeat 0 (Z.to_nat (size - zlen d)).
Proof.
  intros Hs H. unfold inflateReader in H. destruct (size >=? W64 / 2) eqn:E; [discriminate|].
  destruct (infLoop step fuel rd zinit [] false 0 (u32 size)) as [out| | |] eqn:El; try discriminate. cbn [bind] in H. inversion H; subst r.
  pose proof (zlen_nonneg w). pose proof (zlen_nonneg c). pose proof (zlen_nonneg d). pose proof (u32_range size) as [U _].
  replace (@nil Z) with (ztake 0 (zdrop 0 w)) in El by (apply ztake_neg; lia). change 0 with (0 + 0) in El at 3.
  apply infLoop_sound with (o := 0) in El as (-> & A & B); [|assumption|lia|lia|lia|lia|lia].
  rewrite zdrop_neg by lia. split; [exact A|]. split; [lia|reflexivity].
Qed.
End Inf.
