(** Properties C40 and C65: /proc/<pid>/maps and smaps. *)
From Verif Require Import Base ElfHash ElfHashProofs Maps MapsSpec MapsProofs.

(** For every text of maps or smaps describing any regions: the parser gives one range per region, in order, with the
    start, end, permissions, offset, device and path the text states, and the inode if that is less than 10.
    Missing for the full property: other inodes, for which it is false (below). *)
Definition stated (ga : region * list (list Z)) (r : range) : Prop :=
  let g := fst ga in
  rgStart r = gStart g /\ rgEnd r = gEnd g /\ rgOffset r = gOffset g /\ rgMajor r = gMajor g /\ rgMinor r = gMinor g /\
  (In 114 (rgPerms r) <-> gR g = true) /\ (In 119 (rgPerms r) <-> gW g = true) /\ (In 120 (rgPerms r) <-> gX g = true) /\
  (In 115 (rgPerms r) <-> gShared g = true) /\ (In 112 (rgPerms r) <-> gShared g = false) /\
  rgPath r = (match gPath g with [] => [60; 97; 110; 111; 110; 62] | p => p end).
Lemma Forall2_weaken {A B} (P Q : A -> B -> Prop) : (forall a b, P a b -> Q a b) -> forall l m, Forall2 P l m -> Forall2 Q l m.
Proof. intros H l m F. induction F; constructor; auto. Qed.
Theorem C40_regions_partial : forall gs text,
  smapsText gs text -> Forall (fun x => regionOk (fst x)) gs ->
  exists n, forall fuel, (n <= fuel)%nat -> exists rs, procMaps fuel text = Ok rs /\
  Forall2 (fun ga r => stated ga r /\ (gInode (fst ga) < 10 -> rgInode r = gInode (fst ga))) gs rs.
Proof.
  intros gs text H Hok. exists (S (length gs)). intros fuel Hf. destruct (smaps_spec gs text H Hok fuel ltac:(lia)) as (rs & E & F). exists rs. split; [exact E|].
  eapply Forall2_weaken; [|exact F]. intros [g attrs] r (A & B & C & D & E1 & E2 & P & i & Ni & Ei). unfold stated. cbn [fst] in *. rewrite C. unfold expectedPerms. split.
  - repeat (split; [assumption|]). do 5 (split; [destruct (gR g), (gW g), (gX g), (gShared g); cbn [app In]; split; intros; (lia || discriminate || congruence || tauto)|]). exact P.
  - destruct (hex_dec i _ Ni) as (w & Ew & Hw). rewrite Ei in Ew. injection Ew as ->. exact Hw.
Qed.

(** The full property is false: the inode is written in decimal and read as hexadecimal, so every inode of 10 or more (of
    up to 16 digits) is misreported. *)
Theorem C40_inode_refuted : forall g h, headerText g h -> regionOk g -> 10 <= gInode g ->
  (forall i, numeral 10 i (gInode g) -> zlen i <= 16) -> exists r, parseHeader h = Ok r /\ rgInode r <> gInode g.
Proof.
  intros g h H O Hge Hl. destruct (header_spec g h H O) as (ino & E & i & Ni & Ei). eexists. split; [exact E|]. cbn [rgInode].
  destruct (hex_dec_wrong i _ Ni (Hl i Ni)) as (w & Ew & _ & Hw). rewrite Ei in Ew. injection Ew as ->. specialize (Hw Hge). lia.
Qed.

(** Two regions, one with a path and attribute lines, one without a path *)
Lemma num1 base d c : 0 <= d < base -> d < 10 -> c = 48 + d -> numeral base [c] d.
Proof. intros. apply NumOne. unfold digitOf. lia. Qed.
Lemma num16 s v : numeral 16 s v -> forall c d, digitOf 16 c d -> numeral 16 (s ++ [c]) (v * 16 + d).
Proof. intros. now apply NumMore. Qed.
Definition exG1 : region := mkRg 26 31 true false true false 0 8 1 7 [47; 97; 32; 98].
Definition exG2 : region := mkRg 32 48 true true false true 16 0 0 0 [].
(** "1a-1f r-xp 0 8:1 7   /a b" *)
Definition exH1 : list Z := [49;97;45;49;102;32;114;45;120;112;32;48;32;56;58;49;32;55;32;32;32;47;97;32;98].
(** "20-30 rw-s 10 0:0 0" *)
Definition exH2 : list Z := [50;48;45;51;48;32;114;119;45;115;32;49;48;32;48;58;48;32;48].
Lemma exH1_ok : headerText exG1 exH1.
Proof.
  refine (HText exG1 [49; 97] [49; 102] [48] [56] [49] [55] 3 _ _ _ _ _ _ _); cbn [gStart gEnd gOffset gMajor gMinor gInode gPath exG1]; try (apply num1; lia); [| |discriminate].
  - apply (NumMore 16 [49] 1 97 10); [apply num1; lia|unfold digitOf; lia].
  - apply (NumMore 16 [49] 1 102 15); [apply num1; lia|unfold digitOf; lia].
Qed.
Lemma exH2_ok : headerText exG2 exH2.
Proof.
  refine (HText exG2 [50; 48] [51; 48] [49; 48] [48] [48] [48] 0 _ _ _ _ _ _ _); cbn [gStart gEnd gOffset gMajor gMinor gInode gPath exG2]; try (apply num1; lia); [| | |congruence].
  - apply (NumMore 16 [50] 2 48 0); [apply num1; lia|unfold digitOf; lia].
  - apply (NumMore 16 [51] 3 48 0); [apply num1; lia|unfold digitOf; lia].
  - apply (NumMore 16 [49] 1 48 0); [apply num1; lia|unfold digitOf; lia].
Qed.
(** "Rss: 4", "VmFlags: rd ex mr " *)
Definition exAttrs : list (list Z) := [[82;115;115;58;32;52]; flagsLine [[114;100]; [101;120]; [109;114]]].
Example C40_case : smapsText [(exG1, exAttrs); (exG2, [])] (exH1 ++ 10 :: flat_map (fun a => a ++ [10]) exAttrs ++ exH2 ++ [10]) /\
  Forall (fun x => regionOk (fst x)) [(exG1, exAttrs); (exG2, [])] /\
  procMaps 5 (exH1 ++ 10 :: flat_map (fun a => a ++ [10]) exAttrs ++ exH2 ++ [10]) =
    Ok [mkRange 26 31 [114; 120; 112] 0 8 1 7 [47; 97; 32; 98] [[101;120]; [109;114]]; mkRange 32 48 [114; 119; 115] 16 0 0 0 anonText []].
Proof.
  split; [|split; [|vm_compute; reflexivity]].
  - apply SCons; [exact exH1_ok| |].
    + repeat constructor; vm_compute; try congruence; try discriminate.
    + apply (SCons exG2 [] exH2 [] []); [exact exH2_ok|constructor|constructor].
  - repeat constructor; unfold regionOk, textOk; cbn; try lia; try discriminate.
Qed.
(** "20-30 rw-s 10 0:0 12": inode 12 is reported as 18 *)
Example C40_inode_case : exists r, parseHeader (exH2 ++ []) = Ok r /\ rgInode r = 0 /\
  exists r', parseHeader [50;48;45;51;48;32;114;119;45;115;32;49;48;32;48;58;48;32;49;50] = Ok r' /\ rgInode r' = 18.
Proof. eexists. split; [vm_compute; reflexivity|]. split; [reflexivity|]. eexists. split; [vm_compute; reflexivity|]. reflexivity. Qed.

(** ** C65: the VmFlags line *)
(** For every region line followed by a flags line: exactly the documented flags other than the first of the line are
    reported, in order.  Missing for the full property: the first, which is lost (below). *)
Theorem C65_flags_partial : forall g h f fs, headerText g h -> regionOk g -> flagWord f -> Forall flagWord fs ->
  exists n, forall fuel, (n <= fuel)%nat -> exists r, procMaps fuel (h ++ 10 :: flagsLine (f :: fs) ++ [10]) = Ok [r] /\
  rgFlags r = filter (fun x => existsb (fun y => if list_eq_dec Z.eq_dec x y then true else false) documentedFlags) fs.
Proof.
  intros g h f fs Hh Ho Hf Hfs. exists 2%nat. intros fuel Hfuel. destruct fuel as [|[|fuel]]; [lia|lia|].
  destruct (header_noNL g h Hh Ho) as (N & c & h' & Eh & U). destruct (header_spec g h Hh Ho) as (ino & Ep & Ei).
  cbn [procMaps]. destruct (h ++ 10 :: flagsLine (f :: fs) ++ [10]) as [|x y] eqn:Et; [now destruct h|]. rewrite <- Et. clear Et.
  rewrite getLine_app by exact N. rewrite Ep. cbn [bind]. rewrite flags_attr by assumption. cbn [bind]. eexists. split; [reflexivity|]. cbn [rgFlags].
  apply filter_ext. intros x0. symmetry. apply documented_known.
Qed.
(** The full property is false: the first flag of the line is never reported. *)
Theorem C65_first_flag_refuted : forall g h f fs, headerText g h -> regionOk g -> flagWord f -> Forall flagWord fs -> In f documentedFlags -> ~ In f fs ->
  exists n, forall fuel, (n <= fuel)%nat -> exists r, procMaps fuel (h ++ 10 :: flagsLine (f :: fs) ++ [10]) = Ok [r] /\ ~ In f (rgFlags r).
Proof.
  intros g h f fs Hh Ho Hf Hfs Hd Hn. destruct (C65_flags_partial g h f fs Hh Ho Hf Hfs) as [n H]. exists n. intros fuel L. destruct (H fuel L) as (r & E & F).
  exists r. split; [exact E|]. rewrite F, filter_In. tauto.
Qed.
Example C65_case : headerText exG2 exH2 /\ regionOk exG2 /\ Forall flagWord [[114;100]; [101;120]; [109;114]] /\ In [114;100] documentedFlags /\
  procMaps 5 (exH2 ++ 10 :: flagsLine [[114;100]; [101;120]; [122;122]; [109;114]] ++ [10]) =
    Ok [mkRange 32 48 [114; 119; 115] 16 0 0 0 anonText [[101;120]; [109;114]]].
Proof.
  split; [exact exH2_ok|]. split; [unfold regionOk, textOk; cbn; repeat split; try lia; constructor|]. split; [repeat constructor; unfold flagWord; do 2 eexists; (split; [reflexivity|lia])|].
  split; [cbn; tauto|]. vm_compute. reflexivity.
Qed.
Print Assumptions C40_regions_partial.
Print Assumptions C40_inode_refuted.
Print Assumptions C65_flags_partial.
Print Assumptions C65_first_flag_refuted.
