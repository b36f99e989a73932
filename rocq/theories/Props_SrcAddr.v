(** Property C179: the source of an address. *)
From Coq Require Import Ascii String.
From Verif Require Import Base Leb LebSpec DwarfReader Cfi CfiSpec CfiProofs ExprProofs Lines LinesSpec LinesProofs Aranges ArangesSpec ArangesProofs Die DieAttr DieAttrSpec DieAttrProofs Dump DumpUnit DumpUnitProofs Props_Lines Props_Aranges Props_Die SrcAddr SrcAddrSpec SrcAddrProofs.
Open Scope Z_scope.

(** The address [a] lies in an interval [i] of the map; the root entry of the interval's unit admits it, and names a line table of version 2-4 in
    .debug_line.  After any questions [h], the answer is the line, and the file (with its directory if verbose), of a row of the DWARF matrix of
    that unit's program that covers [a] within one sequence - and nothing if there is none.
    Partial: what C22, C23 and C24 leave out (DW_LNS_fixed_advance_pc scaled by the code unless minimum_instruction_length is 1, opcodes the code does
    not know, range list entries longer than their start).  Rows without a file (number 0) are answered as "unknown". *)
Definition named4 (dirs : list (list Z)) (files : list sfile) (k : Z) (name dir : list Z) : Prop :=
  (k = 0 /\ name = [117; 110; 107; 110; 111; 119; 110] /\ dir = [46]) \/
  (1 <= k /\ exists f, znth (k - 1) files = Some f /\ name = sName f /\ znth (sDir f) ([46] :: dirs) = Some dir).
Theorem C179_source_v4_partial : forall arsec aunits sets sus ivs roots ents units sc data se verbose nf fuel h a i e addrs off long ver maxOps p lens dirs files prog,
  addressMap fuel arsec aunits sets sus ivs -> In i ivs -> ivCovers i a ->
  unitIs roots ents units sc (iUnit i) e addrs -> admits sc (units (eUnit e)) addrs e a -> linesFrom e off ->
  (length (sRanges sc) < nf)%nat -> (length (sRnglists sc) < nf)%nat ->
  Forall isByte data -> zlen data + 32 < W64 -> 2 <= ver < 5 -> (long = true -> 2 < ver) -> isByte maxOps -> wfParams p lens ->
  Forall (wfLn p) prog -> (existsb isFixed prog = true -> pMin p = 1) -> (length data < fuel)%nat ->
  (long = false -> zlen data < 4294967280) ->
  Forall (fun s => s <> [] /\ isText s) dirs -> Forall wfFile files -> Forall (fun f => sDir f <= zlen dirs) files ->
  at_ data off (encodeUnit long ver (fixedPart ver maxOps p lens ++ tables4 dirs files) (encodeProg prog)) ->
  closed prog -> rowsIn 0 (zlen files) (matrix p (sreg0 p) prog) ->
  exists l, snd (infoSource arsec aunits roots ents units sc (Some data) se verbose nf fuel
      (srcHistory arsec aunits roots ents units sc (Some data) se verbose nf fuel srcState0 h) a) = Ok l /\
  ((exists r name dir, l = [(if verbose then dir ++ [47] ++ name else name, rLine r)] /\ covered rAddr rEnd (matrix p (sreg0 p) prog) a r /\
      named4 dirs files (rFile r) name dir) \/
   (l = [] /\ forall r, ~ covered rAddr rEnd (matrix p (sreg0 p) prog) a r)).
Proof.
  intros arsec aunits sets sus ivs roots ents units sc data se verbose nf fuel h a i e addrs off long ver maxOps p lens dirs files prog
    (M1 & M2 & M3 & -> & M4 & M5) Hi Ha (o & Ro & E & W & T) A (L1 & L2 & L3) F4 F5 Hd Hw Hv Hl Hm Hp Hwf Hfix Hf Hsz Hdirs Hfiles Hdi Hat C Hb.
  pose proof (C24_covering_unit_found_partial fuel arsec aunits sets sus h a i M1 M2 M3 M4 M5 Hi Ha) as LU.
  rewrite (src_unit arsec aunits roots ents units sc (Some data) se verbose nf fuel h a (iUnit i) LU).
  destruct (C23_line_matrix_v4_partial data (se (iUnit i)) fuel off long ver maxOps p lens dirs files prog Hd Hw Hv Hl Hm Hp Hwf Hfix Hf Hsz Hdirs Hfiles Hat) as (rows & HB & F).
  assert (ZF : forall k, 1 <= k -> znth k (mkFile [117; 110; 107; 110; 111; 119; 110] 0 0 0 :: map fileOf files) = option_map fileOf (znth (k - 1) files)).
  { intros k Hk. rewrite <- znth_map. match goal with |- znth _ (?x :: ?l) = _ => change (x :: l) with ([x] ++ l); rewrite (znth_app_r k [x] l) by (change (zlen [x]) with 1; lia) end. reflexivity. }
  assert (Rf : refsOk (mkLI ([46] :: dirs) (mkFile [117; 110; 107; 110; 111; 119; 110] 0 0 0 :: map fileOf files) rows (pDefStmt p) (pOpBase p) (0 :: lens))).
  { unfold refsOk. cbn [liMatrix liFiles liDirs]. apply Forall_forall. intros m Hm'. apply In_nth_error in Hm' as [k Hk].
    destruct (F2_nth _ _ _ F k m Hk) as (r & Hr & Ag). destruct Ag as (_ & -> & _).
    unfold rowsIn in Hb. rewrite Forall_forall in Hb. apply nth_error_In in Hr. destruct (Hb r Hr) as (_ & _ & R1 & R2).
    destruct (Z.eq_dec (rFile r) 0) as [Z0|NZ]; [rewrite Z0; do 2 eexists; split; reflexivity|]. rewrite ZF by lia.
    destruct (znth_is files (rFile r - 1)) as (f & Ef & Inf); [lia|]. rewrite Ef.
    cbn [option_map]. rewrite Forall_forall in Hdi, Hfiles. specialize (Hdi f Inf). destruct (Hfiles f Inf) as (_ & _ & [U0 _] & _).
    destruct (znth_is ([46] :: dirs) (sDir f)) as (d & Ed & _); [rewrite zlen_cons; lia|].
    exists (fileOf f), d. split; [reflexivity|]. exact Ed. }
  assert (Hb' : Forall (fun r => 0 <= rAddr r < 2 ^ 64 /\ 0 <= rLine r < 2 ^ 31) (matrix p (sreg0 p) prog)) by (eapply Forall_impl; [|exact Hb]; cbv beta; tauto).
  destruct (unit_lines roots ents units sc data se verbose nf fuel (iUnit i) o e addrs a off _ p prog Ro E W T A F4 F5 L1 L2 L3 HB F C Rf Hb') as (l & El & R).
  exists l. split; [exact El|]. destruct R as [(r & f & d & -> & Cv & Ef & Ed)|R]; [|right; exact R]. left.
  cbn [liFiles liDirs] in Ef, Ed. assert (Hr : In r (matrix p (sreg0 p) prog)) by (destruct Cv as (l1 & y & l2 & Em & _); rewrite Em; apply in_or_app; right; now left).
  unfold rowsIn in Hb. rewrite Forall_forall in Hb. destruct (Hb r Hr) as (_ & _ & R1 & R2).
  destruct (Z.eq_dec (rFile r) 0) as [Z0|NZ].
  { rewrite Z0 in Ef. cbn in Ef. injection Ef as <-. cbn in Ed. injection Ed as <-. exists r. do 2 eexists. split; [reflexivity|]. split; [exact Cv|]. left. auto. }
  rewrite ZF in Ef by lia.
  destruct (znth (rFile r - 1) files) as [f'|] eqn:Ez; [|discriminate]. cbn [option_map] in Ef. injection Ef as <-. exists r, (sName f'), d. split; [reflexivity|]. split; [exact Cv|]. right. split; [lia|]. exists f'. auto.
Qed.
Print Assumptions C179_source_v4_partial.

(** The same for a line table of version 5, whose files and directories are numbered from 0: the name is the path of the row's file entry, the directory
    that of the entry it refers to, or the first. *)
Theorem C179_source_v5_partial : forall arsec aunits sets sus ivs roots ents units sc data se verbose nf fuel h a i e addrs off long maxOps p lens dfmt dirs ffmt files prog,
  let olen := if (long : bool) then 8%nat else 4%nat in let en := se (iUnit i) in
  addressMap fuel arsec aunits sets sus ivs -> In i ivs -> ivCovers i a ->
  unitIs roots ents units sc (iUnit i) e addrs -> admits sc (units (eUnit e)) addrs e a -> linesFrom e off ->
  (length (sRanges sc) < nf)%nat -> (length (sRnglists sc) < nf)%nat ->
  Forall isByte data -> zlen data + 32 < W64 -> isByte maxOps -> wfParams p lens ->
  Forall (wfLn p) prog -> (existsb isFixed prog = true -> pMin p = 1) ->
  (length prog < fuel)%nat -> (length dirs < fuel)%nat -> (length files < fuel)%nat ->
  (long = false -> zlen data < 4294967280) ->
  seLen en = Z.of_nat olen ->
  Forall (fun f => u32ok (fst f) /\ u32ok (snd f)) dfmt -> Forall (fun f => u32ok (fst f) /\ u32ok (snd f)) ffmt ->
  zlen dirs < 2 ^ 31 -> zlen files < 2 ^ 64 ->
  Forall (fun d => fmtOf d = dfmt /\ Forall (dirField en olen) d /\ (exists v, In (1, v) d) /\
      (forall s, entryPath (seLineStr en) (seStr en) d s -> s <> [])) dirs ->
  Forall (fun d => fmtOf d = ffmt /\ Forall (fileField en olen) d /\ (exists v, In (1, v) d)) files ->
  at_ data off (encodeUnit long 5 (fixedPart 5 maxOps p lens ++ tables5 olen dfmt dirs ffmt files) (encodeProg prog)) ->
  dirs <> [] -> Forall (fun fe => forall k, entryDir fe k -> 0 <= k < zlen dirs) files ->
  closed prog -> rowsIn 0 (zlen files - 1) (matrix p (sreg0 p) prog) ->
  exists l, snd (infoSource arsec aunits roots ents units sc (Some data) se verbose nf fuel
      (srcHistory arsec aunits roots ents units sc (Some data) se verbose nf fuel srcState0 h) a) = Ok l /\
  ((exists r fe name k de dir, l = [(if verbose then dir ++ [47] ++ name else name, rLine r)] /\ covered rAddr rEnd (matrix p (sreg0 p) prog) a r /\
      znth (rFile r) files = Some fe /\ entryPath (seLineStr en) (seStr en) fe name /\ (entryDir fe k \/ (forall v, ~ In (2, v) fe) /\ k = 0) /\
      znth k dirs = Some de /\ entryPath (seLineStr en) (seStr en) de dir) \/
   (l = [] /\ forall r, ~ covered rAddr rEnd (matrix p (sreg0 p) prog) a r)).
Proof.
  intros arsec aunits sets sus ivs roots ents units sc data se verbose nf fuel h a i e addrs off long maxOps p lens dfmt dirs ffmt files prog olen en
    (M1 & M2 & M3 & -> & M4 & M5) Hi Ha (o & Ro & E & W & T) A (L1 & L2 & L3) F4 F5 Hd Hw Hm Hp Hwf Hfix Hf1 Hf2 Hf3 Hsz Hse Hdf Hff Hnd Hnf Hdirs Hfiles Hat Hne Hdi C Hb.
  pose proof (C24_covering_unit_found_partial fuel arsec aunits sets sus h a i M1 M2 M3 M4 M5 Hi Ha) as LU.
  rewrite (src_unit arsec aunits roots ents units sc (Some data) se verbose nf fuel h a (iUnit i) LU).
  destruct (C23_line_matrix_v5_partial data en fuel off long maxOps p lens dfmt dirs ffmt files prog Hd Hw Hm Hp Hwf Hfix Hf1 Hf2 Hf3 Hsz Hse Hdf Hff Hnd Hnf Hdirs Hfiles Hat) as (ds & fs & rows & HB & FD & FF & F).
  assert (X2 : forall {A B} (R : A -> B -> Prop) l1 l2 k x, Forall2 R l1 l2 -> znth k l1 = Some x -> exists y, znth k l2 = Some y /\ R x y).
  { intros A0 B0 R l1 l2 k x FR Hk. pose proof (znth_some _ _ _ Hk) as Hr. rewrite znth_nth_error in Hk by lia. destruct (F2_nth R l1 l2 FR _ _ Hk) as (y & Hy & Ry). exists y. rewrite znth_nth_error by lia. auto. }
  assert (DIR : forall fe f, In fe files -> fileRel en fe f -> exists de d, znth (fDir f) dirs = Some de /\ znth (fDir f) ds = Some d /\ entryPath (seLineStr en) (seStr en) de d).
  { intros fe f Inf (_ & Df & _). assert (0 <= fDir f < zlen dirs).
    { destruct Df as [Df|[_ ->]]; [rewrite Forall_forall in Hdi; exact (Hdi fe Inf _ Df)|]. destruct dirs; [congruence|]. rewrite zlen_cons. pose proof (zlen_nonneg dirs). lia. }
    destruct (znth_is dirs (fDir f)) as (de & Ede & _); [lia|]. destruct (X2 _ _ _ _ _ _ _ FD Ede) as (d & Ed & Rd). exists de, d. auto. }
  assert (Rf : refsOk (mkLI ds fs rows (pDefStmt p) (pOpBase p) (0 :: lens))).
  { unfold refsOk. cbn [liMatrix liFiles liDirs]. apply Forall_forall. intros m Hm'. apply In_nth_error in Hm' as [k Hk].
    destruct (F2_nth _ _ _ F k m Hk) as (r & Hr & Ag). destruct Ag as (_ & -> & _).
    unfold rowsIn in Hb. rewrite Forall_forall in Hb. apply nth_error_In in Hr. destruct (Hb r Hr) as (_ & _ & R1 & R2).
    destruct (znth_is files (rFile r)) as (fe & Ef & Inf); [lia|]. destruct (X2 _ _ _ _ _ _ _ FF Ef) as (f & Ef' & Rf). rewrite Ef'.
    destruct (DIR fe f Inf Rf) as (de & d & _ & Ed & _). exists f, d. auto. }
  assert (Hb' : Forall (fun r => 0 <= rAddr r < 2 ^ 64 /\ 0 <= rLine r < 2 ^ 31) (matrix p (sreg0 p) prog)) by (eapply Forall_impl; [|exact Hb]; cbv beta; tauto).
  destruct (unit_lines roots ents units sc data se verbose nf fuel (iUnit i) o e addrs a off _ p prog Ro E W T A F4 F5 L1 L2 L3 HB F C Rf Hb') as (l & El & R).
  exists l. split; [exact El|]. destruct R as [(r & f & d & -> & Cv & Ef & Ed)|R]; [|right; exact R]. left.
  cbn [liFiles liDirs] in Ef, Ed. assert (Hr : In r (matrix p (sreg0 p) prog)) by (destruct Cv as (l1 & y & l2 & Em & _); rewrite Em; apply in_or_app; right; now left).
  unfold rowsIn in Hb. rewrite Forall_forall in Hb. destruct (Hb r Hr) as (_ & _ & R1 & R2).
  destruct (znth_is files (rFile r)) as (fe & Efe & Inf); [lia|]. destruct (X2 _ _ _ _ _ _ _ FF Efe) as (f' & Ef' & Rf'). rewrite Ef in Ef'. apply Some_inj in Ef'. subst f'.
  destruct (DIR fe f Inf Rf') as (de & d' & Ede & Ed' & Pd). rewrite Ed in Ed'. apply Some_inj in Ed'. subst d'. destruct Rf' as (Pf & Df & _).
  exists r, fe, (fName f), (fDir f), de, d. auto 10.
Qed.
Print Assumptions C179_source_v5_partial.

(** An address in an interval of a unit whose root entry excludes it has no source. *)
Theorem C179_excluded : forall arsec aunits sets sus ivs roots ents units sc data se verbose nf fuel h a i e addrs,
  addressMap fuel arsec aunits sets sus ivs -> In i ivs -> ivCovers i a ->
  unitIs roots ents units sc (iUnit i) e addrs -> excludes sc (units (eUnit e)) addrs e a ->
  (length (sRanges sc) < nf)%nat -> (length (sRnglists sc) < nf)%nat ->
  snd (infoSource arsec aunits roots ents units sc (Some data) se verbose nf fuel
      (srcHistory arsec aunits roots ents units sc (Some data) se verbose nf fuel srcState0 h) a) = Ok [].
Proof.
  intros arsec aunits sets sus ivs roots ents units sc data se verbose nf fuel h a i e addrs (M1 & M2 & M3 & -> & M4 & M5) Hi Ha (o & Ro & E & W & T) A F4 F5.
  pose proof (C24_covering_unit_found_partial fuel arsec aunits sets sus h a i M1 M2 M3 M4 M5 Hi Ha) as LU.
  rewrite (src_unit arsec aunits roots ents units sc (Some data) se verbose nf fuel h a (iUnit i) LU). now apply (unit_excluded roots ents units sc data se verbose nf fuel (iUnit i) o e addrs a).
Qed.
Print Assumptions C179_excluded.
(** An address in no tuple, no low_pc/high_pc interval, and not within the s addresses before the end of a range from s, has none (C24_uncovered_lists_partial). *)
Theorem C179_uncovered_partial : forall arsec aunits sets sus ivs roots ents units sc dline se verbose nf fuel h a,
  addressMap fuel arsec aunits sets sus ivs -> (forall i, In i (flat_map rangeIvals sus) -> ~ (iEnd i - iStart i <= a < iEnd i)) -> 0 <= a ->
  (forall i, In i (flat_map setIvals sets ++ flat_map pcIval sus) -> ~ ivCovers i a) ->
  snd (infoSource arsec aunits roots ents units sc dline se verbose nf fuel
      (srcHistory arsec aunits roots ents units sc dline se verbose nf fuel srcState0 h) a) = Ok [].
Proof.
  intros arsec aunits sets sus ivs roots ents units sc dline se verbose nf fuel h a (M1 & M2 & M3 & -> & M4 & M5) N Ha Hi.
  apply src_none. apply (C24_uncovered_lists_partial fuel arsec aunits sets sus h a); auto.
Qed.
Print Assumptions C179_uncovered_partial.

(** The map of C24's example and the line table of C23's; the unit at 0 has a low_pc and high_pc; nothing of the unit at 200 says where it is. *)
Definition C179_ents (o : Z) : option entry :=
  if o =? 11 then Some (mkEntry 0 0x11 [(0x10, 0x17, 0); (0x11, 0x01, 0); (0x12, 0x06, 0)] [VWord 2; VWord 4096; VWord 150])
  else if o =? 211 then Some (mkEntry 200 0x11 [(0x10, 0x17, 0)] [VWord 2]) else None.
Definition C179_roots (u : Z) : option Z := if u =? 0 then Some 11 else if u =? 200 then Some 211 else None.
Definition C179_data : list Z := [9; 9] ++ C23_unit4.
Definition C179_src (verbose : bool) (h : list Z) (a : Z) : res (list (list Z * Z)) :=
  let d := Some (flat_map encodeSet C24_sets) in
  snd (infoSource d C24_units C179_roots C179_ents C25_units C25_secs (Some C179_data) (fun _ => C23_env) verbose 99 200
        (srcHistory d C24_units C179_roots C179_ents C25_units C25_secs (Some C179_data) (fun _ => C23_env) verbose 99 200 srcState0 h) a).
Definition C179_ivs : list ival := flat_map setIvals C24_sets ++ flat_map pcIval C24_sus ++ flat_map rangeIvals C24_sus.
Example C179_nonvacuous : let i := mkIv 4096 4352 0 in
  let e := mkEntry 0 0x11 [(0x10, 0x17, 0); (0x11, 0x01, 0); (0x12, 0x06, 0)] [VWord 2; VWord 4096; VWord 150] in
  addressMap 200 (Some (flat_map encodeSet C24_sets)) C24_units C24_sets C24_sus C179_ivs /\ In i C179_ivs /\ ivCovers i 4103 /\ ivCovers i 4246 /\
  unitIs C179_roots C179_ents C25_units C25_secs (iUnit i) e [4096; 8192; 12288] /\
  admits C25_secs (C25_units (eUnit e)) [4096; 8192; 12288] e 4103 /\ excludes C25_secs (C25_units (eUnit e)) [4096; 8192; 12288] e 4246 /\ linesFrom e 2 /\
  at_ C179_data 2 (encodeUnit false 4 (fixedPart 4 1 C23_p C23_lens ++ tables4 C23_dirs C23_files) (encodeProg C23_prog)) /\
  Forall (fun f => sDir f <= zlen C23_dirs) C23_files /\ closed C23_prog /\ rowsIn 0 (zlen C23_files) (matrix C23_p (sreg0 C23_p) C23_prog) /\
  map (C179_src true [5000; 12290]) [4096; 4103; 4136; 4246; 5000; 12290; 4352] =
    [Ok [([46; 47; 97; 46; 99], 10)]; Ok [([46; 47; 97; 46; 99], 8)]; Ok [([97; 47; 98; 46; 104], 7)]; Ok []; Ok []; Ok []; Throw] /\
  map (C179_src false [4103]) [4103; 4096] = [Ok [([97; 46; 99], 8)]; Ok [([97; 46; 99], 10)]].
Proof.
  pose proof C24_nonvacuous as N. cbv zeta in N. destruct N as (N1 & N2 & N3 & N4 & N5 & _).
  pose proof C25_nonvacuous as (T & _). assert (L : has (mkEntry 0 0x11 [(0x10, 0x17, 0); (0x11, 0x01, 0); (0x12, 0x06, 0)] [VWord 2; VWord 4096; VWord 150]) 0x11 0x01 (VWord 4096)) by (exists 1%nat, 0; split; reflexivity).
  assert (H : has (mkEntry 0 0x11 [(0x10, 0x17, 0); (0x11, 0x01, 0); (0x12, 0x06, 0)] [VWord 2; VWord 4096; VWord 150]) 0x12 0x06 (VWord 150)) by (exists 2%nat, 0; split; reflexivity).
  cbv zeta. split; [split; [split; [reflexivity|split; [exact N1|split; [reflexivity|vm_compute; lia]]]|split; [exact N2|split; [exact N3|split; [reflexivity|split; [exact N4|exact N5]]]]]|].
  split; [now left|]. split; [unfold ivCovers; cbn; lia|]. split; [unfold ivCovers; cbn; lia|].
  split; [exists 11; split; [reflexivity|split; [reflexivity|split; [split; [reflexivity|repeat constructor; cbn; lia]|exact T]]]|].
  split; [eapply AdRange; [exact L|exact H|left; split; reflexivity|right; split; [cbn; tauto|exists 150; split; [reflexivity|split; [lia|reflexivity]]]|lia|unfold W64; lia|lia]|].
  split; [eapply ExRange; [exact L|exact H|left; split; reflexivity|right; split; [cbn; tauto|exists 150; split; [reflexivity|split; [lia|reflexivity]]]|lia|unfold W64; lia|lia]|].
  split; [split; [now left|split; [exists 0x17; split; [cbn; tauto|exists 0%nat, 0; split; reflexivity]|lia]]|].
  split; [split; [lia|exists []; vm_compute; reflexivity]|].
  split; [repeat constructor; cbn; lia|]. split; [right; exists (removelast C23_prog); reflexivity|].
  split; [|split; vm_compute; reflexivity].
  unfold rowsIn. apply Forall_forall. intros r Hr. assert (F : forallb (fun r => (0 <=? rAddr r) && (rAddr r <? 2 ^ 64) && (0 <=? rLine r) && (rLine r <? 2 ^ 31) && (0 <=? rFile r) && (rFile r <=? zlen C23_files)) (matrix C23_p (sreg0 C23_p) C23_prog) = true) by (vm_compute; reflexivity).
  rewrite forallb_forall in F. specialize (F r Hr). lia.
Qed.

(** C25 for an entry with its own range list that may also have a low_pc (as the compilers write for a unit): the list's base is that low_pc.
    The list is given by its offset or (rnglistx) by its number.
    Partial: except where the address is the end of a range ([C25_range_end_refuted]); a low_pc that is the unit's. *)
Theorem C25_ranges_low_partial : forall ents units s fuel h o e a addrs off base rs,
  ents o = Some e -> wfEntry e -> unitTable s (units (eUnit e)) addrs -> listAt s (units (eUnit e)) e off -> hasNo e 0x12 ->
  listBase (units (eUnit e)) addrs e base -> rangesAre s (units (eUnit e)) addrs off base rs ->
  (length (sRanges s) < fuel)%nat -> (length (sRnglists s) < fuel)%nat -> Forall (fun r => snd r <> a) rs ->
  exists b, snd (containsAddress ents units s fuel (caHistory ents units s fuel (fun _ => None) h) o a) = Ok b /\
    b <> UNKNOWN /\ (b = YES <-> exists r, In r rs /\ fst r <= a < snd r).
Proof.
  intros ents units s fuel h o e a addrs off base rs E W T H N L R F4 F5 Ends.
  assert (C : cacheOk ents units s fuel (caHistory ents units s fuel (fun _ => None) h)) by (apply caHistory_ok; intros ? ? X; discriminate X).
  destruct (contains_pure ents units s fuel _ o a C) as [P _]. rewrite P, (list_ok ents units s fuel o e addrs off base rs a E W T H N L R F4 F5).
  eexists. split; [reflexivity|]. destruct (existsb (fun r => (fst r <=? a) && (a <=? snd r)) rs) eqn:X; (split; [discriminate|]).
  - split; [intros _|reflexivity]. apply existsb_exists in X as (r & I & Q). exists r. split; [exact I|]. rewrite Forall_forall in Ends. specialize (Ends r I). lia.
  - split; [discriminate|]. intros (r & I & Q). exfalso. assert (X' : existsb (fun r => (fst r <=? a) && (a <=? snd r)) rs = true); [|congruence].
    apply existsb_exists. exists r. split; [exact I|lia].
Qed.
Print Assumptions C25_ranges_low_partial.
Example C25_ranges_low_nonvacuous : let e := mkEntry 10 0x11 [(0x11, 0x01, 0); (0x55, 0x17, 0)] [VWord 65536; VWord 20] in
  wfEntry e /\ has e 0x55 0x17 (VWord 20) /\ hasNo e 0x12 /\ listBase (C25_units 10) [4096; 8192; 12288] e 65536 /\
  map (fun a => snd (containsAddress (fun o => if o =? 11 then Some e else None) C25_units C25_secs 99 (fun _ => None) 11 a)) [65535; 65536; 8223; 99] = [Ok NO; Ok YES; Ok YES; Ok NO].
Proof.
  cbv zeta. split; [split; [reflexivity|repeat constructor; cbn; lia]|]. split; [exists 1%nat, 0; split; reflexivity|]. split; [unfold hasNo; cbn; lia|].
  split; [right; exists 0x01, (VWord 65536); split; [exists 0%nat, 0; split; reflexivity|split; [left; split; reflexivity|reflexivity]]|vm_compute; reflexivity].
Qed.
(** The same list by its number: number 0 of a table of one entry. *)
Definition C25_rlx : list Z := leBytes 4 60 ++ [5; 0; 8; 0] ++ leBytes 4 1 ++ leBytes 4 4 ++ encodeRanges5 8 C25_list.
Lemma C25_number : numberedList C25_rlx 12 0 4.
Proof.
  assert (B : Forall isByte C25_rlx) by (apply Forall_forall; intros b Hb; assert (X : forallb (fun b => (0 <=? b) && (b <? 256)) C25_rlx = true) by (vm_compute; reflexivity); rewrite forallb_forall in X; specialize (X b Hb); unfold isByte; lia).
  exists false, 60, [4]. split; [exact B|]. split; [vm_compute; reflexivity|].
  split; [lia|]. split; [lia|]. split; [eexists; reflexivity|]. split; [eexists; vm_compute; reflexivity|]. split; [reflexivity|]. lia.
Qed.
Example C25_numbered_nonvacuous : let e := mkEntry 10 0x11 [(0x11, 0x01, 0); (0x55, 0x23, 0)] [VWord 65536; VWord 0] in let s := mkSecs (Some C25_addr) [] C25_rlx in
  listAt s (C25_units 10) e 16 /\ rangesAre s (C25_units 10) [4096; 8192; 12288] 16 65536 [(65536, 65552); (8192, 8224); (12288, 12296); (100, 200)] /\
  map (fun a => snd (containsAddress (fun o => if o =? 11 then Some e else None) C25_units s 99 (fun _ => None) 11 a)) [65535; 65536; 8223; 99] = [Ok NO; Ok YES; Ok YES; Ok NO].
Proof.
  cbv zeta. pose proof C25_number as NL. split; [|split; [|vm_compute; reflexivity]].
  - exists 0x23, (VWord 0). split; [exists 1%nat, 0; split; reflexivity|]. right. split; [reflexivity|]. exists 0, 4. split; [reflexivity|]. split; [exact NL|reflexivity].
  - pose proof C25_nonvacuous as (_ & (R1 & R2 & R) & _). split; [exact R1|]. split; [exact R2|]. change (uVer (C25_units 10) <? 5) with false in *. cbv iota in *. destruct R as (_ & _ & alen & pre & l & post & A1 & A2 & _ & _ & W & N & M).
    split; [destruct NL as (? & ? & ? & B & _); exact B|]. split; [vm_compute; reflexivity|]. exists 8%nat, (leBytes 4 60 ++ [5; 0; 8; 0] ++ leBytes 4 1 ++ leBytes 4 4), C25_list, []. split; [reflexivity|]. split; [lia|].
    split; [reflexivity|]. split; [reflexivity|]. split; [|split; [|reflexivity]].
    + repeat constructor; cbn; unfold isIdx, W64; cbn; lia.
    + repeat constructor.
Qed.
(** A unit as DWARF 2 and 3 have it: the line table's offset is a four byte constant. *)
Example C179_data4_nonvacuous : let e := mkEntry 0 0x11 [(0x10, 0x06, 0); (0x11, 0x01, 0); (0x12, 0x01, 0)] [VWord 2; VWord 4096; VWord 4246] in
  let ents o := if o =? 11 then Some e else C179_ents o in
  linesFrom e 2 /\
  map (fun a => snd (infoSource (Some (flat_map encodeSet C24_sets)) C24_units C179_roots ents C25_units C25_secs (Some C179_data) (fun _ => C23_env) true 99 200 srcState0 a)) [4096; 4103; 4136; 4246] =
    [Ok [([46; 47; 97; 46; 99], 10)]; Ok [([46; 47; 97; 46; 99], 8)]; Ok [([97; 47; 98; 46; 104], 7)]; Ok []].
Proof. cbv zeta. split; [split; [now left|split; [exists 0x06; split; [cbn; tauto|exists 0%nat, 0; split; reflexivity]|lia]]|vm_compute; reflexivity]. Qed.

(** C25, what is answered for a range list found by any lookup of DW_AT_ranges (the entry's own, or that of an entry it refers to), given by its offset or
    its number, on an entry that may have a low_pc: yes from the start of a range to its end, the end included; otherwise no. *)
Theorem C25_ranges_answer : forall ents units s h o e addrs o' e' form v off base rs a,
  (forall x y, ents x = Some y -> wfEntry y /\ 0 <= eUnit y) -> ents o = Some e -> hasNo e 0x12 ->
  (forall x y, ents x = Some y -> hasNo y 0x31 \/ hasNo y 0x47) ->
  Lookup ents 0x55 o (Some (o', form, v)) -> ents o' = Some e' -> listValue s (units (eUnit e')) form v off ->
  unitTable s (units (eUnit e)) addrs -> listBase (units (eUnit e)) addrs e base -> rangesAre s (units (eUnit e)) addrs off base rs ->
  exists n, forall fuel, (n <= fuel)%nat ->
  exists b, snd (containsAddress ents units s fuel (caHistory ents units s fuel (fun _ => None) h) o a) = Ok b /\
    ((exists r, In r rs /\ fst r <= a <= snd r) /\ b = YES \/ (forall r, In r rs -> ~ (fst r <= a <= snd r)) /\ b = NO).
Proof.
  intros ents units s h o e addrs o' e' form v off base rs a W E N One L E' LV T LB R.
  destruct (lookup_ok ents W 0x55 o _ One L) as [n A].
  exists (S (Nat.max n (Nat.max (length (sRanges s)) (length (sRnglists s))))). intros fuel Hf.
  assert (C : cacheOk ents units s fuel (caHistory ents units s fuel (fun _ => None) h)) by (apply caHistory_ok; intros ? ? X; discriminate X).
  assert (We : wfEntry e) by (eapply W; eauto).
  eexists. split.
  { rewrite (contains_ranges ents units s fuel _ o e a C E We (or_intror N)), (A fuel) by lia.
    destruct (base_ok ents units s fuel o e addrs base E We T LB) as (b & B1 & B2). rewrite B1. cbn [bind]. rewrite B2.
    assert (X : rangesOf ents units s fuel o base = Ok rs).
    { unfold rangesOf. rewrite E, (A fuel) by lia. cbn [bind]. rewrite E', (listValue_ok s _ _ _ _ LV). cbn [bind]. apply ranges_ok with (addrs := addrs); auto; lia. }
    rewrite X. reflexivity. }
  destruct (existsb (fun r => (fst r <=? a) && (a <=? snd r)) rs) eqn:X.
  - left. split; [|reflexivity]. apply existsb_exists in X as (r & I & Q). exists r. split; [exact I|lia].
  - right. split; [|reflexivity]. intros r I Q. assert (X' : existsb (fun r => (fst r <=? a) && (a <=? snd r)) rs = true); [|congruence].
    apply existsb_exists. exists r. split; [exact I|lia].
Qed.
Print Assumptions C25_ranges_answer.
(** So the answer is the standard's, except where the address is the end of a range ([C25_range_end_refuted]).  Partial: a low_pc that is the unit's. *)
Theorem C25_ranges_lookup_partial : forall ents units s h o e addrs o' e' form v off base rs a,
  (forall x y, ents x = Some y -> wfEntry y /\ 0 <= eUnit y) -> ents o = Some e -> hasNo e 0x12 ->
  (forall x y, ents x = Some y -> hasNo y 0x31 \/ hasNo y 0x47) ->
  Lookup ents 0x55 o (Some (o', form, v)) -> ents o' = Some e' -> listValue s (units (eUnit e')) form v off ->
  unitTable s (units (eUnit e)) addrs -> listBase (units (eUnit e)) addrs e base -> rangesAre s (units (eUnit e)) addrs off base rs ->
  Forall (fun r => snd r <> a) rs ->
  exists n, forall fuel, (n <= fuel)%nat ->
  exists b, snd (containsAddress ents units s fuel (caHistory ents units s fuel (fun _ => None) h) o a) = Ok b /\
    b <> UNKNOWN /\ (b = YES <-> exists r, In r rs /\ fst r <= a < snd r).
Proof.
  intros ents units s h o e addrs o' e' form v off base rs a W E N One L E' LV T LB R Ends.
  destruct (C25_ranges_answer ents units s h o e addrs o' e' form v off base rs a W E N One L E' LV T LB R) as [n A]. exists n. intros fuel Hf.
  destruct (A fuel Hf) as (b & -> & [((r & I & Q) & ->)|(Q & ->)]); (eexists; split; [reflexivity|]; split; [discriminate|]).
  - split; [intros _|reflexivity]. exists r. split; [exact I|]. rewrite Forall_forall in Ends. specialize (Ends r I). lia.
  - split; [discriminate|]. intros (r & I & Q'). exfalso. apply (Q r I). lia.
Qed.
Print Assumptions C25_ranges_lookup_partial.
(** An inlined subroutine whose abstract origin holds the number of the list: [C25_rlx]. *)
Example C25_lookup_nonvacuous : let ents o := if o =? 11 then Some (mkEntry 10 0x1d [(0x31, 0x13, 0)] [VWord 50]) else if o =? 60 then Some (mkEntry 10 0x2e [(0x55, 0x23, 0)] [VWord 0]) else None in
  let s := mkSecs (Some C25_addr) [] C25_rlx in
  Lookup ents 0x55 11 (Some (60, 0x23, VWord 0)) /\ listValue s (C25_units 10) 0x23 (VWord 0) 16 /\
  map (fun a => snd (containsAddress ents C25_units s 99 (fun _ => None) 11 a)) [65535; 65536; 8223; 99] = [Ok NO; Ok YES; Ok YES; Ok NO].
Proof.
  cbv zeta. split; [|split; [|vm_compute; reflexivity]].
  - eapply (LOrigin _ _ 11 _ 60); [reflexivity|unfold hasNo; cbn; lia|unfold ownOnly; lia| |].
    + do 3 eexists. split; [reflexivity|]. split; [exists 0%nat, 0; split; reflexivity|]. split; [right; split; [cbn; tauto|reflexivity]|]. unfold W64. repeat split; try lia. discriminate.
    + eapply LOwn; [reflexivity|]. exists 0%nat, 0. split; reflexivity.
  - right. split; [reflexivity|]. exists 0, 4. split; [reflexivity|]. split; [exact C25_number|reflexivity].
Qed.
