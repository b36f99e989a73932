(** Properties C108-C111: the units of .debug_info and the tables that entries index. *)
From Verif Require Import Base DwarfReader DwarfReaderProofs CfiSpec CfiProofs CfiProofs2 Cursor Units UnitsSpec UnitsProofs DieAttr.

(** C108.  Every unit header but those of type units: what is read is what was written, and the unit's entries
    are where its root is looked for. *)
Theorem C108_unit_header_partial data off u : Forall isByte data -> zlen data < 2 ^ 63 -> suOk u -> 0 <= off -> (exists rest, zdrop off data = unitBytes u ++ rest) ->
  exists h, readUnit data off = Ok h /\ isUnit data h (off, u).
Proof. intros Hd Hw OK HO HA. apply readUnit_spec; [exact Hd|exact Hw|exact OK|]. split; assumption. Qed.
Example C108_nonvacuous : let u := mkSU 5 false (USkeleton 77) 12 8 [1; 0] in suOk u /\ suOk (mkSU 4 true UCompile 12 8 [1; 0]) /\ suOk (mkSU 2 false UCompile 12 8 [1; 0]) /\
  readUnit ([9; 9] ++ unitBytes u) 2 = Ok (mkUH 2 24 5 4 4 8 12 22 18 [77; 0; 0; 0; 0; 0; 0; 0]).
Proof.
  cbv zeta. split; [|split; [|split; [|vm_compute; reflexivity]]]; (split; [cbn; lia|]; split; [cbn; congruence|]; split; [cbn; lia|]; split; [cbn; lia|]; split; [intros _; vm_compute; reflexivity|vm_compute; repeat constructor; discriminate]).
Qed.
(** A type unit of version 5 has a signature and an offset after the other fields, but its entries are
    looked for right after those: 12 bytes early (8 + 4), or 4 for one in a split file. *)
Theorem C108_type_unit_refuted data off u s t : Forall isByte data -> zlen data < 2 ^ 63 -> 0 <= off -> (exists rest, zdrop off data = unitBytes u ++ rest) ->
  suVersion u = 5 -> suLong u = false -> suKind u = UTypes s t -> 0 <= suAbbrev u < 2 ^ 32 -> zlen (unitRest u) < 4294967280 ->
  exists h, readUnit data off = Ok h /\ uhType h = 2 /\ exists rest, zdrop (uhRoot h) data = leBytes 8 s ++ leBytes 4 t ++ suBody u ++ rest.
Proof.
  intros Hd Hw HO HR V L K AB LN. assert (HW : zlen data + 32 < W64) by (unfold W64; lia). assert (HA : at_ data off (unitBytes u)) by (split; assumption). unfold unitBytes in HA. rewrite L in HA. pose proof (zlen_nonneg (unitRest u)) as LR.
  unfold readUnit. destruct (getlength_at data off false (zlen (unitRest u)) (unitRest u) Hd HW) as [G HB]; [lia|exact HA|]. cbv zeta iota in G, HB. rewrite G. cbn [bind]. unfold unitRest, kindBytes, offSize in HB. rewrite V, L, K in HB. change (5 >=? 5) with true in HB. cbv iota in HB. rewrite <- !app_assoc in HB.
  apply rd_u16 in HB as [E HB]; [|first [exact HW|unfold W16; lia]..]. rewrite E. cbn [bind]. change (5 <=? 2) with false. change (5 >=? 5) with true. cbv iota zeta. cbn [app kindCode] in HB. apply rd_u8 in HB as [E2 HB]; [|exact HW]. rewrite E2. cbn [bind]. change ((2 =? 1) || (2 =? 2) || (2 =? 3)) with true. cbv iota.
  apply rd_u8 in HB as [E3 HB]; [|exact HW]. rewrite E3. cbn [bind]. apply (rd_uint data Hd HW 4) in HB as [E4 HB]; [|lia|change (256 ^ Z.of_nat 4) with (2 ^ 32); exact AB]. change (Z.of_nat 4) with 4 in *. rewrite E4. cbn [bind]. eexists. split; [reflexivity|]. split; [reflexivity|]. cbn [uhRoot].
  destruct HB as [_ [rest HB]]. exists rest. rewrite HB, <- !app_assoc. reflexivity.
Qed.
Example C108_type_nonvacuous : readUnit (unitBytes (mkSU 5 false (UTypes 1234567 30) 12 8 [1; 0])) 0 = Ok (mkUH 0 26 5 2 4 8 12 12 22 (repeat 0 8)) /\ zdrop 24 (unitBytes (mkSU 5 false (UTypes 1234567 30) 12 8 [1; 0])) = [1; 0].
Proof. vm_compute. split; reflexivity. Qed.

(** C109.  A section of any number of units.  Whatever is done with it in whatever order (units asked for at
    their start, enumerated, entries looked up by offset), every answer is right: all units in order; the
    entry of the unit that contains the offset, or an exception if there is none. *)
Theorem C109_history_partial us entry fuel ops : Forall suOk us -> us <> [] -> zlen (sectionOf us) < 2 ^ 63 -> (length us <= fuel)%nat -> Forall (askableU us) ops ->
  Forall2 (rightU (sectionOf us) entry us) ops (ureplies (sectionOf us) entry fuel [] ops).
Proof. intros F NE HW Hf FA. apply ureplies_right; try assumption. intros o x []. Qed.
Definition exUs : list sunit := [mkSU 4 false UCompile 0 8 [1; 0]; mkSU 5 false UPartial 12 8 [2; 0; 0]; mkSU 5 true (USplit 5) 40 8 [3; 0]].
Example C109_nonvacuous : Forall suOk exUs /\ Forall (askableU exUs) [UDie 28; UGet 13; UAll; UDie 14; UDie 100] /\
  ureplies (sectionOf exUs) (fun _ _ => Ok true) 3 [] [UDie 28; UGet 13; UAll; UDie 100] =
    (let h1 := mkUH 0 13 4 1 4 8 0 11 9 (repeat 0 8) in let h2 := mkUH 13 28 5 3 4 8 12 25 11 (repeat 0 8) in let h3 := mkUH 28 62 5 5 8 8 40 60 22 [5; 0; 0; 0; 0; 0; 0; 0] in [RUnit (Ok h3); RUnit (Ok h2); RUnits (Ok [h1; h2; h3]); RUnit Throw]).
Proof.
  split; [|split; [|vm_compute; reflexivity]].
  - constructor; [|constructor; [|constructor; [|constructor]]]; (split; [cbn; lia|]; split; [cbn; congruence|]; split; [cbn; lia|]; split; [cbn; lia|]; split; [intros _; vm_compute; reflexivity|vm_compute; repeat constructor; discriminate]).
  - repeat constructor; cbn; lia.
Qed.
(** C110.  Asking for a unit where none starts is not harmless: the failed attempt is remembered as a unit, and
    entries after it are not found any more. *)
Theorem C110_failed_unit_refuted : exists us o a, Forall suOk us /\ askableU us (UDie a) /\
  let ask ops := ureplies (sectionOf us) (fun _ _ => Ok true) 5 [] ops in
  (exists h, ask [UDie a] = [RUnit (Ok h)]) /\ ask [UGet o; UDie a] = [RUnit Throw; RUnit Throw].
Proof.
  exists [mkSU 4 false UCompile 0 8 [1; 255; 255; 255; 255; 1; 1; 0]], 14, 17. split; [|split; [cbn; lia|split; [eexists; vm_compute; reflexivity|vm_compute; reflexivity]]].
  constructor; [|constructor]. split; [cbn; lia|]. split; [cbn; congruence|]. split; [cbn; lia|]. split; [cbn; lia|]. split; [intros _; vm_compute; reflexivity|vm_compute; repeat constructor; discriminate].
Qed.

(** C111.  Tables indexed by DW_FORM_addrx, DW_FORM_strx and DW_FORM_rnglistx. *)
Lemma table_at d b n (vs : list Z) : 0 <= b -> (exists rest, zdrop b d = flat_map (leBytes n) vs ++ rest) -> forall i v, znth i vs = Some v -> at_ d (b + Z.of_nat n * i) (leBytes n v).
Proof.
  intros HB (rest & E) i v Z0. pose proof (znth_some _ _ _ Z0) as R. rewrite znth_nth_error in Z0 by lia. apply nth_error_split in Z0 as (l1 & l2 & -> & L).
  rewrite flat_map_app in E. cbn [flat_map] in E. rewrite <- !app_assoc in E. assert (LL : zlen (flat_map (leBytes n) l1) = Z.of_nat n * i).
  { replace i with (zlen l1) by (unfold zlen; lia). clear. induction l1 as [|a l IH]; [cbn; lia|]. cbn [flat_map]. rewrite zlen_app, leBytes_len, IH, zlen_cons. lia. }
  assert (AT : at_ d b (flat_map (leBytes n) l1 ++ leBytes n v ++ flat_map (leBytes n) l2 ++ rest)) by (split; [exact HB|]; exists []; rewrite app_nil_r; exact E).
  apply at_app in AT as [_ AT]. apply at_app in AT as [AT _]. rewrite LL in AT. exact AT.
Qed.
Theorem C111_addrx_partial d base vs idx v : Forall isByte d -> zlen d < 2 ^ 63 -> 0 <= base -> (exists rest, zdrop base d = flat_map (leBytes 8) vs ++ rest) ->
  base = 0 \/ (2 < base /\ znth (base - 2) d = Some 8) -> znth idx vs = Some v -> 0 <= v < 2 ^ 64 -> addrx (Some d) base idx = Ok v.
Proof.
  intros Hd Hw HB HT HD HI HV. assert (HW : zlen d + 32 < W64) by (unfold W64; lia). pose proof (znth_some _ _ _ HI) as R. pose proof (table_at d base 8 vs HB HT idx v HI) as AT. change (Z.of_nat 8) with 8 in AT. pose proof (at_len _ _ _ AT ltac:(discriminate)) as AL. rewrite leBytes_len in AL. change (Z.of_nat 8) with 8 in AL.
  unfold addrx. assert (G : (if 2 <? base then let* (n, _) := getu8 d (base - 2) in Ok n else Ok 8) = Ok 8).
  { destruct HD as [->|[H2 Z8]]; [reflexivity|]. replace (2 <? base) with true by lia. assert (A8 : at_ d (base - 2) [8]).
    { split; [lia|]. rewrite znth_nth_error in Z8 by lia. apply nth_error_split in Z8 as (l1 & l2 & -> & L). exists l2. replace (base - 2) with (zlen l1) by (unfold zlen; lia). rewrite zdrop_app_zlen. reflexivity. }
    apply rd_u8 in A8 as [E _]; [|exact HW]. rewrite E. reflexivity. }
  rewrite G. cbn [bind]. rewrite (Z.mul_comm idx 8). rewrite u64_id by (unfold isU64, W64; lia). rewrite <- (app_nil_r (leBytes 8 v)) in AT. apply (rd_uint d Hd HW 8) in AT as [E _]; [|lia|exact HV]. change (Z.of_nat 8) with 8 in E. rewrite E. reflexivity.
Qed.
(** A table of 4 byte addresses: two of them are read as one. *)
Theorem C111_addrx_short_refuted : addrx (Some (leBytes 4 12 ++ leBytes 2 5 ++ [4; 0] ++ leBytes 4 4096 ++ leBytes 4 8192 ++ leBytes 4 1)) 8 0 = Ok (4096 + 8192 * 2 ^ 32).
Proof. vm_compute. reflexivity. Qed.
(** Strings: with DW_AT_str_offsets_base [b], entries as wide as the unit's offsets; without it, in version
    5, after the header of the table; before, from its start with 4 bytes each. *)
Definition strHeader (long : bool) (n : Z) : list Z := (if long then leBytes 4 4294967295 ++ leBytes 8 n else leBytes 4 n) ++ leBytes 2 5 ++ leBytes 2 0.
Definition width (long : bool) : nat := if long then 8%nat else 4%nat.
Lemma read_entry d b n vs idx v : Forall isByte d -> zlen d < 2 ^ 63 -> 0 <= b -> (n = 4 \/ n = 8)%nat -> (exists rest, zdrop b d = flat_map (leBytes n) vs ++ rest) -> znth idx vs = Some v -> 0 <= v < 256 ^ Z.of_nat n ->
  exists o, getuint d (u64 (b + Z.of_nat n * idx)) (Z.of_nat n) = Ok (v, o).
Proof.
  intros Hd Hw HB Hn HT HI HV. assert (HW : zlen d + 32 < W64) by (unfold W64; lia). pose proof (znth_some _ _ _ HI) as R. pose proof (table_at d b n vs HB HT idx v HI) as AT. assert (NE : leBytes n v <> []) by (destruct Hn as [-> | ->]; discriminate). pose proof (at_len _ _ _ AT NE) as AL. rewrite leBytes_len in AL.
  rewrite u64_id by (unfold isU64, W64; nia). rewrite <- (app_nil_r (leBytes n v)) in AT. apply (rd_uint d Hd HW n) in AT as [E _]; [|lia|exact HV]. eexists. exact E.
Qed.
Theorem C111_strx_base d b long version vs idx v : Forall isByte d -> zlen d < 2 ^ 63 -> 0 <= b -> (exists rest, zdrop b d = flat_map (leBytes (width long)) vs ++ rest) ->
  znth idx vs = Some v -> 0 <= v < 256 ^ Z.of_nat (width long) -> strx (Some d) (Some b) version (Z.of_nat (width long)) idx = Ok v.
Proof.
  intros Hd Hw HB HT HI HV. unfold strx. cbn [bind]. destruct (read_entry d b (width long) vs idx v Hd Hw HB ltac:(destruct long; auto) HT HI HV) as [o E]. rewrite E. reflexivity.
Qed.
Theorem C111_strx_header long n dl vs idx v rest : let d := strHeader long n ++ flat_map (leBytes (width long)) vs ++ rest in
  Forall isByte d -> zlen d < 2 ^ 63 -> (if long then 0 <= n < 2 ^ 64 else 0 <= n < 4294967280) ->
  znth idx vs = Some v -> 0 <= v < 256 ^ Z.of_nat (width long) -> strx (Some d) None 5 dl idx = Ok v.
Proof.
  intros d Hd Hw HN HI HV. assert (HW : zlen d + 32 < W64) by (unfold W64; lia). unfold strx. change (5 <=? 5) with true. cbv iota.
  assert (AT : at_ d 0 ((if long then leBytes 4 4294967295 ++ leBytes 8 n else leBytes 4 n) ++ (leBytes 2 5 ++ leBytes 2 0 ++ flat_map (leBytes (width long)) vs ++ rest))).
  { split; [lia|]. exists []. rewrite app_nil_r, zdrop_neg by lia. unfold d, strHeader. rewrite <- !app_assoc. reflexivity. }
  destruct (getlength_at d 0 long n _ Hd HW HN AT) as [G HA]. cbv zeta in G, HA. rewrite G. cbn [bind]. apply rd_u16 in HA as [E1 HA]; [|first [exact HW|unfold W16; lia]..]. rewrite E1. cbn [bind]. apply rd_u16 in HA as [E2 HA]; [|first [exact HW|unfold W16; lia]..]. rewrite E2. cbn [bind].
  destruct HA as [HO [r HA]]. set (o := 0 + (if long then 12 else 4) + 2 + 2) in *.
  destruct (read_entry d o (width long) vs idx v Hd Hw HO ltac:(destruct long; auto) ltac:(exists (rest ++ r); rewrite HA, <- app_assoc; reflexivity) HI HV) as [o' E]. replace (if long then 8 else 4) with (Z.of_nat (width long)) by (destruct long; reflexivity). rewrite E. reflexivity.
Qed.
Theorem C111_strx_old d vs dl idx v version rest : version < 5 -> d = flat_map (leBytes 4) vs ++ rest -> Forall isByte d -> zlen d < 2 ^ 63 ->
  znth idx vs = Some v -> 0 <= v < 2 ^ 32 -> strx (Some d) None version dl idx = Ok v.
Proof.
  intros HV E Hd Hw HI HR. unfold strx. replace (5 <=? version) with false by lia. cbn [bind]. destruct (read_entry d 0 4 vs idx v Hd Hw ltac:(lia) ltac:(auto) ltac:(exists rest; rewrite zdrop_neg by lia; exact E) HI HR) as [o G]. change (Z.of_nat 4) with 4 in G. rewrite G. reflexivity.
Qed.
(** Range lists: offsets relative to the base; as wide as those of the first contribution of the section,
    which has the format [long]. *)
Theorem C111_rnglistx_partial d (long : bool) n base vs slot v : Forall isByte d -> zlen d < 2 ^ 63 -> 0 <= base -> (if long then 0 <= n < 2 ^ 64 else 0 <= n < 4294967280) ->
  (exists rest, d = (if long then leBytes 4 4294967295 ++ leBytes 8 n else leBytes 4 n) ++ rest) ->
  (exists rest, zdrop base d = flat_map (leBytes (width long)) vs ++ rest) -> znth slot vs = Some v -> 0 <= v -> base + v < 2 ^ 64 -> v < 256 ^ Z.of_nat (width long) -> rnglistx d base slot = Ok (base + v).
Proof.
  intros Hd Hw HB HN (r0 & E0) HT HI H0 HV HV2. assert (HW : zlen d + 32 < W64) by (unfold W64; lia). unfold rnglistx.
  destruct (getlength_at d 0 long n r0 Hd HW HN) as [G _]; [split; [lia|]; exists []; rewrite app_nil_r, zdrop_neg by lia; exact E0|]. cbv zeta in G. rewrite G. cbn [bind]. destruct (read_entry d base (width long) vs slot v Hd Hw HB ltac:(destruct long; auto) HT HI ltac:(split; assumption)) as [o E].
  replace (if long then 8 else 4) with (Z.of_nat (width long)) by (destruct long; reflexivity). rewrite (Z.mul_comm slot). rewrite E. cbn [bind]. rewrite u64_id by (unfold isU64, W64; lia). reflexivity.
Qed.
(** A unit without DW_AT_rnglists_base (one of a split file): the header of the table is taken for entries. *)
Definition rngDwo : list Z := leBytes 4 18 ++ leBytes 2 5 ++ [8; 0] ++ leBytes 4 1 ++ leBytes 4 4 ++ [7; 1; 0; 0; 0; 0].
Theorem C111_rnglistx_split_refuted : rnglistx rngDwo 0 0 = Ok 18 /\ rnglistx rngDwo 12 0 = Ok 16.
Proof. vm_compute. split; reflexivity. Qed.
(** Contributions of both formats: the entries of the second are read with the width of the first. *)
Definition rngMixed : list Z := (leBytes 4 8 ++ leBytes 2 5 ++ [8; 0] ++ leBytes 4 0) ++ leBytes 4 4294967295 ++ leBytes 8 24 ++ leBytes 2 5 ++ [8; 0] ++ leBytes 4 2 ++ leBytes 8 16 ++ leBytes 8 17.
Theorem C111_rnglistx_mixed_refuted : rnglistx rngMixed 32 1 = Ok 32 /\ leBytes 8 17 = zdrop 40 rngMixed.
Proof. vm_compute. split; reflexivity. Qed.
Example C111_nonvacuous : addrx (Some (leBytes 4 20 ++ leBytes 2 5 ++ [8; 0] ++ flat_map (leBytes 8) [4096; 8192])) 8 1 = Ok 8192 /\
  strx (Some (strHeader true 20 ++ flat_map (leBytes 8) [7; 9])) None 5 4 1 = Ok 9 /\ strx (Some (flat_map (leBytes 4) [7; 9])) None 4 4 1 = Ok 9 /\ strx (Some ([0; 0] ++ flat_map (leBytes 4) [7; 9])) (Some 2) 5 4 1 = Ok 9.
Proof. vm_compute. repeat split; reflexivity. Qed.
Print Assumptions C108_unit_header_partial.
Print Assumptions C109_history_partial.
Print Assumptions C111_strx_header.
Print Assumptions C108_type_unit_refuted.
Print Assumptions C110_failed_unit_refuted.
Print Assumptions C111_addrx_partial.
Print Assumptions C111_addrx_short_refuted.
Print Assumptions C111_strx_base.
Print Assumptions C111_strx_old.
Print Assumptions C111_rnglistx_partial.
Print Assumptions C111_rnglistx_split_refuted.
Print Assumptions C111_rnglistx_mixed_refuted.
