(** Property C24: the compilation unit covering an address. *)
From Verif Require Import Base DwarfReader CfiSpec LinesSpec Aranges ArangesSpec ArangesProofs.

(** [sec] is the encoding of the address range sets [sets] (or absent, with none); the units' root
    DIEs say [sus].  The intervals of all these are non-empty and any two are disjoint or the same.
    After any history [h] of lookups, the lookup of an address in any of the intervals - a tuple of
    .debug_aranges, a unit's low_pc/high_pc, or an entry of a unit's range list - returns the unit
    it belongs to.
    Partial: 32-bit DWARF sets with 4 or 8 byte addresses, non-empty tuples, high_pc not of an
    addrx form, and range list entries not longer than their start address; see the refutations. *)
Theorem C24_covering_unit_found_partial : forall fuel sec units sets sus h a i,
  match sec with
  | Some d => d = flat_map encodeSet sets /\ Forall isByte d /\ zlen d + 32 < W64 /\ (length d < fuel)%nat
  | None => sets = []
  end ->
  Forall wfSet sets -> Forall2 unitRel units sus ->
  consistent (flat_map setIvals sets ++ flat_map pcIval sus ++ flat_map rangeIvals sus) ->
  Forall (fun r => iEnd r - iStart r <= iStart r) (flat_map rangeIvals sus) ->
  In i (flat_map setIvals sets ++ flat_map pcIval sus ++ flat_map rangeIvals sus) -> ivCovers i a ->
  snd (lookupUnit fuel sec units (arHistory fuel sec units arState0 h) a) = Ok (Some (iUnit i)).
Proof. intros. now apply lookup_found with (sets := sets) (sus := sus). Qed.
Print Assumptions C24_covering_unit_found_partial.

(** An address in no tuple and in no unit's low_pc/high_pc interval has no unit.
    Partial: as above, and only if no unit has a range list; see [C24_ranges_refuted]. *)
Theorem C24_uncovered_none_partial : forall fuel sec units sets sus h a,
  match sec with
  | Some d => d = flat_map encodeSet sets /\ Forall isByte d /\ zlen d + 32 < W64 /\ (length d < fuel)%nat
  | None => sets = []
  end ->
  Forall wfSet sets -> Forall2 unitRel units sus ->
  consistent (flat_map setIvals sets ++ flat_map pcIval sus ++ flat_map rangeIvals sus) ->
  flat_map rangeIvals sus = [] -> 0 <= a ->
  (forall i, In i (flat_map setIvals sets ++ flat_map pcIval sus) -> ~ ivCovers i a) ->
  snd (lookupUnit fuel sec units (arHistory fuel sec units arState0 h) a) = Ok None.
Proof. intros. now apply lookup_none with (sets := sets) (sus := sus). Qed.
Print Assumptions C24_uncovered_none_partial.
(** With range lists: a range from s to e, stored with its start in place of its length, answers for the addresses from e - s on, so an address is in no unit
    if it is in no tuple, no low_pc/high_pc interval, and not within the s addresses before the end e of a range.  Partial: as above. *)
Theorem C24_uncovered_lists_partial : forall fuel sec units sets sus h a,
  match sec with
  | Some d => d = flat_map encodeSet sets /\ Forall isByte d /\ zlen d + 32 < W64 /\ (length d < fuel)%nat
  | None => sets = []
  end ->
  Forall wfSet sets -> Forall2 unitRel units sus ->
  consistent (flat_map setIvals sets ++ flat_map pcIval sus ++ flat_map rangeIvals sus) ->
  (forall i, In i (flat_map rangeIvals sus) -> ~ (iEnd i - iStart i <= a < iEnd i)) -> 0 <= a ->
  (forall i, In i (flat_map setIvals sets ++ flat_map pcIval sus) -> ~ ivCovers i a) ->
  snd (lookupUnit fuel sec units (arHistory fuel sec units arState0 h) a) = Ok None.
Proof. intros. now apply lookup_none_loose with (sets := sets) (sus := sus). Qed.
Print Assumptions C24_uncovered_lists_partial.

(** Two sets (8 and 4 byte addresses) and three units. *)
Definition C24_sets : list aset := [mkSet 0 8 [(4096, 256); (8192, 16)]; mkSet 77 4 [(4352, 64)]].
Definition C24_units : list rootUnit :=
  [mkRoot 0 None None None; mkRoot 77 (Some 4352) (Some (6, 64)) None; mkRoot 200 (Some 12288) (Some (1, 12300)) (Some [(20480, 20496)])].
Definition C24_sus : list sunit := [mkSU 0 None []; mkSU 77 (Some (4352, HighSize 64)) []; mkSU 200 (Some (12288, HighAddr 12300)) [(20480, 20496)]].
Example C24_nonvacuous : let d := flat_map encodeSet C24_sets in
  Forall isByte d /\ Forall wfSet C24_sets /\ Forall2 unitRel C24_units C24_sus /\
  consistent (flat_map setIvals C24_sets ++ flat_map pcIval C24_sus ++ flat_map rangeIvals C24_sus) /\
  Forall (fun r => iEnd r - iStart r <= iStart r) (flat_map rangeIvals C24_sus) /\
  map (fun a => snd (lookupUnit 200 (Some d) C24_units (arHistory 200 (Some d) C24_units arState0 [5000; 1]) a)) [4351; 4352; 8207; 12299; 20480] =
    [Ok (Some 0); Ok (Some 77); Ok (Some 0); Ok (Some 200); Ok (Some 200)] /\
  map (fun a => snd (lookupUnit 200 (Some d) (firstn 2 C24_units) arState0 a)) [4095; 8208; 12299] = [Ok None; Ok None; Ok None].
Proof.
  assert (C : forall l : list ival, (forallb (fun i => (0 <=? iStart i) && (iStart i <? iEnd i) && (iEnd i <? W64)) l &&
     forallb (fun i => forallb (fun j => ((iStart i =? iStart j) && (iEnd i =? iEnd j) && (iUnit i =? iUnit j)) || (iEnd i <=? iStart j) || (iEnd j <=? iStart i)) l) l) = true -> consistent l).
  { intros l H. apply andb_prop in H as [H1 H2]. split.
    - apply Forall_forall. intros i Hi. rewrite forallb_forall in H1. specialize (H1 i Hi). unfold ivOk. lia.
    - intros i j Hi Hj. rewrite forallb_forall in H2. specialize (H2 i Hi). rewrite forallb_forall in H2. specialize (H2 j Hj).
      destruct i as [a b c], j as [a' b' c']; unfold ivDisjoint; cbn [iStart iEnd iUnit] in *.
      assert ((a = a' /\ b = b' /\ c = c') \/ b <= a' \/ b' <= a) as [(-> & -> & ->)|?] by lia; auto. }
  cbv zeta. split; [|split; [|split; [|split; [|split; [|split]]]]].
  - apply Forall_forall. intros x Hx. assert (F : forallb (fun b => (0 <=? b) && (b <? 256)) (flat_map encodeSet C24_sets) = true) by reflexivity.
    rewrite forallb_forall in F. specialize (F x Hx). unfold isByte. lia.
  - constructor; [|constructor; [|constructor]]; unfold wfSet; cbn [asUnit asSize asTuples].
    + split; [unfold W32; lia|]. split; [now right|]. split; [repeat constructor; cbn; lia|reflexivity].
    + split; [unfold W32; lia|]. split; [now left|]. split; [repeat constructor; cbn; lia|reflexivity].
  - constructor; [constructor|]. constructor; [constructor; constructor; cbn; auto|]. constructor; [constructor; constructor|constructor].
  - apply C. reflexivity.
  - repeat constructor; cbn; lia.
  - vm_compute. reflexivity.
  - vm_compute. reflexivity.
Qed.

(** Refuted: entries of a unit's range list are stored with their start address in place of their
    length, so that an address below the range which nothing covers is attributed to the unit. *)
Theorem C24_ranges_refuted : exists units sus a,
  Forall2 unitRel units sus /\ consistent (flat_map unitIvals sus) /\
  (forall i, In i (flat_map unitIvals sus) -> ~ ivCovers i a) /\
  snd (lookupUnit 10 None units arState0 a) = Ok (Some 11).
Proof.
  exists [mkRoot 11 (Some 0) None (Some [(4096, 4352)])], [mkSU 11 None [(4096, 4352)]], 512.
  split; [constructor; constructor|]. split; [|split].
  - split; [repeat constructor; cbn; unfold W64; lia|]. intros i j [<-|[]] [<-|[]]. now left.
  - intros i [<-|[]]. unfold ivCovers. cbn. lia.
  - reflexivity.
Qed.
(** ... and an address the range does cover is not found if the range is longer than its start. *)
Theorem C24_long_range_refuted : exists units sus a i,
  Forall2 unitRel units sus /\ consistent (flat_map unitIvals sus) /\
  In i (flat_map unitIvals sus) /\ ivCovers i a /\ snd (lookupUnit 10 None units arState0 a) = Ok None.
Proof.
  exists [mkRoot 11 (Some 0) None (Some [(4096, 65536)])], [mkSU 11 None [(4096, 65536)]], 4096, (mkIv 4096 65536 11).
  split; [constructor; constructor|]. split; [|split; [|split]].
  - split; [repeat constructor; cbn; unfold W64; lia|]. intros i j [<-|[]] [<-|[]]. now left.
  - now left.
  - unfold ivCovers. cbn. lia.
  - reflexivity.
Qed.
(** Refuted: a zero-length tuple replaces the entry of the tuple ending at its address. *)
Theorem C24_empty_tuple_refuted : let d := flat_map encodeSet [mkSet 0 8 [(4096, 256)]; mkSet 50 8 [(4352, 0)]] in
  In (mkIv 4096 4352 0) (setIvals (mkSet 0 8 [(4096, 256)])) /\
  snd (lookupUnit 200 (Some d) [] arState0 4200) = Ok None.
Proof. split; [now left|vm_compute; reflexivity]. Qed.
(** Refuted: a header already aligned to the tuple size (2-byte addresses) loses its first tuple.
    The set is laid out as the standard says, without padding. *)
Theorem C24_aligned_header_refuted :
  let body := leBytes 2 2 ++ leBytes 4 0 ++ [2; 0] ++ flat_map (encodeTuple 2) [(4096, 256); (8192, 16); (0, 0)] in
  let d := unitLength false (zlen body) ++ body in
  map (fun a => snd (lookupUnit 200 (Some d) [] arState0 a)) [4100; 8192] = [Ok None; Ok (Some 0)].
Proof. vm_compute. reflexivity. Qed.
(** Refuted: in a 64-bit DWARF set the unit offset has 8 bytes but 4 are read; the address size is
    then taken from the offset's upper half. *)
Theorem C24_dwarf64_refuted :
  let body := leBytes 2 2 ++ leBytes 8 0 ++ [8; 0] ++ repeat 0 8 ++ flat_map (encodeTuple 8) [(4096, 256); (0, 0)] in
  let d := unitLength true (zlen body) ++ body in
  snd (lookupUnit 200 (Some d) [] arState0 4100) = Ok None.
Proof. vm_compute. reflexivity. Qed.
(** Refuted: a high_pc of an addrx form is an address, but is added to low_pc. *)
Theorem C24_high_addrx_refuted : forall f, In f addrxForms ->
  (* low_pc 4096, high_pc the address 4352; 5000 is not covered *)
  snd (lookupUnit 10 None [mkRoot 7 (Some 4096) (Some (f, 4352)) None] arState0 5000) = Ok (Some 7).
Proof. intros f H. cbn [In addrxForms] in H. destruct H as [<-|[<-|[<-|[<-|[<-|[]]]]]]; reflexivity. Qed.
Print Assumptions C24_ranges_refuted.
Print Assumptions C24_long_range_refuted.
Print Assumptions C24_empty_tuple_refuted.
Print Assumptions C24_aligned_header_refuted.
Print Assumptions C24_dwarf64_refuted.
Print Assumptions C24_high_addrx_refuted.
(** Two ranges: 4096 to 4352 answers from 256 on; 65536 is past both. *)
Example C24_lists_nonvacuous : let units := [mkRoot 11 (Some 0) None (Some [(4096, 4352); (40000, 60000)])] in let sus := [mkSU 11 None [(4096, 4352); (40000, 60000)]] in
  Forall2 unitRel units sus /\ consistent (flat_map pcIval sus ++ flat_map rangeIvals sus) /\
  (forall i, In i (flat_map rangeIvals sus) -> ~ (iEnd i - iStart i <= 10000 < iEnd i)) /\
  map (fun a => snd (lookupUnit 10 None units arState0 a)) [255; 256; 4351; 10000; 20000; 65536] = [Ok None; Ok (Some 11); Ok (Some 11); Ok None; Ok (Some 11); Ok None].
Proof.
  cbv zeta. split; [repeat constructor|]. split; [|split; [|vm_compute; reflexivity]].
  - split; [repeat constructor; cbn; unfold W64; lia|]. intros i j Hi Hj. cbn in Hi, Hj. destruct Hi as [<-|[<-|[]]], Hj as [<-|[<-|[]]]; try (now left); right; unfold ivDisjoint; cbn; lia.
  - intros i Hi. cbn in Hi. destruct Hi as [<-|[<-|[]]]; cbn; lia.
Qed.
