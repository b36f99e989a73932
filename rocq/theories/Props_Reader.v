(** Property theorems C01-C12: readers, cache, LEB128 and integer decoding. *)
From Verif Require Import Base Reader ReaderSpec ReaderProofs Cache CacheProofs ReaderArray
  ReaderArrayProofs Leb LebSpec LebProofs DwarfReader DwarfReaderProofs.

(** C01 *)
Theorem C01_memory_read_exact : forall m base size off count,
  0 <= base -> 0 <= size -> base + size <= W64 ->
  (forall a, base <= a < base + size -> m a <> None) ->
  0 <= off < W64 -> 0 <= count < W64 ->
  (size < off -> rread m (RMem base size) off count = Throw) /\
  (off <= size ->
     exists bs, rread m (RMem base size) off count = Ok bs /\
       zlen bs = Z.min count (size - off) /\
       forall k, 0 <= k < zlen bs -> znth k bs = m (base + off + k)).
Proof. exact mem_read_exact. Qed.
Print Assumptions C01_memory_read_exact.
Example C01_nonvacuous :
  let m := window (ofList [10; 11; 12; 13; 14]) 0 5 in
  (forall a, 1 <= a < 1 + 3 -> m a <> None) /\
  rread m (RMem 1 3) 1 18446744073709551615 = Ok [12; 13] /\ rread m (RMem 1 3) 4 1 = Throw.
Proof.
  split; [|split; reflexivity]. intros a Ha.
  assert (H : a = 1 \/ a = 2 \/ a = 3) by lia. destruct H as [->|[->| ->]]; discriminate.
Qed.

(** C02: any chain of views, each inside its parent, over any well-formed reader, reads exactly
    the bytes of the nested windows.  Partial: requests with off + count >= 2^64 are excluded. *)
Theorem C02_views_stay_in_window_partial : forall m r ws,
  wf m r -> chainInside (rsize r) ws ->
  serves (rread m (viewChain r ws)) (windowChain (denotes m r) ws).
Proof. exact viewChain_serves. Qed.
Print Assumptions C02_views_stay_in_window_partial.
Theorem C02_beyond_window_throws : forall m up o l off count,
  l < off -> rread m (ROffset up o l) off count = Throw.
Proof. exact offset_throws_iff. Qed.
Print Assumptions C02_beyond_window_throws.
Example C02_nonvacuous :
  wf (fun _ => None) (RFile [1; 2; 3; 4; 5; 6; 7; 8]) /\
  chainInside 8 [(1, 6); (2, 3)] /\
  rread (fun _ => None) (viewChain (RFile [1; 2; 3; 4; 5; 6; 7; 8]) [(1, 6); (2, 3)]) 1 100 = Ok [5; 6].
Proof. repeat split; try (cbn; unfold W64; lia). Qed.
(** A view of a file with the default length, the largest offset, ends where the file does. *)
Theorem C02_default_length : forall m c o off count, 0 <= o -> 0 <= off -> 0 <= count -> o + off <= zlen c -> off + count < 2 ^ 64 -> zlen c <= 2 ^ 63 ->
  rsize (rview (RFile c) o 18446744073709551615) = zlen c - o /\
  (o + off < 2 ^ 63 -> rread m (rview (RFile c) o 18446744073709551615) off count = Ok (ztake count (zdrop (o + off) c))).
Proof.
  intros m c o off count H1 H2 H3 H4 H5 H6. cbn [rview]. unfold mkOffset, offMax. change (18446744073709551615 =? W64 - 1) with true. cbv iota. cbn [rsize rread]. rewrite (u64_id (zlen c - o)) by (unfold isU64, W64; lia).
  split; [reflexivity|]. intros H7. replace (off >? zlen c - o) with false by lia. rewrite (u64_id (off + count)) by (unfold isU64, W64; lia). rewrite (u64_id (off + o)) by (unfold isU64, W64; lia).
  replace (W64 / 2) with (2 ^ 63) by reflexivity. replace (off + o >=? 2 ^ 63) with false by lia. rewrite (Z.add_comm off o). destruct (off + count >? zlen c - o) eqn:E; [|reflexivity]. f_equal.
  rewrite !(ztake_all _ (zdrop (o + off) c)); [reflexivity| |]; rewrite zlen_zdrop by lia; lia.
Qed.
Print Assumptions C02_default_length.
(** The unchanged code violates the full property: off + count wraps modulo 2^64, the clamp is
    skipped and bytes after the window are returned (reader.cc:262). *)
Theorem C02_window_overflow_refuted : exists c o l off count bs,
  0 <= off <= l /\ 0 <= count < W64 /\ o + l <= zlen c /\
  rread (fun _ => None) (rview (RFile c) o l) off count = Ok bs /\ l - off < zlen bs.
Proof.
  exists [1; 2; 3; 4; 5; 6], 1, 2, 1, 18446744073709551615, [3; 4; 5; 6].
  repeat split; vm_compute; congruence.
Qed.
Print Assumptions C02_window_overflow_refuted.
(** A view of a view may leave its parent's window (reader.h:220-223 does not clamp). *)
Theorem C02_nested_view_escapes_refuted : exists c o l o2 l2 bs,
  o + l <= zlen c /\ o2 <= l /\
  rread (fun _ => None) (rview (rview (RFile c) o l) o2 l2) 0 l2 = Ok bs /\ l - o2 < zlen bs.
Proof.
  exists [1; 2; 3; 4; 5; 6], 1, 2, 1, 4, [3; 4; 5; 6]. repeat split; vm_compute; congruence.
Qed.
Print Assumptions C02_nested_view_escapes_refuted.
(** An open-ended view (default length) of a memory reader has no bound at all: reading at its
    end touches memory outside the backing store (reader.cc:241-244 stores the length unclamped). *)
Theorem C02_open_memory_view_refuted : exists m base size off count,
  (forall a, base <= a < base + size -> m a <> None) /\
  rread m (rview (RMem base size) 1 offMax) off count = UB.
Proof.
  exists (ofList [7; 8; 9]), 0, 3, 0, 4. split; [|reflexivity].
  intros a Ha. unfold ofList. destruct (znth_lt a [7; 8; 9]) as [x ->]; [|discriminate].
  change (zlen [7; 8; 9]) with 3. lia.
Qed.
Print Assumptions C02_open_memory_view_refuted.

(** C03 *)
Theorem C03_cache_transparent : forall up src usize ops off count,
  serves up src -> regionsStartOnPages src -> usize <= W64 -> Forall opValid ops ->
  0 <= off -> 0 <= count -> off + count + 512 <= W64 ->
  let r := snd (cstep up usize (crun up usize emptyCache ops) (OpRead off count)) in
  r = Ok (prefix src off (Z.to_nat count)) \/
  (r = Throw /\ up off count = Throw /\ prefix src off (Z.to_nat count) = []).
Proof. exact cached_read_any_history. Qed.
Print Assumptions C03_cache_transparent.
Example C03_nonvacuous :
  let c := map Z.of_nat (seq 0 600) in
  serves (verUp c) (ofList c) /\ regionsStartOnPages (ofList c) /\
  snd (cstep (verUp c) 600 (crun (verUp c) 600 emptyCache [OpRead 10 20; OpRead 590 100; OpString 700 5]) (OpRead 250 10))
   = Ok [250; 251; 252; 253; 254; 255; 256; 257; 258; 259].
Proof. split; [apply verUp_serves|split; [apply ofList_regions|vm_compute; reflexivity]]. Qed.
(** Without the page-boundary condition the cache loses readable bytes. *)
Theorem C03_unaligned_region_refuted : exists up src off count,
  serves up src /\ snd (cread up [] off count) = Ok [] /\ prefix src off (Z.to_nat count) <> [].
Proof.
  exists midPageUp, midPageSrc, 100, 4. split; [exact midPage_serves|].
  split; [vm_compute; reflexivity|vm_compute; discriminate].
Qed.
Print Assumptions C03_unaligned_region_refuted.

(** C04: for any upstream whatsoever (even one that fails or changes its mind only between
    histories), after any history. [PagesInv]: at most 16 pages, distinct offsets, each aligned and
    holding what the upstream returns. *)
Theorem C04_cache_bounded : forall up usize ops,
  usize <= W64 -> Forall opValid ops ->
  let ps := pages (crun up usize emptyCache ops) in
  zlen ps <= 16 /\ NoDup (map poff ps) /\
  Forall (fun p => poff p mod 256 = 0 /\ 0 <= poff p < W64 /\ up (poff p) 256 = Ok (pbytes p)) ps.
Proof. exact cache_bounded_any_history. Qed.
Print Assumptions C04_cache_bounded.
Example C04_nonvacuous :
  let c := map Z.of_nat (seq 0 100) in
  let ops := map (fun i => OpRead (Z.of_nat i * 256) 1) (seq 0 40) in
  zlen (pages (crun (verUp c) 100 emptyCache ops)) = 16.
Proof. vm_compute. reflexivity. Qed.

(** C05 *)
Theorem C05_flush_makes_reads_fresh : forall up1 usize1 c up2 src2 usize2 ops off count,
  serves up2 src2 -> regionsStartOnPages src2 -> usize2 <= W64 -> Forall opValid ops ->
  0 <= off -> 0 <= count -> off + count + 512 <= W64 ->
  let c1 := fst (cstep up1 usize1 c OpFlush) in
  let r := snd (cstep up2 usize2 (crun up2 usize2 c1 ops) (OpRead off count)) in
  r = Ok (prefix src2 off (Z.to_nat count)) \/
  (r = Throw /\ up2 off count = Throw /\ prefix src2 off (Z.to_nat count) = []).
Proof. exact flush_then_read. Qed.
Print Assumptions C05_flush_makes_reads_fresh.
(** ... but strings are not: flush clears [pages] only (reader.cc:136-139), so a string read
    before the flush is returned after it although the upstream changed. *)
Theorem C05_flush_strings_refuted : exists old new off,
  let c1 := crun (verUp old) (zlen old) emptyCache [OpString 100 off; OpFlush] in
  snd (cstep (verUp new) (zlen new) c1 (OpString 100 off)) <>
  snd (cstep (verUp new) (zlen new) emptyCache (OpString 100 off)).
Proof. exists [0; 65; 66; 0], [0; 67; 68; 0], 1. vm_compute. discriminate. Qed.
Print Assumptions C05_flush_strings_refuted.

(** C06 *)
Theorem C06_string_repeatable : forall up src usize ops fuel off,
  serves up src -> regionsStartOnPages src -> usize + 1024 <= W64 ->
  Forall opValid ops -> Forall (fuelOk usize) ops ->
  0 <= off < W64 -> (Z.to_nat (usize - off) < fuel)%nat ->
  snd (cstep up usize (crun up usize emptyCache ops) (OpString fuel off)) = Ok (stringAt src usize off).
Proof. exact cached_string_any_history. Qed.
Print Assumptions C06_string_repeatable.
Example C06_nonvacuous :
  snd (cstep (verUp [1; 72; 105; 0; 9]) 5
        (crun (verUp [1; 72; 105; 0; 9]) 5 emptyCache [OpString 10 1; OpRead 0 3; OpFlush]) (OpString 10 1))
  = Ok [72; 105].
Proof. vm_compute. reflexivity. Qed.

(** C07 *)
Theorem C07_read_string : forall m c off fuel, 0 < off < W64 -> zlen c <= W64 / 2 ->
  (length c < fuel)%nat ->
  rstring fuel m (RFile c) off = Ok (untilNul (zdrop off c)).
Proof. exact file_readString. Qed.
Print Assumptions C07_read_string.
(** The memory-backed override copies the C string at the pointer, and is defined exactly when a
    terminator is found in mapped memory. *)
Theorem C07_read_string_memory : forall m fuel a s, cstring fuel m a = Ok s <->
  (length s < fuel)%nat /\ (forall k b, nth_error s k = Some b -> m (a + Z.of_nat k) = Some b /\ b <> 0) /\
  m (a + Z.of_nat (length s)) = Some 0.
Proof. exact cstring_spec. Qed.
Print Assumptions C07_read_string_memory.
Theorem C07_read_string_memory_reader : forall m fuel base size off s, rstring fuel m (RMem base size) off = Ok s <->
  (length s < fuel)%nat /\ (forall k b, nth_error s k = Some b -> m ((base + off) mod 2 ^ 64 + Z.of_nat k) = Some b /\ b <> 0) /\
  m ((base + off) mod 2 ^ 64 + Z.of_nat (length s)) = Some 0.
Proof. intros m fuel base size off s. exact (cstring_spec m fuel ((base + off) mod 2 ^ 64) s). Qed.
Print Assumptions C07_read_string_memory_reader.
(** Offset 0 is taken for a null pointer, whatever is there. *)
Theorem C07_offset_zero : forall m fuel c, rstring fuel m (RFile c) 0 = Ok [40; 110; 117; 108; 108; 41].
Proof. reflexivity. Qed.
Example C07_nonvacuous : rstring 10 (fun _ => None) (RFile [1; 65; 66; 0; 67]) 1 = Ok [65; 66] /\
  rstring 10 (fun _ => None) (RFile [65; 66; 0; 67]) 0 = Ok nullText /\
  cstring 10 (ofList [65; 66; 0]) 1 = Ok [66].
Proof. vm_compute. auto. Qed.

(** C08 *)
Theorem C08_readobj_all_or_nothing : forall rd sz off count bs,
  0 <= sz -> 0 <= count -> count * sz < W64 ->
  readObj rd sz off count = Ok bs ->
  zlen bs = count * sz /\ (count <> 0 -> rd off (count * sz) = Ok bs).
Proof. exact readObj_all. Qed.
Print Assumptions C08_readobj_all_or_nothing.
Theorem C08_readobj_exact_bytes : forall rd src sz off count,
  serves rd src -> 0 <= off -> 0 < sz -> 0 < count -> off + count * sz < W64 ->
  readObj rd sz off count =
    match memread src off (Z.to_nat (count * sz)) with Some bs => Ok bs | None => Throw end.
Proof. exact readObj_serves. Qed.
Print Assumptions C08_readobj_exact_bytes.
Example C08_nonvacuous :
  readObj (rread (fun _ => None) (RFile [1; 2; 3; 4; 5])) 2 1 2 = Ok [2; 3; 4; 5] /\
  readObj (rread (fun _ => None) (RFile [1; 2; 3; 4; 5])) 2 2 2 = Throw.
Proof. split; reflexivity. Qed.

(** C09 *)
Theorem C09_array_iteration : forall c sz cachesize rd,
  serves rd (ofList c) -> 0 < sz -> 0 < cachesize -> zlen c + cachesize * sz < W64 ->
  arrayEof (zlen c) sz 0 = (if zlen c mod sz =? 0 then Ok (zlen c / sz) else Throw) /\
  (zlen c mod sz = 0 ->
   snd (iterate rd sz cachesize 0 (Z.to_nat (zlen c / sz)) ainit 0) = Ok (records (S (length c)) sz c)).
Proof. exact array_iteration_lemma. Qed.
Print Assumptions C09_array_iteration.
(** any access order: each access answers with the record at that index of the byte source, or
    throws exactly when that record is not completely readable. *)
Theorem C09_array_random_access : forall rd src sz cachesize base,
  serves rd src -> 0 < sz -> 0 < cachesize -> 0 <= base ->
  forall idxs, Forall (fun i => 0 <= i /\ base + i * sz + cachesize * sz < W64) idxs ->
  accesses rd sz cachesize base ainit idxs =
  map (fun idx => match memread src (base + idx * sz) (Z.to_nat sz) with Some bs => Ok bs | None => Throw end) idxs.
Proof. exact (fun rd src sz cs base Hs H1 H2 H3 idxs Hf =>
  accesses_spec rd src sz cs base Hs H1 H2 H3 idxs ainit (ainit_inv src sz base) Hf). Qed.
Print Assumptions C09_array_random_access.
Example C09_nonvacuous :
  accesses (verUp [1; 2; 3; 4; 5; 6; 7]) 2 2 0 ainit [2; 0; 1; 3; 2] =
    [Ok [5; 6]; Ok [1; 2]; Ok [3; 4]; Throw; Ok [5; 6]] /\
  snd (iterate (verUp [1; 2; 3; 4; 5; 6]) 2 2 0 3 ainit 0) = Ok [[1; 2]; [3; 4]; [5; 6]].
Proof. vm_compute. auto. Qed.

(** C10 *)
Theorem C10_uleb_roundtrip : forall eos v rest, 0 <= v < W64 ->
  readULEB eos (encodeU 10 v ++ rest) = Ok (v, zlen (encodeU 10 v)).
Proof. exact uleb_roundtrip. Qed.
Print Assumptions C10_uleb_roundtrip.
Theorem C10_sleb_roundtrip : forall eos v rest, - 2 ^ 63 <= v < 2 ^ 63 ->
  readSLEB eos (encodeS 10 v ++ rest) = Ok (v, zlen (encodeS 10 v)).
Proof. exact sleb_roundtrip. Qed.
Print Assumptions C10_sleb_roundtrip.
(** Every terminated encoding of at most ten bytes, canonical or padded, and truncated data. *)
Theorem C10_uleb_any_encoding : forall eos pre b rest,
  Forall continuation pre -> final b -> zlen pre <= 9 ->
  readULEB eos (pre ++ b :: rest) = Ok (digits7 (pre ++ [b]) mod W64, zlen pre + 1).
Proof. exact leb_unsigned. Qed.
Print Assumptions C10_uleb_any_encoding.
Theorem C10_truncated : forall sg eos pre, Forall continuation pre -> zlen pre <= 9 ->
  lebLoop sg eos pre 0 0 0 = eos.
Proof. exact leb_truncated. Qed.
Print Assumptions C10_truncated.
(** Over-long input is not rejected: the eleventh byte is shifted by 70, undefined behaviour. *)
Theorem C10_overlong_refuted : forall sg eos pre b rest, Forall continuation pre -> 10 <= zlen pre ->
  lebLoop sg eos (pre ++ b :: rest) 0 0 0 = UB.
Proof. exact leb_overlong. Qed.
Print Assumptions C10_overlong_refuted.
Example C10_nonvacuous :
  encodeU 10 624485 = [229; 142; 38] /\ readULEB Throw [229; 142; 38; 77] = Ok (624485, 3) /\
  encodeS 10 (-123456) = [192; 187; 120] /\ readSLEB Throw [192; 187; 120] = Ok (-123456, 3) /\
  zlen (encodeU 10 18446744073709551615) = 10 /\ zlen (encodeS 10 (- 2 ^ 63)) = 10 /\
  Forall continuation (repeat 128 10).
Proof. repeat split; try (vm_compute; reflexivity). repeat constructor; unfold continuation; lia. Qed.

(** C11 *)
Theorem C11_getuint : forall data off len,
  Forall isByte data -> 0 <= off -> off + 16 < W64 -> 0 <= len ->
  getuint data off len =
  if (len <=? 16) && ((len =? 0) || (off + len <=? zlen data))
  then Ok (leValue (ztake len (zdrop off data)) mod W64, off + len) else Throw.
Proof. exact getuint_spec. Qed.
Print Assumptions C11_getuint.
Theorem C11_getint : forall data off len,
  Forall isByte data -> 0 <= off -> off + 16 < W64 -> 1 <= len <= 8 -> off + len <= zlen data ->
  getint data off len = Ok (leSigned (ztake len (zdrop off data)), off + len).
Proof. exact getint_spec. Qed.
Print Assumptions C11_getint.
Theorem C11_getu32 : forall data off, Forall isByte data -> 0 <= off -> off + 4 < W64 ->
  getu32 data off = if off + 4 <=? zlen data then Ok (leValue (ztake 4 (zdrop off data)), off + 4) else Throw.
Proof. exact getu32_spec. Qed.
Print Assumptions C11_getu32.
Example C11_nonvacuous :
  getuint [1; 2; 255; 255; 7] 1 2 = Ok (65282, 3) /\ getint [1; 2; 255; 255; 7] 1 2 = Ok (-254, 3) /\
  getuint [1; 2; 3] 1 4 = Throw /\ getuint [1] 0 17 = Throw.
Proof. repeat split; reflexivity. Qed.

(** C12 *)
Theorem C12_initial_length : forall data off,
  Forall isByte data -> 0 <= off -> off + 32 < W64 -> off + 4 <= zlen data ->
  let l := leValue (ztake 4 (zdrop off data)) in
  getlength data off =
    if l =? 4294967295 then
      if off + 12 <=? zlen data then Ok (leValue (ztake 8 (zdrop (off + 4) data)), 8, off + 12) else Throw
    else if 4294967280 <=? l then Ok (0, 0, off + 4)
    else Ok (l, 4, off + 4).
Proof. exact getlength_spec. Qed.
Print Assumptions C12_initial_length.
Example C12_nonvacuous :
  getlength [1; 2; 0; 0] 0 = Ok (513, 4, 4) /\
  getlength [255; 255; 255; 255; 1; 0; 0; 0; 2; 0; 0; 0] 0 = Ok (8589934593, 8, 12) /\
  getlength [240; 255; 255; 255] 0 = Ok (0, 0, 4).
Proof. repeat split; reflexivity. Qed.
Print Assumptions C07_offset_zero.
