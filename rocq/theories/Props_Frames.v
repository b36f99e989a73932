(** Properties C104-C107: frame sections and lookup through .eh_frame_hdr. *)
From Verif Require Import Base DwarfReader Cfi CfiSpec Frames FramesSpec FramesProofs FramesProofs2 FramesProofs3.

Definition askable (o : fop) : Prop := match o with Look a => 0 <= a | ListAll => True end.

(** C104.  From a well formed section (.eh_frame without a search table, or .debug_frame): the CIEs found are
    those of the section, and after any history of lookups and lists every answer is right. *)
Theorem C104_decoding_partial data eh sa es fuel hdr :
  section eh data es -> 0 <= sa < 2 ^ 64 -> disjointFdes sa es (fdesOf es) -> (length es + 2 <= fuel)%nat -> eh = false \/ hdr = None ->
  exists k, makeCfi data eh sa fuel hdr = Ok k /\
    (forall o c', cieFind o (kCies k) = Some c' -> exists c, cieOf es o = Some c /\ isCie data c' c) /\
    (forall o c, In (o, ECie c) es -> exists c', cieFind o (kCies k) = Some c' /\ isCie data c' c) /\
    forall ops, Forall askable ops -> Forall2 (rightReply data sa es (fdesOf es)) ops (replies data eh sa fuel k ops).
Proof.
  intros SEC SA DJ Hf HH. destruct (full_cfi data eh sa es fuel SEC SA DJ ltac:(lia)) as (k & E & CI & ALL & RP). exists k. split.
  - unfold makeCfi. destruct HH as [-> | ->]; [exact E|]. destruct eh; exact E.
  - split; [exact CI|]. split; [|exact RP]. intros o c I. destruct (cieFind o (kCies k)) as [c'|] eqn:EC; [|now elim (ALL o c I)]. exists c'. split; [reflexivity|]. destruct (CI o c' EC) as (c2 & CO & Q).
    pose proof (section_placed eh data es SEC o (ECie c) I) as (F & _). unfold cieOf in CO. rewrite F in CO. injection CO as <-. exact Q.
Qed.

(** C105.  With a search table that lists [fs], lookups read only the entries they need, but after any history
    the answers are the ones for [fs]; with all FDEs in the table, those of C104. *)
Theorem C105_search_table_partial data sa es fuel h H rest ha fs :
  section true data es -> 0 <= sa < 2 ^ 64 -> (2 <= fuel)%nat ->
  H = hdrBytes h ++ rest -> Forall isByte H -> zlen H < 2 ^ 63 -> 0 <= ha < 2 ^ 64 ->
  (forall x, In x fs -> In (fst x, EFde (snd x)) es) -> disjointFdes sa es fs -> hdrOk sa es ha h fs ->
  exists k, makeCfi data true sa fuel (Some (H, ha)) = Ok k /\
    forall ops, Forall askable ops -> Forall2 (rightReply data sa es fs) ops (replies data true sa fuel k ops).
Proof.
  intros SEC SA Hf EH HB HW HA SUB DJ OK. destruct (hdr_cfi data sa es fuel h H rest ha fs SEC SA ltac:(lia) EH HB HW HA SUB DJ OK) as (k & E & _ & RP). exists k. split; [exact E|exact RP].
Qed.

(** C105, a header whose table has no entries of a fixed size (numbers in LEB128, addresses of the target's size, or the table omitted: the format,
    the low four bits of its encoding, is none of udata2-8 and sdata2-8): the table is not used, whatever follows, and the answers are those of C104. *)
Theorem C105_unsized_table data sa es fuel v pe ce te rest ha :
  section true data es -> 0 <= sa < 2 ^ 64 -> disjointFdes sa es (fdesOf es) -> (length es + 2 <= fuel)%nat ->
  zlen rest < 2 ^ 63 -> ~ In (te mod 16) [2; 3; 4; 10; 11; 12] ->
  exists k, makeCfi data true sa fuel (Some (v :: pe :: ce :: te :: rest, ha)) = Ok k /\
    forall ops, Forall askable ops -> Forall2 (rightReply data sa es (fdesOf es)) ops (replies data true sa fuel k ops).
Proof.
  intros SEC SA DJ Hf Hr NI. destruct (full_cfi data true sa es fuel SEC SA DJ ltac:(lia)) as (k & E & CI & ALL & RP). exists k. split; [|exact RP].
  assert (Z0 : encSize te = 0).
  { unfold encSize. change 15 with (Z.ones 4). rewrite Z.land_ones by lia. change (2 ^ 4) with 16. cbn [In] in NI.
    destruct ((te mod 16 =? 2) || (te mod 16 =? 10)) eqn:A1; [exfalso; lia|]. destruct ((te mod 16 =? 3) || (te mod 16 =? 11)) eqn:A2; [exfalso; lia|].
    destruct ((te mod 16 =? 4) || (te mod 16 =? 12)) eqn:A3; [exfalso; lia|reflexivity]. }
  assert (L : zlen (v :: pe :: ce :: te :: rest) < W64) by (rewrite !zlen_cons; unfold W64; lia).
  assert (G : forall o b, CfiProofs.at_ (v :: pe :: ce :: te :: rest) o [b] -> getu8 (v :: pe :: ce :: te :: rest) o = Ok (b, o + 1)) by (intros o b A; now apply CfiProofs.getu8_at).
  unfold makeCfi. cbv iota. rewrite (G 0 v) by (split; [lia|]; eexists; reflexivity). cbn [bind].
  rewrite (G (0 + 1) pe) by (split; [lia|]; eexists; reflexivity). cbn [bind].
  rewrite (G (0 + 1 + 1) ce) by (split; [lia|]; eexists; reflexivity). cbn [bind].
  rewrite (G (0 + 1 + 1 + 1) te) by (split; [lia|]; eexists; reflexivity). cbn [bind].
  rewrite Z0. change (0 =? 0) with true. cbv iota. rewrite E. now destruct (_ || _).
Qed.
Print Assumptions C105_unsized_table.

(** C106.  The contents of each entry, read at its offset: a CIE's fields; an FDE's, with the CIEs known so
    far any of the section's. *)
Theorem C106_cie_contents_partial data eh sa off c : Forall isByte data -> zlen data < 2 ^ 63 -> scOk eh c -> lies data off (cieBytes eh c) ->
  exists next o c', decodeHdr data eh off = Ok (next, W64 - 1, o) /\ next = off + zlen (cieBytes eh c) /\ readCIE data sa o next = Ok c' /\ isCie data c' c.
Proof.
  intros Hd Hw OK HA. apply lies_at in HA. destruct (decodeHdr_cie data eh Hd Hw off c OK HA) as [E _]. destruct (readCIE_spec data eh sa Hd Hw off c OK HA) as (c' & R & Q).
  do 3 eexists. split; [exact E|]. split; [reflexivity|]. split; [exact R|exact Q].
Qed.
(** From version 3 on the return address register is a LEB128 number, but one byte is read: a register
    above 127 makes the instructions start one byte early. *)
Definition rar3 : list Z := leBytes 4 13 ++ leBytes 4 4294967295 ++ [3; 0; 1; 120; 130; 1] ++ [12; 7; 8].
Theorem C106_return_register_refuted sa : exists c', readCIE rar3 sa 8 17 = Ok c' /\ cInsns c' = 13 /\ ztake 4 (zdrop 13 rar3) = [1; 12; 7; 8].
Proof. eexists. split; [reflexivity|]. split; reflexivity. Qed.
(** In .eh_frame an entry with an extended length still has a 4 byte CIE pointer, but 8 bytes are read: this
    CIE is taken for an FDE. *)
Definition ext64 : list Z := leBytes 4 4294967295 ++ leBytes 8 12 ++ leBytes 4 0 ++ [1; 0; 1; 120; 16; 12; 7; 8].
Theorem C106_extended_length_refuted : exists co o, decodeHdr ext64 true 0 = Ok (24, co, o) /\ co <> W64 - 1.
Proof. do 2 eexists. split; [vm_compute; reflexivity|]. vm_compute. discriminate. Qed.

(** C107.  A damaged section does not always end in an exception: an FDE that names itself as its CIE makes
    the reader call itself without end, whatever follows it. *)
Theorem C107_self_reference_refuted rest sa : Forall isByte rest -> zlen rest < 2 ^ 62 ->
  forall fuel cs, cieFind 0 cs = None -> putEntry (leBytes 4 24 ++ leBytes 4 4 ++ rest) true sa fuel cs 0 = (cs, OutOfFuel).
Proof.
  intros Hb Hl. set (d := leBytes 4 24 ++ leBytes 4 4 ++ rest).
  assert (D : decodeHdr d true 0 = Ok (28, 0, 8)).
  { assert (HD : Forall isByte d) by (unfold d; apply Forall_app; split; [vm_compute; repeat constructor; discriminate|apply Forall_app; split; [vm_compute; repeat constructor; discriminate|exact Hb]]).
    assert (HW : zlen d + 32 < W64) by (unfold d; rewrite !zlen_app, !CfiProofs.leBytes_len; unfold W64; lia).
    unfold decodeHdr. destruct (Cursor.getlength_at d 0 false 24 (leBytes 4 4 ++ rest) HD HW) as [G HA]; [lia|split; [lia|]; exists []; rewrite app_nil_r; now rewrite zdrop_neg by lia|]. cbv zeta iota in G, HA. rewrite G. cbn [bind].
    change (24 =? 0) with false. cbv iota. destruct (Cursor.rd_uint d HD HW 4 (0 + 4) 4 rest ltac:(lia) ltac:(lia) HA) as [R _]. change (Z.of_nat 4) with 4 in R. rewrite R. reflexivity. }
  induction fuel as [|f IH]; intros cs C; [reflexivity|]. cbn [putEntry]. rewrite D. change (28 =? 0) with false. change (0 =? W64 - 1) with false. cbv iota. rewrite C. rewrite (IH cs C). reflexivity.
Qed.

(** A section at 0x2000 with two CIEs and three FDEs that are not in order of their code. *)
Definition exC1 : scie := mkSC 1 (Some ([AugR (FSdata4, APcrel)], [], [])) 1 (-8) 16 [12; 7; 8; 144; 1] false.
Definition exC2 : scie := mkSC 1 (Some ([AugP (FSdata4, APcrel) true (-100); AugL 27; AugR (FSdata4, APcrel); AugS], [66], [1; 2; 3])) 1 (-8) 16 [12; 7; 8] false.
Definition exF1 : sfde := mkSF 0 (-4000) 64 [] [65; 14; 16] false.
Definition exF2 : sfde := mkSF 0 (-5000) 32 [] [] false.
Definition exF3 : sfde := mkSF 59 1000 16 [1; 2; 3; 4] [0; 0] false.
Definition exEs : list (Z * entry) := [(0, ECie exC1); (22, EFde exF1); (42, EFde exF2); (59, ECie exC2); (92, EFde exF3)].
Definition exData : list Z := flat_map (fun x => entryBytes true exEs (fst x) (snd x)) exEs ++ [0; 0; 0; 0].
Lemma bytes_ok l : forallb (fun b => (0 <=? b) && (b <? 256)) l = true -> Forall isByte l.
Proof. intros H. apply Forall_forall. intros b Hb. rewrite forallb_forall in H. specialize (H b Hb). unfold isByte. lia. Qed.
Ltac small := cbn; unfold fmtRange; lia.
Lemma exSection : section true exData exEs.
Proof.
  split; [apply bytes_ok; vm_compute; reflexivity|]. split; [vm_compute; reflexivity|]. split.
  - apply Forall_cons; [|apply Forall_cons; [|apply Forall_cons; [|apply Forall_cons; [|apply Forall_cons; [|constructor]]]]]; cbn [fst snd entryOk].
    + unfold scOk. cbn [scVersion scCode scData scRar scAugs exC1]. split; [now left|]. do 3 (split; [lia|]). split; [vm_compute; reflexivity|]. split; [repeat constructor; discriminate|]. split; [split; constructor|reflexivity].
    + exists exC1. split; [reflexivity|]. unfold sfOk. split; [split; [discriminate|small]|]. split; [split; [discriminate|small]|]. split; [small|]. split; [vm_compute; reflexivity|]. split; [reflexivity|small].
    + exists exC1. split; [reflexivity|]. unfold sfOk. split; [split; [discriminate|small]|]. split; [split; [discriminate|small]|]. split; [small|]. split; [vm_compute; reflexivity|]. split; [reflexivity|small].
    + unfold scOk. cbn [scVersion scCode scData scRar scAugs exC2]. split; [now left|]. do 3 (split; [lia|]). split; [vm_compute; reflexivity|].
      split; [constructor; [split; [discriminate|small]|]; constructor; [unfold augOk, isByte; lia|]; constructor; [discriminate|]; constructor; [exact I|constructor]|]. split; [split; [constructor; [lia|constructor]|cbn [In]; lia]|discriminate].
    + exists exC2. split; [reflexivity|]. unfold sfOk. split; [split; [discriminate|small]|]. split; [split; [discriminate|small]|]. split; [small|]. split; [vm_compute; reflexivity|]. split; [discriminate|small].
  - cbn [layout exEs]. do 5 (split; [vm_compute; reflexivity|]; split; [eexists; vm_compute; reflexivity|]). right. eexists. vm_compute. reflexivity.
Qed.
Lemma exDisjoint : disjointFdes 8192 exEs (fdesOf exEs).
Proof.
  split.
  - apply Forall_cons; [|apply Forall_cons; [|apply Forall_cons; [|constructor]]]; vm_compute; split; reflexivity.
  - constructor; [constructor; [|constructor; [|constructor]]|constructor; [constructor; [|constructor]|constructor; [constructor|constructor]]]; vm_compute; first [left; discriminate|right; discriminate].
Qed.
Example C104_nonvacuous : section true exData exEs /\ disjointFdes 8192 exEs (fdesOf exEs) /\
  (let* k := makeCfi exData true 8192 10 None in Ok (map (fun r => match r with RLook (Ok (Some f)) => fLoc f | _ => -1 end) (replies exData true 8192 10 k [Look 4230; Look 3273; Look 3274; Look 9305]))) = Ok [4222; 3242; -1; 9292].
Proof. split; [exact exSection|]. split; [exact exDisjoint|]. vm_compute. reflexivity. Qed.

(** A .debug_frame section with a CIE in the 64-bit format, which an FDE in each of the formats names. *)
Definition exBC : scie := mkSC 4 None 1 (-8) 16 [12; 7; 8; 144; 1] true.
Definition exBF1 : sfde := mkSF 0 20480 64 [] [65; 14; 16] true.
Definition exBF2 : sfde := mkSF 0 4096 32 [] [] false.
Definition exBigEs : list (Z * entry) := [(0, ECie exBC); (32, EFde exBF1); (71, EFde exBF2)].
Definition exBigData : list Z := flat_map (fun x => entryBytes false exBigEs (fst x) (snd x)) exBigEs.
Example C104_big_nonvacuous : section false exBigData exBigEs /\ disjointFdes 0 exBigEs (fdesOf exBigEs) /\
  (let* k := makeCfi exBigData false 0 10 None in Ok (map (fun r => match r with RLook (Ok (Some f)) => fLoc f | _ => -1 end) (replies exBigData false 0 10 k [Look 20500; Look 4100; Look 4128]))) = Ok [20480; 4096; -1].
Proof.
  split; [|split; [|vm_compute; reflexivity]].
  - split; [apply bytes_ok; vm_compute; reflexivity|]. split; [vm_compute; reflexivity|]. split.
    + apply Forall_cons; [|apply Forall_cons; [|apply Forall_cons; [|constructor]]]; cbn [fst snd entryOk].
      * unfold scOk. cbn [scVersion scCode scData scRar scAugs scBig exBC]. split; [now right; right|]. do 3 (split; [lia|]). split; [reflexivity|exact I].
      * exists exBC. split; [reflexivity|]. unfold sfOk. split; [split; [discriminate|small]|]. split; [split; [discriminate|small]|]. split; [small|]. split; [reflexivity|]. split; [reflexivity|small].
      * exists exBC. split; [reflexivity|]. unfold sfOk. split; [split; [discriminate|small]|]. split; [split; [discriminate|small]|]. split; [small|]. split; [vm_compute; reflexivity|]. split; [reflexivity|small].
    + cbn [layout exBigEs]. do 3 (split; [vm_compute; reflexivity|]; split; [eexists; vm_compute; reflexivity|]). left. vm_compute. reflexivity.
  - split; [apply Forall_cons; [|apply Forall_cons; [|constructor]]; vm_compute; split; reflexivity|]. constructor; [constructor; [|constructor]|constructor; [constructor|constructor]]; vm_compute; first [left; discriminate|right; discriminate].
Qed.
(** An FDE in the 64-bit format whose CIE is at the offset 0xffffffff is taken for a CIE: the mark of a CIE in the 32-bit format is looked for in both. *)
Theorem C106_far_cie_refuted data off c f : Forall isByte data -> zlen data < 2 ^ 63 -> sfBig f = true -> sfCie f = 4294967295 -> lies data off (fdeBytes false off c f) ->
  exists next o, decodeHdr data false off = Ok (next, W64 - 1, o).
Proof.
  intros Hd Hw B C HA. apply lies_at in HA. unfold fdeBytes in HA. rewrite B in HA. unfold decodeHdr. destruct (getlength_big data Hd Hw off true (zlen (fdeBody false off c f)) (fdeBody false off c f)) as [G HA2]; [discriminate|reflexivity|exact HA|]. rewrite G. cbn [bind].
  pose proof (fdeBody_len false off c f) as BL. replace (zlen (fdeBody false off c f) =? 0) with false by lia. unfold fdeBody in HA2. rewrite B, C in HA2. cbn [idWidth] in HA2.
  destruct (Cursor.rd_uint data Hd (Hw' data Hw) 8 _ 4294967295 _ ltac:(lia) ltac:(lia) HA2) as [R _]. cbn [idWidth]. rewrite R. cbn [bind]. do 2 eexists. reflexivity.
Qed.
Print Assumptions C106_far_cie_refuted.

(** Its .eh_frame_hdr at 0x1f00. *)
Definition exHdr : shdr := mkSH (FSdata4, APcrel) 252 FUdata4 (FSdata4, ADatarel) [(3242 - 7936, 8192 + 42 - 7936); (4222 - 7936, 8192 + 22 - 7936); (9292 - 7936, 8192 + 92 - 7936)].
Definition exOrder : list (Z * sfde) := [(42, exF2); (22, exF1); (92, exF3)].
Lemma exHdrOk : hdrOk 8192 exEs 7936 exHdr exOrder.
Proof.
  unfold hdrOk. split; [split; [discriminate|small]|]. split; [split; [discriminate|small]|]. split; [cbn [shTabEnc exHdr fst In]; tauto|]. split; [now right|]. split.
  - constructor; [|constructor; [|constructor; [|constructor]]]; (split; [split; [discriminate|small]|]; split; [split; [discriminate|small]|]; split; vm_compute; reflexivity).
  - constructor; [constructor; [|constructor; [|constructor]]|constructor; [constructor; [|constructor]|constructor; [constructor|constructor]]]; vm_compute; discriminate.
Qed.
(** exData again, with a header that has no table (0xff), one of LEB128 numbers (0x01) and one of addresses (0x10): all lead to the same answers. *)
Example C105_unsized_nonvacuous : map (fun te => (let* k := makeCfi exData true 8192 99 (Some ([1; 27; 3; te; 9; 9], 7936)) in
    Ok (map (fun r => match r with RLook (Ok (Some f)) => fLoc f | RList (Ok l) => zlen l | _ => -1 end) (replies exData true 8192 99 k [Look 4230; Look 3276; ListAll; Look 3242; Look 9305])))) [255; 1; 16] =
  [Ok [4222; -1; 3; 3242; 9292]; Ok [4222; -1; 3; 3242; 9292]; Ok [4222; -1; 3; 3242; 9292]].
Proof. vm_compute. reflexivity. Qed.
Example C105_nonvacuous : section true exData exEs /\ hdrOk 8192 exEs 7936 exHdr exOrder /\ disjointFdes 8192 exEs exOrder /\ (forall x, In x exOrder -> In (fst x, EFde (snd x)) exEs) /\
  (let* k := makeCfi exData true 8192 2 (Some (hdrBytes exHdr, 7936)) in Ok (map (fun r => match r with RLook (Ok (Some f)) => fLoc f | RList (Ok l) => zlen l | _ => -1 end) (replies exData true 8192 2 k [Look 4230; Look 3276; ListAll; Look 3242; Look 9305]))) = Ok [4222; -1; 3; 3242; 9292].
Proof.
  split; [exact exSection|]. split; [exact exHdrOk|]. split.
  - split; [apply Forall_cons; [|apply Forall_cons; [|apply Forall_cons; [|constructor]]]; vm_compute; split; reflexivity|]. constructor; [constructor; [|constructor; [|constructor]]|constructor; [constructor; [|constructor]|constructor; [constructor|constructor]]]; vm_compute; left; discriminate.
  - split; [|vm_compute; reflexivity]. intros x Hx. cbn [exOrder In] in Hx. destruct Hx as [<-|[<-|[<-|[]]]]; cbn [fst snd exEs In]; tauto.
Qed.
Example C106_nonvacuous : scOk true exC2 /\ lies exData 59 (cieBytes true exC2).
Proof. pose proof exSection as (_ & _ & F & _). split; [|split; [lia|eexists; vm_compute; reflexivity]]. rewrite Forall_forall in F. apply (F (59, ECie exC2)). cbn [exEs In]. tauto. Qed.
(** An FDE that names another FDE as its CIE fails an assertion; so does a search table whose entry has
    another address than the FDE it points to. *)
Definition fdeOfFde : list Z := ztake 42 exData ++ leBytes 4 16 ++ leBytes 4 24 ++ repeat 0 12.
Theorem C107_fde_of_fde_refuted : makeCfi fdeOfFde true 8192 10 None = UB.
Proof. vm_compute. reflexivity. Qed.
Definition badHdr : shdr := mkSH (FSdata4, APcrel) 252 FUdata4 (FSdata4, ADatarel) [(3240 - 7936, 8192 + 42 - 7936)].
Theorem C107_wrong_table_refuted : (let* k := makeCfi exData true 8192 10 (Some (hdrBytes badHdr, 7936)) in snd (find_fde exData true 8192 10 k 3250)) = UB.
Proof. vm_compute. reflexivity. Qed.
Print Assumptions C104_decoding_partial.
Print Assumptions C105_search_table_partial.
Print Assumptions C106_cie_contents_partial.
Print Assumptions C107_self_reference_refuted.
Print Assumptions C106_return_register_refuted.
Print Assumptions C106_extended_length_refuted.
Print Assumptions C107_fde_of_fde_refuted.
Print Assumptions C107_wrong_table_refuted.
