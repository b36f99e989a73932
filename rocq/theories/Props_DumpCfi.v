(** C140, C141: the dump of a frame section. *)
From Coq Require Import Ascii String.
From Verif Require Import Base Cfi CfiSpec Frames FramesSpec FramesProofs FramesProofs2 FramesProofs3 Props_Frames Args ArgsSpec FrameText FrameTextSpec JsonDoc JsonDocSpec JsonDocProofs Dump DumpSpec DumpProofs Props_Dump DumpCfi DumpCfiSpec DumpCfiProofs.

(** C140: a section that is read as a whole (.debug_frame, or .eh_frame without a search table) is shown completely: every CIE under its offset with its fields
    and its instructions, every FDE in the order of the code, and nothing else. *)
Theorem C140_cfi_dump_partial data eh sa es fuel hdr prog :
  section eh data es -> 0 <= sa < 2 ^ 64 -> disjointFdes sa es (fdesOf es) -> (length es + 2 <= fuel)%nat -> eh = false \/ hdr = None -> programs es prog ->
  exists k v t d, makeCfi data eh sa fuel hdr = Ok k /\ dumpCfi data eh sa fuel k = Ok v /\ jprint v = Ok t /\ jsonDoc t d /\ (forall y, jsonDoc t y -> y = d) /\
    cfiDoc data sa es prog (ciesOf es) (fdesOf es) d.
Proof.
  intros SEC SA DJ Hf HH PR. destruct (C104_decoding_partial data eh sa es fuel hdr SEC SA DJ Hf HH) as (k & E & C1 & C2 & RP).
  specialize (RP [ListAll] ltac:(repeat constructor)). cbn [replies] in RP. destruct (get_fdes data eh sa fuel k) as [k' r] eqn:EG. inversion RP as [|? ? ? ? RR _]; subst.
  assert (AS : ascends es) by (pose proof SEC as (_ & _ & _ & LY); exact (proj1 (layout_asc eh es data es 0 LY (entry_size eh data es SEC)))).
  destruct (cfi_doc data eh sa es prog SEC PR fuel k (ciesOf es) (fdesOf es)) as (v & d & Ev & M & D).
  - now apply ciesOf_asc.
  - intros o c. apply in_ciesOf.
  - intros o c' EC. destruct (C1 o c' EC) as (c & CO & Q). exists c. split; [|exact Q]. apply in_ciesOf. unfold cieOf in CO. destruct (find (fun e => fst e =? o) es) as [[o2 e]|] eqn:F; [|discriminate]. destruct e as [c2|]; [|discriminate]. injection CO as ->. apply find_some in F as [I F]. cbn in F. apply Z.eqb_eq in F as ->. exact I.
  - intros o c I. apply in_ciesOf in I. destruct (C2 o c I) as (c' & EC & _). now exists c'.
  - intros [o f] I. cbn [fst snd]. now apply in_fdesOf in I.
  - rewrite EG. exact RR.
  - destruct (C137_documents v d M) as (t & Et & J & U). exists k, v, t, d. repeat split; assumption.
Qed.
(** the section of C104 *)
Definition exProg (o : Z) : list xinsn :=
  if o =? 0 then [Std (SDefCfa 7 8); Std (SOffset 16 1)] else if o =? 22 then [Std (SAdvanceLoc 1); Std (SDefCfaOffset 16)] else if o =? 59 then [Std (SDefCfa 7 8)] else if o =? 92 then [Std SNop; Std SNop] else [].
Lemma exPrograms : programs exEs exProg.
Proof.
  unfold programs, exEs. repeat (apply Forall_cons; [cbn [fst snd]; (split; [reflexivity|]); (split; [split; unfold exProg; cbn [Z.eqb Pos.eqb]; repeat (apply Forall_cons; [cbn; unfold word64; (lia || exact I)|]); apply Forall_nil|]);
    cbn [printable]; (exact I || (vm_compute; repeat (apply Forall_cons; [split; (discriminate || reflexivity)|]); apply Forall_nil))|]). apply Forall_nil.
Qed.
Example C140_nonvacuous : section true exData exEs /\ disjointFdes 8192 exEs (fdesOf exEs) /\ programs exEs exProg /\ length (ciesOf exEs) = 2%nat.
Proof. split; [exact exSection|]. split; [exact exDisjoint|]. split; [exact exPrograms|reflexivity]. Qed.

(** C141: with a search table the FDEs are shown completely, but the list of the CIEs is empty: it is printed before the table is used. *)
Theorem C141_cies_missing_refuted data sa es fuel h H rest ha fs prog :
  section true data es -> 0 <= sa < 2 ^ 64 -> (2 <= fuel)%nat ->
  H = hdrBytes h ++ rest -> Forall isByte H -> zlen H < 2 ^ 63 -> 0 <= ha < 2 ^ 64 ->
  (forall x, In x fs -> In (fst x, EFde (snd x)) es) -> disjointFdes sa es fs -> hdrOk sa es ha h fs -> programs es prog ->
  exists k v t d, makeCfi data true sa fuel (Some (H, ha)) = Ok k /\ dumpCfi data true sa fuel k = Ok v /\ jprint v = Ok t /\ jsonDoc t d /\ (forall y, jsonDoc t y -> y = d) /\
    cfiDoc data sa es prog [] fs d.
Proof.
  intros SEC SA Hf EH HB HW HA SUB DJ OK PR. destruct (hdr_cfi data sa es fuel h H rest ha fs SEC SA ltac:(lia) EH HB HW HA SUB DJ OK) as (k & E & K0 & RP).
  specialize (RP [ListAll] ltac:(repeat constructor)). cbn [replies] in RP. destruct (get_fdes data true sa fuel k) as [k' r] eqn:EG. inversion RP as [|? ? ? ? RR _]; subst.
  destruct (cfi_doc data true sa es prog SEC PR fuel k [] fs) as (v & d & Ev & M & D).
  - constructor.
  - intros o c [].
  - intros o c' EC. rewrite K0 in EC. discriminate.
  - intros o c [].
  - exact SUB.
  - rewrite EG. exact RR.
  - destruct (C137_documents v d M) as (t & Et & J & U). exists k, v, t, d. repeat split; assumption.
Qed.
(** what that means: the document of C140 has a member for each CIE, this one has none *)
Theorem C141_empty data sa es prog fs d : cfiDoc data sa es prog [] fs d -> exists ds, d = XObj [(lit "cielist", XObj []); (lit "fdelist", XArr ds)].
Proof. intros (ms & ds & fs' & F & _ & _ & _ & _ & ->). inversion F; subst. now exists ds. Qed.
Example C141_nonvacuous : hdrOk 8192 exEs 7936 exHdr exOrder /\ programs exEs exProg /\ ciesOf exEs <> [] /\
  exists v, (let* k := makeCfi exData true 8192 2 (Some (hdrBytes exHdr, 7936)) in dumpCfi exData true 8192 2 k) = Ok v.
Proof.
  split; [exact exHdrOk|]. split; [exact exPrograms|]. split; [discriminate|].
  exists (match (let* k := makeCfi exData true 8192 2 (Some (hdrBytes exHdr, 7936)) in dumpCfi exData true 8192 2 k) with Ok v => v | _ => VNull end). vm_compute. reflexivity.
Qed.
Print Assumptions C140_cfi_dump_partial.
Print Assumptions C141_cies_missing_refuted.
Print Assumptions C141_empty.
