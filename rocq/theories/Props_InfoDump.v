(** C159, whole: the debug information of an image with its frame sections. *)
From Coq Require Import Ascii String.
From Verif Require Import Base Cfi CfiSpec Frames FramesSpec FramesProofs FramesProofs2 FramesProofs3 Props_Frames FrameTextSpec JsonDoc JsonDocSpec JsonDocProofs Dump DumpSpec DumpProofs Props_Dump DumpCfi DumpCfiSpec DumpCfiProofs Props_DumpCfi DumpInfo.
From Verif Require DumpUnit DumpUnitSpec Props_DumpUnit UnitsSpec Pubnames PubnamesSpec.
Open Scope Z_scope.

(** A frame section that the properties C104/C105 cover, and the instructions [prog] of its entries. *)
Definition wellFormed (eh : bool) (s : frameSec) (es : list (Z * entry)) (prog : Z -> list xinsn) : Prop :=
  section eh (fsData s) es /\ 0 <= fsAddr s < 2 ^ 64 /\ programs es prog /\
  match (if eh then fsHdr s else None) with
  | None => disjointFdes (fsAddr s) es (fdesOf es)
  | Some (H, ha) => exists h rest fs, H = hdrBytes h ++ rest /\ Forall isByte H /\ zlen H < 2 ^ 63 /\ 0 <= ha < 2 ^ 64 /\
      (forall x, In x fs -> In (fst x, EFde (snd x)) es) /\ (forall x, In (fst x, EFde (snd x)) es -> In x fs) /\ disjointFdes (fsAddr s) es fs /\ hdrOk (fsAddr s) es ha h fs
  end.
(** Its document: all FDEs in the order of the code, and the CIEs in the order of the section, or (C141) none if there is a search table. *)
Definition frameDoc (eh : bool) (s : frameSec) (es : list (Z * entry)) (prog : Z -> list xinsn) (d : jvalue) : Prop :=
  exists fs, (forall x, In x fs <-> In (fst x, EFde (snd x)) es) /\
  cfiDoc (fsData s) (fsAddr s) es prog (match (if eh then fsHdr s else None) with None => ciesOf es | Some _ => [] end) fs d.

Lemma shown_means eh s es prog fuel : wellFormed eh s es prog -> (length es + 2 <= fuel)%nat ->
  exists r v d, cfiShown fuel eh (Some s) = Some r /\ r = Ok v /\ means v d /\ frameDoc eh s es prog d.
Proof.
  intros (SEC & SA & PR & HH) Hf. destruct s as [data sa hdr]. cbn [fsData fsAddr fsHdr cfiShown] in *.
  destruct (if eh then hdr else None) as [[H ha]|] eqn:EH.
  - destruct eh; [|discriminate]. subst hdr. destruct HH as (h & rest & fs & EB & HB & HW & HA & SUB & ALL & DJ & OK).
    destruct (hdr_cfi data sa es fuel h H rest ha fs SEC SA ltac:(lia) EB HB HW HA SUB DJ OK) as (k & E & K0 & RP).
    specialize (RP [ListAll] ltac:(repeat constructor)). cbn [replies] in RP. destruct (get_fdes data true sa fuel k) as [k' r] eqn:EG. inversion RP as [|? ? ? ? RR _]; subst.
    destruct (cfi_doc data true sa es prog SEC PR fuel k [] fs) as (v & d & Ev & M & D).
    + constructor.
    + intros o c [].
    + intros o c' EC. rewrite K0 in EC. discriminate.
    + intros o c [].
    + exact SUB.
    + rewrite EG. exact RR.
    + eexists _, v, d. split; [reflexivity|]. rewrite E. cbn [bind]. split; [exact Ev|]. split; [exact M|]. exists fs. split; [intros x; split; [apply SUB|apply ALL]|exact D].
  - assert (HD : eh = false \/ hdr = None) by (destruct eh; [now right|now left]).
    destruct (C104_decoding_partial data eh sa es fuel hdr SEC SA HH Hf HD) as (k & E & C1 & C2 & RP).
    specialize (RP [ListAll] ltac:(repeat constructor)). cbn [replies] in RP. destruct (get_fdes data eh sa fuel k) as [k' r] eqn:EG. inversion RP as [|? ? ? ? RR _]; subst.
    assert (AS : ascends es) by (pose proof SEC as (_ & _ & _ & LY); exact (proj1 (layout_asc eh es data es 0 LY (entry_size eh data es SEC)))).
    destruct (cfi_doc data eh sa es prog SEC PR fuel k (ciesOf es) (fdesOf es)) as (v & d & Ev & M & D).
    + now apply ciesOf_asc.
    + intros o c. apply in_ciesOf.
    + intros o c' EC. destruct (C1 o c' EC) as (c & CO & Q). exists c. split; [|exact Q]. apply in_ciesOf. unfold cieOf in CO. destruct (find (fun e => fst e =? o) es) as [[o2 e]|] eqn:F; [|discriminate]. destruct e as [c2|]; [|discriminate]. injection CO as ->. apply find_some in F as [I F]. cbn in F. apply Z.eqb_eq in F as ->. exact I.
    + intros o c I. apply in_ciesOf in I. destruct (C2 o c I) as (c' & EC & _). now exists c'.
    + intros [o f] I. cbn [fst snd]. now apply in_fdesOf in I.
    + rewrite EG. exact RR.
    + eexists _, v, d. split; [reflexivity|]. rewrite E. cbn [bind]. split; [exact Ev|]. split; [exact M|]. exists (fdesOf es). split; [intros [o f]; apply in_fdesOf|cbn [fsData fsAddr fsHdr]; rewrite EH; exact D].
Qed.

(** A frame section, or none. *)
Definition frameGiven (eh : bool) (s : option frameSec) (es : list (Z * entry)) (prog : Z -> list xinsn) : Prop := match s with None => True | Some s => wellFormed eh s es prog end.
Definition frameMember (eh : bool) (s : option frameSec) (es : list (Z * entry)) (prog : Z -> list xinsn) (x : option jvalue) : Prop :=
  match s, x with None, None => True | Some s, Some d => frameDoc eh s es prog d | _, _ => False end.
Lemma member_means eh s es prog fuel : frameGiven eh s es prog -> (length es + 2 <= fuel)%nat ->
  exists x, frameMember eh s es prog x /\ match cfiShown fuel eh s, x with None, None => True | Some r, Some x => exists v, r = Ok v /\ means v x | _, _ => False end.
Proof.
  intros G Hf. destruct s as [s|]; [|exists None; split; exact I]. destruct (shown_means eh s es prog fuel G Hf) as (r & v & d & E & Er & M & D). exists (Some d). split; [exact D|]. rewrite E. now exists v.
Qed.

(** C159: the debug information of an image is printed as one JSON text that says its units in order (C158), its tables of public names (C156), and its .debug_frame and
    .eh_frame sections (C140; with a search table C141), each if the image has it. *)
Theorem C159_image_dump_partial us ps str lineStr alt sx sc ue ents dline dmacro se abbrevs plan dsec des dprog esec ees eprog cf :
  zlen (UnitsSpec.sectionOf us) < 2 ^ 63 -> Forall (DumpUnitSpec.ready us str lineStr alt sx ents dline dmacro se abbrevs plan) (UnitsSpec.starts 0 us) ->
  (let data := flat_map PubnamesSpec.encodePub ps in Forall isByte data /\ zlen data + 32 < W64 /\ Forall PubnamesSpec.wfPub ps /\ Forall (fun u => zlen (PubnamesSpec.pubBody u) < 65536) ps /\
     Forall (fun u => Forall (fun n => exists y, plainText (snd n) y) (PubnamesSpec.spNames u)) ps) ->
  frameGiven false dsec des dprog -> frameGiven true esec ees eprog -> (length des + 2 <= cf)%nat -> (length ees + 2 <= cf)%nat ->
  exists N, forall nf fuel, (N <= nf)%nat -> (N <= fuel)%nat -> exists v tx uxs pxs dx ex,
    DumpUnit.dumpInfo fuel (Props_DumpUnit.sectionBytes us (UnitsSpec.sectionOf us)) (Props_DumpUnit.sectionBytes ps (flat_map PubnamesSpec.encodePub ps))
      (DumpUnit.oneUnit (UnitsSpec.sectionOf us) str lineStr alt sx sc ue ents nf abbrevs dline dmacro se fuel) (cfiShown cf false dsec) (cfiShown cf true esec) = Ok v /\
    let x := XObj ([(lit "units", XArr uxs); (lit "pubnameUnits", XArr pxs)] ++ Props_DumpUnit.framePart "debugframe" dx ++ Props_DumpUnit.framePart "ehFrame" ex) in
    jprint v = Ok tx /\ jsonDoc tx x /\ (forall y, jsonDoc tx y -> y = x) /\
    Forall2 (DumpUnitSpec.shown us str lineStr alt sx ents dline dmacro se plan) (UnitsSpec.starts 0 us) uxs /\ Forall2 DumpUnitSpec.pubDoc ps pxs /\
    frameMember false dsec des dprog dx /\ frameMember true esec ees eprog ex.
Proof.
  intros Hw R HP GD GE Hd He. destruct (member_means false dsec des dprog cf GD Hd) as (dx & Dd & Md). destruct (member_means true esec ees eprog cf GE He) as (ex & De & Me).
  destruct (Props_DumpUnit.C159_info_dump_partial us ps str lineStr alt sx sc ue ents dline dmacro se abbrevs plan (cfiShown cf false dsec) (cfiShown cf true esec) dx ex Hw R HP Md Me) as (N & HN).
  exists N. intros nf fuel H1 H2. destruct (HN nf fuel H1 H2) as (v & tx & uxs & pxs & E & Et & J & U & Su & Sp). exists v, tx, uxs, pxs, dx, ex. split; [exact E|]. cbv zeta. repeat (split; [assumption|]). assumption.
Qed.
Print Assumptions C159_image_dump_partial.
Example C159_frames_case : frameGiven true (Some (mkFrameSec exData 8192 None)) exEs exProg /\ length (fdesOf exEs) <> 0%nat.
Proof. split; [|discriminate]. split; [exact exSection|]. split; [cbn; lia|]. split; [exact exPrograms|exact exDisjoint]. Qed.
