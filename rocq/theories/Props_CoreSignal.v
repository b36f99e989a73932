(** Property C171: the signal and the auxiliary vector of a core (see properties.jsonl). *)
From Coq Require Import Ascii String Sorted.
From Verif Require Import Base MapsSpec DwarfReaderProofs CfiSpec CfiProofs Json ElfHash ElfHashSpec ElfHashProofs ElfObj ElfObjSpec ElfObjProofs Props_Elf Core CoreProofs Args ArgsSpec ArgsProofs PythonProofs FrameText FrameTextSpec Main MainSpec Props_Main2 CoreSignal.
Open Scope Z_scope.

(** Notes the kernel calls CORE, of one type *)
Definition coreNote (ty : Z) (n : snote) : Prop := snName n = lit "CORE" /\ snType n = ty.
(** The notes [nss] are those of the segments [phs] of the file. *)
Definition notesIn (file : list Z) (phs : list phdr) (nss : list (list snote)) : Prop :=
  Forall2 (fun ph ns => ns <> [] /\ wfNotes ns /\ at_ file (p_offset ph) (flat_map encodeNote ns) /\ p_filesz ph = zlen (flat_map encodeNote ns)) phs nss.
Definition descOf (n : snote) : ndesc := mkNd (snName n) (snType n) (snDesc n).
Lemma core_iff ty n : (beq (ndName (descOf n)) CORE && (ndType (descOf n) =? ty)) = true <-> coreNote ty n.
Proof. unfold coreNote, descOf. cbn [ndName ndType]. rewrite andb_true_iff, beq_spec, Z.eqb_eq. reflexivity. Qed.
Lemma sig_first a n b : Forall (fun x => ~ coreNote NT_SIGINFO x) a -> coreNote NT_SIGINFO n -> signalInfo (map descOf (a ++ n :: b)) = if zlen (snDesc n) <? 128 then Throw else Ok (Some (ztake 128 (snDesc n))).
Proof.
  intros F Hn. induction F as [|x a N F IH]; cbn [app map signalInfo].
  - rewrite (proj2 (core_iff NT_SIGINFO n) Hn). reflexivity.
  - destruct (beq (ndName (descOf x)) CORE && _) eqn:E; [exfalso; apply N, core_iff, E|exact IH].
Qed.
Lemma sig_none a : Forall (fun x => ~ coreNote NT_SIGINFO x) a -> signalInfo (map descOf a) = Ok None.
Proof.
  intros F. induction F as [|x a N F IH]; [reflexivity|]. cbn [map signalInfo]. destruct (beq (ndName (descOf x)) CORE && _) eqn:E; [exfalso; apply N, core_iff, E|exact IH].
Qed.

(** The text pstack writes for a core begins with the core's name and, if its notes record a signal, the fields of the first one recorded; every thread's stack follows, each with an empty line. *)
Theorem C171_signal : forall file phs nss fuel io ts,
  notesIn file phs nss -> zlen file + 32 < W64 -> (length (concat nss) < fuel)%nat ->
  (forall a n b si rest, concat nss = a ++ n :: b -> Forall (fun x => ~ coreNote 0x53494749 x) a -> coreNote 0x53494749 n -> snDesc n = si ++ rest -> zlen si = 128 ->
    coreText fuel file phs io (map emit ts) = (lit "process: " ++ io ++ lit " (terminated with " ++ sigInfoText si ++ lit ")" ++ [10] ++ List.concat (map (fun t => t ++ [10]) ts), Ok tt)) /\
  (Forall (fun x => ~ coreNote 0x53494749 x) (concat nss) ->
    coreText fuel file phs io (map emit ts) = (lit "process: " ++ io ++ [10] ++ List.concat (map (fun t => t ++ [10]) ts), Ok tt)).
Proof.
  intros file phs nss fuel io ts HN Hf Hl. unfold coreText. rewrite (C32_segment_notes_partial file phs nss fuel Hf HN Hl). cbn [bind].
  change (fun n : snote => mkNd (snName n) (snType n) (snDesc n)) with descOf. split.
  - intros a n b si rest E Fa Hn Ed Ls. rewrite E, (sig_first a n b Fa Hn). rewrite Ed. rewrite zlen_app, Ls. pose proof (zlen_nonneg rest). replace (128 + zlen rest <? 128) with false by lia.
    replace (ztake 128 (si ++ rest)) with si by (rewrite <- Ls; now rewrite ztake_app_zlen). destruct (C132_process_text io (Some si) ts [] (emit []) []) as [T _]. rewrite T. rewrite <- !app_assoc. reflexivity.
  - intros F. rewrite (sig_none _ F). destruct (C132_process_text io None ts [] (emit []) []) as [T _]. exact T.
Qed.
Print Assumptions C171_signal.
(** So for a process killed by a fault the line says which and where, in full. *)
Theorem C171_fault : forall file phs nss fuel io ts a n b signo errno code addr more rest ss cs ps fs as' text,
  notesIn file phs nss -> zlen file + 32 < W64 -> (length (concat nss) < fuel)%nat ->
  concat nss = a ++ n :: b -> Forall (fun x => ~ coreNote 0x53494749 x) a -> coreNote 0x53494749 n ->
  snDesc n = siginfo signo errno code (faultFields addr more) ++ rest -> zlen more = 104 -> Forall isByte more ->
  In (signo, code, text) faultReasons -> 0 <= addr < W64 -> decimal ss signo -> decimal cs code -> pointer as' addr ->
  decimal ps (leSigned (leBytes 4 (addr mod 2 ^ 32))) -> decimal fs (leSigned (ztake 4 more)) ->
  coreText fuel file phs io (map emit ts) =
    (lit "process: " ++ io ++ lit " (terminated with si_signo " ++ ss ++ lit ", si_code " ++ cs ++ lit ", si_pid " ++ ps ++ lit ", si_fd " ++ fs ++ lit ", si_addr " ++ as' ++ lit " - " ++ lit text ++ lit ")" ++ [10] ++
     List.concat (map (fun t => t ++ [10]) ts), Ok tt).
Proof.
  intros file phs nss fuel io ts a n b signo errno code addr more rest ss cs ps fs as' text HN Hf Hl E Fa Hn Ed Lm Fm Hr Ha Ds Dc Da Dp Df.
  destruct (C171_signal file phs nss fuel io ts HN Hf Hl) as [T _].
  assert (L : zlen (siginfo signo errno code (faultFields addr more)) = 128).
  { unfold siginfo, faultFields. rewrite !zlen_app, !leBytes_len, Lm. reflexivity. }
  rewrite (T a n b _ rest E Fa Hn Ed L). rewrite (C129_fault_text_partial signo errno code addr more ss cs ps fs as' text Hr Ha ltac:(lia) Fm Ds Dc Da Dp Df).
  rewrite <- !app_assoc. reflexivity.
Qed.
Print Assumptions C171_fault.
(** The auxiliary vector is the contents of the first such note; none without one. *)
Theorem C171_auxv : forall file phs nss fuel, notesIn file phs nss -> zlen file + 32 < W64 -> (length (concat nss) < fuel)%nat ->
  exists ns, segNotes fuel file phs 0 = Ok ns /\
  (forall a n b, concat nss = a ++ n :: b -> Forall (fun x => ~ coreNote 6 x) a -> coreNote 6 n -> coreAuxv ns = Some (snDesc n)) /\
  (Forall (fun x => ~ coreNote 6 x) (concat nss) -> coreAuxv ns = None).
Proof.
  intros file phs nss fuel HN Hf Hl. eexists. split; [exact (C32_segment_notes_partial file phs nss fuel Hf HN Hl)|]. change (fun n : snote => mkNd (snName n) (snType n) (snDesc n)) with descOf. split.
  - intros a n b E Fa Hn. rewrite E. clear E. induction Fa as [|x a N F IH]; cbn [app map coreAuxv].
    + rewrite (proj2 (core_iff NT_AUXV n) Hn). reflexivity.
    + destruct (beq (ndName (descOf x)) CORE && _) eqn:E; [exfalso; apply N, core_iff, E|exact IH].
  - intros F. clear HN Hl. induction F as [|x a N F IH]; [reflexivity|]. cbn [map coreAuxv]. destruct (beq (ndName (descOf x)) CORE && _) eqn:E; [exfalso; apply N, core_iff, E|exact IH].
Qed.
Print Assumptions C171_auxv.
(** Refuted: a core whose signal note is cut short loses all its stacks: the text ends after the name. *)
Theorem C171_short_note_refuted : forall file phs nss fuel io ts a n b,
  notesIn file phs nss -> zlen file + 32 < W64 -> (length (concat nss) < fuel)%nat ->
  concat nss = a ++ n :: b -> Forall (fun x => ~ coreNote 0x53494749 x) a -> coreNote 0x53494749 n -> zlen (snDesc n) < 128 ->
  coreText fuel file phs io (map emit ts) = (lit "process: " ++ io, Throw).
Proof.
  intros file phs nss fuel io ts a n b HN Hf Hl E Fa Hn L. unfold coreText. rewrite (C32_segment_notes_partial file phs nss fuel Hf HN Hl). cbn [bind].
  change (fun n : snote => mkNd (snName n) (snType n) (snDesc n)) with descOf. rewrite E, (sig_first a n b Fa Hn). replace (zlen (snDesc n) <? 128) with true by lia. unfold andThen, emit. rewrite app_nil_r. reflexivity.
Qed.
Print Assumptions C171_short_note_refuted.
Definition C171_sig : list Z := siginfo 11 0 1 (faultFields 4096 (repeat 0 104)).
Definition C171_n1 : snote := mkSN [67; 79; 82; 69] 1 [7; 8; 9] [0; 0; 0] [0].
Definition C171_n2 : snote := mkSN [67; 79; 82; 69] 0x53494749 C171_sig [0; 0; 0] [].
Definition C171_n3 : snote := mkSN [67; 79; 82; 69] 6 [1; 0; 0; 0] [0; 0; 0] [].
Definition C171_file : list Z := repeat 9 40 ++ flat_map encodeNote [C171_n1; C171_n2; C171_n3].
Definition C171_phs : list phdr := [mkPh 4 40 0 (zlen (flat_map encodeNote [C171_n1; C171_n2; C171_n3])) 0].
Example C171_nonvacuous : notesIn C171_file C171_phs [[C171_n1; C171_n2; C171_n3]] /\ coreNote 0x53494749 C171_n2 /\ ~ coreNote 0x53494749 C171_n1 /\
  coreText 9 C171_file C171_phs (lit "core") [emit (lit "a")] = (lit "process: core (terminated with si_signo 11, si_code 1, si_pid 4096, si_fd 0, si_addr 0x1000 - address not mapped to object)" ++ [10] ++ lit "a" ++ [10], Ok tt) /\
  match segNotes 9 C171_file C171_phs 0 with Ok ns => coreAuxv ns = Some [1; 0; 0; 0] | _ => False end.
Proof.
  split; [|split; [split; reflexivity|split; [intros [_ X]; discriminate X|split; vm_compute; reflexivity]]].
  constructor; [|constructor]. split; [discriminate|]. split; [|split; [split; [cbn; lia|]; exists []; vm_compute; reflexivity|reflexivity]].
  assert (B : forall l, forallb (fun b => (0 <=? b) && (b <? 0x100)) l = true -> Forall isByte l).
  { intros l H. rewrite forallb_forall in H. apply Forall_forall. intros x Hx. specialize (H x Hx). unfold isByte. lia. }
  assert (W : forall n, In n [C171_n1; C171_n2; C171_n3] -> wfNote n).
  { assert (B1 : forall l, forallb (fun b => (0 <? b) && (b <? 0x100)) l = true -> Forall (fun b => 0 < b < 256) l) by (intros l H; rewrite forallb_forall in H; apply Forall_forall; intros x Hx; specialize (H x Hx); lia).
    intros n [<-|[<-|[<-|[]]]]; (split; [apply B1; vm_compute; reflexivity|]; split; [apply B; vm_compute; reflexivity|]; repeat split; vm_compute; congruence). }
  cbn [wfNotes]. split; [apply W; now left|]. split; [vm_compute; discriminate|]. split; [reflexivity|]. split; [apply W; right; now left|]. split; [vm_compute; discriminate|]. split; [reflexivity|].
  split; [apply W; right; right; now left|]. split; [vm_compute; discriminate|]. split; [congruence|exact I].
Qed.
