(** Property C62: macro information. *)
From Verif Require Import Base DwarfReader CfiSpec CfiProofs Lines Macros MacrosSpec MacrosProofs.

(** The .debug_macro section holds the macro units [units] (at least) at their offsets.  Visiting the
    unit at [off] calls the visitor - any visitor - for each define, undef, start of file and end of
    file of the unit in order, with line and text (or file and directory), the events of an imported
    unit in place of the import, until the visitor says stop; the answer is whether it did not.
    Partial: the offset size of macro units is the compilation unit's (see [C62_offset_size_refuted]),
    line table offsets are below 2 GiB, imports do not recur (a finite derivation of [events]), and
    there are no vendor opcodes (see [C62_vendor5_refuted]). *)
Theorem C62_v5_events_partial : forall (V : Type) (vis : V -> mevent -> V * bool) en data (units : Z -> munit -> Prop) off u li es,
  meMacro en = Some data -> Forall isByte data -> zlen data + 32 < W64 ->
  (forall o u, units o u -> wfUnit u /\ Z.of_nat (offSize u) = meLen en /\
     0 <= o /\ exists pre rest, data = pre ++ encodeUnit u ++ rest /\ zlen pre = o) ->
  units off u -> linesOf en u li -> events en units (offSize u) li (muOps u) es ->
  exists need, forall fuel version v, (need <= fuel)%nat -> 5 <= version ->
  visitMacros vis fuel en off version v = (fst (feed vis v es), Ok (snd (feed vis v es))).
Proof.
  intros V vis en data units off u li es Hm Hd Hw HU Hu Hli Hev.
  assert (HA : forall o u, units o u -> wfUnit u /\ meLen en = Z.of_nat (offSize u) /\ exists rest, at_ data o (encodeUnit u ++ rest)).
  { intros o w H. destruct (HU o w H) as (W & L & P & pre & rest & E & Lp). split; [exact W|]. split; [now symmetry|]. exists rest. split; [lia|]. exists [].
    rewrite app_nil_r, <- Lp, E. now rewrite zdrop_app_zlen. }
  destruct (HA _ _ Hu) as (W & L & rest & A).
  destruct (run5_ok data Hd Hw vis en units HA _ _ _ _ Hev (offSize_48 u) L) as [need R].
  exists need. intros fuel version v F Hv. unfold visitMacros. replace (version >=? 5) with true by lia. rewrite Hm.
  unfold encodeUnit in A. rewrite <- !app_assoc in A. destruct (open5_ok data Hd Hw en u li off _ W Hli A) as [E A']. rewrite E.
  apply R with (rest := rest); [exact F|exact A'].
Qed.
Print Assumptions C62_v5_events_partial.
(** The same for a list in .debug_macinfo.
    Partial: the visitor does not stop at a define or undef (see [C62_v4_stop_refuted]) and there are
    no vendor extensions (see [C62_vendor4_refuted]). *)
Theorem C62_v4_events_partial : forall (V : Type) (vis : V -> mevent -> V * bool) en data off ops es pre rest fuel version v,
  meInfo en = Some data -> Forall isByte data -> zlen data + 32 < W64 -> version < 5 ->
  data = pre ++ flat_map encode4 ops ++ [0] ++ rest -> zlen pre = off -> Forall2 (means4 (meOwn en)) ops es -> (length ops < fuel)%nat ->
  (forall v l t, snd (vis v (EDefine l t)) = true /\ snd (vis v (EUndef l t)) = true) ->
  visitMacros vis fuel en off version v = (fst (feed vis v es), Ok (snd (feed vis v es))).
Proof.
  intros V vis en data off ops es pre rest fuel version v Hm Hd Hw Hv E Lp M F Hvis. unfold visitMacros. replace (version >=? 5) with false by lia. rewrite Hm.
  rewrite (run4_ok data Hw vis (meOwn en) ops es M fuel off v rest F).
  - assert (X : forall es v, feed (heedless vis) v es = feed vis v es).
    { induction es0 as [|e es0 IH]; intros v0; cbn [feed]; [reflexivity|]. unfold heedless at 1. destruct (vis v0 e) as [v' b] eqn:Ev.
      destruct e as [l t|l t|l d fe|]; cbn [isDef]; rewrite ?orb_true_r, ?orb_false_r.
      - pose proof (proj1 (Hvis v0 l t)) as Y. rewrite Ev in Y. cbn in Y. subst b. apply IH.
      - pose proof (proj2 (Hvis v0 l t)) as Y. rewrite Ev in Y. cbn in Y. subst b. apply IH.
      - destruct b; [apply IH|reflexivity].
      - destruct b; [apply IH|reflexivity]. }
    now rewrite X.
  - split; [pose proof (zlen_nonneg pre); lia|]. exists []. rewrite app_nil_r, <- Lp, E. cbn [app]. now rewrite zdrop_app_zlen.
Qed.
Print Assumptions C62_v4_events_partial.
(** Whatever .debug_macinfo contains, the visit ends. *)
Theorem C62_v4_terminates : forall (V : Type) (vis : V -> mevent -> V * bool) en data off fuel version v,
  meInfo en = Some data -> version < 5 -> 0 <= off -> (length data < fuel)%nat ->
  snd (visitMacros vis fuel en off version v) <> OutOfFuel.
Proof.
  intros V vis en data off fuel version v Hm Hv Ho F. unfold visitMacros. replace (version >=? 5) with false by lia. rewrite Hm.
  destruct (run4_total data vis (meOwn en) fuel off v Ho) as [X|X]; [unfold zlen; lia|exact X|lia].
Qed.
(** Whatever .debug_macro contains, the visit ends if imports only refer to units further on in the
    section than the import ([step5] decodes the operation at an offset).
    Partial: see [C62_import_cycle_refuted]. *)
Theorem C62_v5_terminates_partial : forall (V : Type) (vis : V -> mevent -> V * bool) en data off fuel version v,
  meMacro en = Some data -> 5 <= version -> 0 <= off -> (length data < fuel)%nat ->
  (forall o, meLines en o <> OutOfFuel) -> (forall o, meStr en o <> OutOfFuel) -> (forall o, meStrx en o <> OutOfFuel) -> 0 <= meLen en ->
  (forall dl li p io p', step5 en data dl li p = Ok (MImport io, p') -> p < io) ->
  snd (visitMacros vis fuel en off version v) <> OutOfFuel.
Proof.
  intros V vis en data off fuel version v Hm Hv Ho F C1 C2 C3 C4 Fw. unfold visitMacros. replace (version >=? 5) with true by lia. rewrite Hm.
  assert (C : calm en) by (split; [|split; [|split]]; assumption).
  pose proof (open5_good data en off C) as G. destruct (open5 en data off) as [[[dl li] o]| | |]; try (cbn; discriminate); [|easy].
  apply run5_total; try assumption; try lia. unfold zlen. lia.
Qed.
Print Assumptions C62_v5_terminates_partial.

(** Two macro units: the first with a line table, a vendor opcode table, files and an import of the
    second, which uses strings from .debug_str and an index. *)
Definition C62_lines : lineTab := mkLT [[47]; [47; 105]] [mkFile [97] 0 0 0; mkFile [98] 1 0 0].
Definition C62_second : munit := mkMU 5 false None None [PDefineStrp 0 3; PUndefStrx 0 1].
Definition C62_first : munit := mkMU 5 false (Some 64) (Some [(224, [11; 8])])
  [PStart 0 0; PImport 37; PDefine 3 [65; 32; 49]; PStart 300 1; PUndef 1 [65]; PEnd; PEnd].
Definition C62_data : list Z := encodeUnit C62_first ++ encodeUnit C62_second.
Definition C62_env : menv := mkME None (Some C62_data) (fun o => if o =? 64 then Ok C62_lines else Throw) None
  (fun o => if o =? 3 then Ok [66] else Throw) (fun i => if i =? 1 then Ok [67] else Throw) 4.
Definition C62_es : list mevent :=
  [EStart 0 [47] (mkFile [97] 0 0 0); EDefine 0 [66]; EUndef 0 [67]; EDefine 3 [65; 32; 49]; EStart 300 [47; 105] (mkFile [98] 1 0 0); EUndef 1 [65]; EEnd; EEnd].
Definition C62_record (v : list mevent) (e : mevent) : list mevent * bool := (v ++ [e], true).
Example C62_nonvacuous : let units := fun o u => (o = 0 /\ u = C62_first) \/ (o = 37 /\ u = C62_second) in
  Forall isByte C62_data /\
  (forall o u, units o u -> wfUnit u /\ Z.of_nat (offSize u) = meLen C62_env /\
     0 <= o /\ exists pre rest, C62_data = pre ++ encodeUnit u ++ rest /\ zlen pre = o) /\
  linesOf C62_env C62_first (Some C62_lines) /\
  events C62_env units 4 (Some C62_lines) (muOps C62_first) C62_es /\
  visitMacros C62_record 50 C62_env 0 5 [] = (C62_es, Ok true) /\
  visitMacros (fun n _ => (n - 1, 1 <? n)) 50 C62_env 0 5 4 = (0, Ok false).
Proof.
  cbv zeta. split; [|split; [|split; [|split; [|split]]]].
  - apply Forall_forall. intros x Hx. assert (F : forallb (fun b => (0 <=? b) && (b <? 256)) C62_data = true) by (vm_compute; reflexivity).
    rewrite forallb_forall in F. specialize (F x Hx). unfold isByte. lia.
  - intros o u [[-> ->]|[-> ->]].
    + split; [|split; [reflexivity|split; [lia|]]].
      * unfold wfUnit, W16. cbn. split; [lia|]. split; [lia|]. split; [reflexivity|]. constructor; [|constructor]. cbn. unfold isByte. split; [lia|]. split; [reflexivity|]. constructor; [lia|]. constructor; [lia|constructor].
      * exists [], (encodeUnit C62_second). split; reflexivity.
    + split; [|split; [reflexivity|split; [lia|]]].
      * unfold wfUnit, W16. cbn. auto with zarith.
      * exists (encodeUnit C62_first), []. split; [now rewrite app_nil_r|vm_compute; reflexivity].
  - unfold linesOf. cbn. eauto.
  - cbn [muOps C62_first]. unfold C62_es.
    apply evOp. { constructor; [unfold W64; lia|unfold W64; lia|]. exists C62_lines. auto. }
    change (EDefine 0 [66] :: EUndef 0 [67] :: ?x) with ([EDefine 0 [66]; EUndef 0 [67]] ++ x).
    eapply evImport with (u := C62_second) (li' := None); [cbn; lia|right; split; reflexivity|reflexivity| |].
    { cbn [muOps C62_second]. apply evOp. { constructor; [unfold W64; lia|cbn; lia|reflexivity]. } apply evOp. { constructor; [unfold W64; lia|unfold W64; lia|reflexivity]. } constructor. }
    apply evOp. { constructor; [unfold W64; lia|]. repeat constructor; lia. }
    apply evOp. { constructor; [unfold W64; lia|unfold W64; lia|]. exists C62_lines. auto. }
    apply evOp. { constructor; [unfold W64; lia|]. repeat constructor; lia. }
    apply evOp. { constructor. } apply evOp; constructor.
  - vm_compute. reflexivity.
  - vm_compute. reflexivity.
Qed.
Definition C62_data4 : list Z := flat_map encode4 [OStart 0 1; ODefine 3 [65; 32; 49]; OUndef 200 [65]; OEnd] ++ [0].
Definition C62_env4 (d : list Z) : menv := mkME (Some d) None (fun _ => Throw) (Some C62_lines) (fun _ => Throw) (fun _ => Throw) 4.
Example C62_nonvacuous4 :
  Forall2 (means4 (meOwn (C62_env4 C62_data4))) [OStart 0 1; ODefine 3 [65; 32; 49]; OUndef 200 [65]; OEnd]
    [EStart 0 [47; 105] (mkFile [98] 1 0 0); EDefine 3 [65; 32; 49]; EUndef 200 [65]; EEnd] /\
  visitMacros C62_record 50 (C62_env4 C62_data4) 0 4 [] = ([EStart 0 [47; 105] (mkFile [98] 1 0 0); EDefine 3 [65; 32; 49]; EUndef 200 [65]; EEnd], Ok true).
Proof.
  split; [|vm_compute; reflexivity]. constructor. { constructor; [unfold W64; lia|unfold W64; lia|]. exists C62_lines. auto. }
  constructor. { constructor; [unfold W64; lia|]. repeat constructor; lia. } constructor. { constructor; [unfold W64; lia|]. repeat constructor; lia. } constructor; constructor.
Qed.

(** Refuted: a unit that imports itself (or any cycle) is visited for ever. *)
Theorem C62_import_cycle_refuted : let data := encodeUnit (mkMU 5 false None None [PDefine 1 [65]; PImport 0]) in
  forall fuel, snd (visitMacros C62_record fuel (mkME None (Some data) (fun _ => Throw) None (fun _ => Throw) (fun _ => Throw) 4) 0 5 []) = OutOfFuel.
Proof.
  cbv zeta. set (data := encodeUnit _). set (en := mkME _ _ _ _ _ _ _). intros fuel. unfold visitMacros. change (5 >=? 5) with true. cbv iota. cbn [meMacro en].
  assert (P : open5 en data 0 = Ok (4, None, 3)) by (vm_compute; reflexivity). rewrite P.
  assert (S1 : step5 en data 4 None 3 = Ok (MEvent (EDefine 1 [65]), 7)) by (vm_compute; reflexivity).
  assert (S2 : step5 en data 4 None 7 = Ok (MImport 0, 12)) by (vm_compute; reflexivity).
  assert (R : forall n v, snd (run5 C62_record n en data 4 None 3 v) = OutOfFuel /\ snd (run5 C62_record n en data 4 None 7 v) = OutOfFuel); [|apply R].
  induction n as [|n IH]; intros v; [split; reflexivity|]. split; cbn [run5].
  - rewrite S1. cbn [C62_record]. apply IH.
  - rewrite S2, P. destruct (IH v) as [X _]. destruct (run5 C62_record n en data 4 None 3 v) as [v' r]. cbn [snd] in X. subst r. reflexivity.
Qed.
Print Assumptions C62_import_cycle_refuted.
(** Refuted: the visitor's request to stop at a define or undef is ignored in .debug_macinfo. *)
Theorem C62_v4_stop_refuted :
  visitMacros (fun n _ => (n + 1, false)) 50 (C62_env4 (flat_map encode4 [ODefine 1 [65]; OUndef 2 [65]] ++ [0])) 0 4 0 = (2, Ok true).
Proof. vm_compute. reflexivity. Qed.
(** Refuted: the operands of a vendor extension are not skipped but taken for operations: a constant
    of 1 is taken for a define (a macro that does not exist is reported), one of 0 for the end (and
    what follows is lost). *)
Theorem C62_vendor4_refuted :
  visitMacros C62_record 50 (C62_env4 (flat_map encode4 [OVendor 1 [5; 120]; ODefine 1 [65]] ++ [0])) 0 4 [] = ([EDefine 5 [120]; EDefine 1 [65]], Ok true) /\
  visitMacros C62_record 50 (C62_env4 (flat_map encode4 [OVendor 0 [120]; ODefine 1 [65]] ++ [0])) 0 4 [] = ([], Ok true).
Proof. split; vm_compute; reflexivity. Qed.
(** Refuted: neither are those of a vendor-defined opcode, although the unit's header describes them:
    opcode 224 has one DW_FORM_data1 operand (0), which ends the list. *)
Theorem C62_vendor5_refuted :
  let data := encodeHead (mkMU 5 false None (Some [(224, [11])]) []) ++ [224; 0] ++ encode5 4 (PDefine 1 [65]) ++ [0] in
  visitMacros C62_record 50 (mkME None (Some data) (fun _ => Throw) None (fun _ => Throw) (fun _ => Throw) 4) 0 5 [] = ([], Ok true).
Proof. vm_compute. reflexivity. Qed.
(** Refuted: a macro unit in the 64-bit format used by a unit in the 32-bit format: string offsets are
    read with the wrong size. *)
Theorem C62_offset_size_refuted :
  let data := encodeUnit (mkMU 5 true None None [PDefineStrp 1 3; PDefine 2 [65]]) in
  visitMacros C62_record 50 (mkME None (Some data) (fun _ => Throw) None (fun s => Ok [s]) (fun _ => Throw) 4) 0 5 [] = ([EDefine 1 [3]], Ok true).
Proof. vm_compute. reflexivity. Qed.
(** Refuted: a start_file in a unit without line table offset (or with one of 4294967295), or with a
    file number outside the table, and a visit without the section, are undefined behaviour. *)
Theorem C62_start_file_refuted :
  (forall l, In l [None; Some 4294967295] ->
     let data := encodeUnit (mkMU 5 false l None [PStart 1 0]) in
     snd (visitMacros C62_record 50 (mkME None (Some data) (fun _ => Ok C62_lines) None (fun _ => Throw) (fun _ => Throw) 4) 0 5 []) = UB) /\
  snd (visitMacros C62_record 50 (C62_env4 (encode4 (OStart 1 2) ++ [0])) 0 4 []) = UB /\
  snd (visitMacros C62_record 50 (C62_env4 []) 0 5 []) = UB.
Proof. split; [|split; vm_compute; reflexivity]. intros l [<-|[<-|[]]]; vm_compute; reflexivity. Qed.
Print Assumptions C62_v4_terminates.
Print Assumptions C62_v4_stop_refuted.
Print Assumptions C62_vendor4_refuted.
Print Assumptions C62_vendor5_refuted.
Print Assumptions C62_offset_size_refuted.
Print Assumptions C62_start_file_refuted.
