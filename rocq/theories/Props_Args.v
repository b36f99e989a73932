(** C91-C95: the arguments of a frame. *)
From Verif Require Import Base Leb LebSpec DwarfReader DwarfReaderProofs MapsSpec Regs Cfi CfiSpec CfiProofs Expr ExprSpec ExprProofs Args ArgsSpec ArgsProofs.

Section P.
Context (str : Z -> res (list Z)) (types : Z -> option tdie) (dt ft : list Z -> list Z) (what : list Z).
(** C91.  An argument whose location expression [p] gives the nonzero address [a] shows as "=" and
    what the specification says is shown for an object of its type at [a].  [runE] and the conditions
    on [p] are those of C17.  Partial: unsigned integers in the upper half of their range are excluded
    by [shows], and so are types it does not mention. *)
Theorem C91_memory_argument_partial : forall data e se off p fbOff fbP rest name t k a s c,
  Forall isByte data -> zlen data + 32 < W64 -> envRel e se ->
  (eFb e = None /\ sFrameBase se = 0 /\ fbP = [] \/
   eFb e = Some (fbOff, fbOff + zlen (encodeE fbP)) /\ at_ data fbOff (encodeE fbP) /\ Forall wfO fbP /\
   (forall n, ~ In (PFbreg n) fbP) /\ safeRun se fbP [] = true /\
   exists r, runE se fbP [] = Some (sFrameBase se :: r)) ->
  Forall wfO p -> ~ In PStackValue p -> at_ data off (encodeE p) ->
  safeRun se p [] = true -> runE se p [] = Some (a :: rest) ->
  strips types t k -> shows (eMem e) str types a k s ->
  exists n, forall fuel, (n <= fuel)%nat ->
  valueText (eMem e) str types dt ft what fuel
    (mkParam name (Some t) (Some (evalLoc fuel data e off (off + zlen (encodeE p)))) c) = (61 :: s, Ok tt).
Proof.
  intros data e se off p fbOff fbP rest name t k a s c Hd Hw He Hfb Hwf _ Hat Hsafe Hrun Hst Hsh.
  destruct (strips_remove _ _ _ Hst) as [n1 R]. destruct (shows_text _ _ _ dt ft _ _ _ Hsh) as [n2 T]. exists (n1 + n2 + length fbP + length p + 2)%nat. intros fuel Hf.
  unfold valueText. cbn [pType pLoc]. rewrite (evalLoc_mem data e se off p fbOff fbP fuel a rest) by (assumption || lia). rewrite R by lia. rewrite T by lia. reflexivity.
Qed.
(** An integer argument of 8 bytes in a register (DW_OP_reg<r>) shows its nonzero value. *)
Theorem C92_register_argument_partial : forall data e off r v name t k d s c,
  Forall isByte data -> zlen data + 32 < W64 -> 0 <= r < 32 -> at_ data off [80 + r] ->
  gpGet (eRegs e) r = Ok (v mod 2 ^ 64) -> - 2 ^ 63 <= v < 2 ^ 63 -> v <> 0 ->
  strips types t k -> types k = Some d -> tTag d = 36 -> tEnc d = Some 5 -> decimal s v ->
  exists n, forall fuel, (n <= fuel)%nat ->
  valueText (eMem e) str types dt ft what fuel
    (mkParam name (Some t) (Some (evalLoc fuel data e off (off + 1))) c) = (61 :: s, Ok tt).
Proof.
  intros data e off r v name t k d s c Hd Hw Hr Hat Hg Hv Nv Hst Ek T En Ds. destruct (strips_remove _ _ _ Hst) as [n1 R]. exists (n1 + 2)%nat. intros fuel Hf.
  unfold valueText. cbn [pType pLoc]. rewrite (evalLoc_reg data e off r (v mod 2 ^ 64) fuel) by (assumption || lia). rewrite R by lia. destruct fuel as [|f]; [lia|]. cbn [rvText]. rewrite Ek.
  assert (Z0 : v mod 2 ^ 64 <> 0) by (intros X; apply Z.mod_divide in X as [q X]; lia). replace (v mod 2 ^ 64 =? 0) with false by lia.
  rewrite T. change (36 =? 36) with true. cbv iota.
  assert (B0 : rvBuf (eMem e) (v mod 2 ^ 64) true d = leBytes 8 (v mod 2 ^ (8 * Z.of_nat 8))).
  { unfold rvBuf. change (8 * Z.of_nat 8) with 64. set (w := v mod 2 ^ 64). clearbody w. cbn [leBytes]. rewrite !Z.div_div by lia. reflexivity. }
  rewrite B0. unfold baseText. rewrite En. change (5 =? 1) with false. change (5 =? 2) with false. change (5 =? 5) with true. cbn [orb].
  rewrite leSigned_leBytes by (try lia; cbn; lia). rewrite leBytes_len. change (Z.of_nat 8 =? 1) with false. change (Z.of_nat 8 =? 8) with true. rewrite !orb_true_r. cbv iota. rewrite (intText_dec s v Hv Ds). reflexivity.
Qed.

(** C94.  Every formal parameter is shown once, in order of declaration, by its name and value,
    separated by commas. *)
Theorem C94_order : forall m fuel cs, (forall p, In p (params cs) -> snd (valueText m str types dt ft what fuel p) = Ok tt) ->
  argsText m str types dt ft what fuel [] cs =
  (commaList (map (fun p => pName p ++ fst (valueText m str types dt ft what fuel p)) (params cs)), Ok tt).
Proof.
  intros m fuel cs H. set (vt := valueText m str types dt ft what fuel) in *.
  assert (G : forall cs sep, (forall p, In p (params cs) -> snd (vt p) = Ok tt) ->
    argsText m str types dt ft what fuel sep cs = (match params cs with [] => [] | _ => sep ++ commaList (map (fun p => pName p ++ fst (vt p)) (params cs)) end, Ok tt)).
  { clear. induction cs as [|[p|] cs IH]; intros sep H; cbn [argsText]; [reflexivity| |exact (IH sep H)].
    cbn [params flat_map app]. fold (params cs). fold vt. pose proof (H p (or_introl eq_refl)) as V. rewrite IH by (intros q Q; apply H; cbn [params flat_map app]; now right).
    unfold andThen. rewrite V. cbn [fst snd emit]. f_equal. destruct (params cs) as [|q qs]; cbn [map commaList]; rewrite <- ?app_assoc; [now rewrite app_nil_r|reflexivity]. }
  rewrite (G cs [] H). now destruct (params cs).
Qed.

(** C95.  If no location expression fails, the printing of a stack is never cut short by an
    exception: whatever goes wrong with a value is shown in its place.
    Partial: that condition; see [C95_bad_location_refuted]. *)
Theorem C95_errors_contained_partial : forall m fuel fs,
  (forall f p, In f fs -> In (Param p) (ftArgs f) -> pLoc p <> Some Throw) -> snd (stackText m str types dt ft what fuel fs) <> Throw.
Proof.
  assert (X : forall a b, snd a <> Throw -> snd b <> Throw -> snd (andThen a b) <> Throw) by (intros a b Ha Hb; unfold andThen; destruct (snd a) eqn:E; cbn [snd]; congruence).
  assert (RC : forall n t, removeCV types n t <> Throw).
  { induction n as [|n IH]; intros t; [discriminate|]. cbn [removeCV]. destruct t as [k|]; [|discriminate]. destruct (types k) as [d|]; [|discriminate]. destruct (_ || _); [apply IH|discriminate]. }
  intros m fuel. assert (V : forall p, pLoc p <> Some Throw -> snd (valueText m str types dt ft what fuel p) <> Throw).
  { intros p Hp. unfold valueText. destruct (pType p); [|discriminate]. destruct (pLoc p) as [[[a isv]| | |]|]; try discriminate; [|now elim Hp|destruct (pConst p); discriminate].
    apply X; [discriminate|]. pose proof (RC fuel (Some z)). destruct (removeCV types fuel (Some z)); try discriminate; [|congruence].
    destruct (rvText _ _ _ _ _ _ _ _ _) as [s [| | |]]; discriminate. }
  assert (AT : forall cs sep, (forall p, In (Param p) cs -> pLoc p <> Some Throw) -> snd (argsText m str types dt ft what fuel sep cs) <> Throw).
  { induction cs as [|[p|] cs IH]; intros sep H; cbn [argsText]; [discriminate| |apply IH; intros p Q; apply H; now right].
    apply X; [discriminate|]. apply X; [apply V, H; now left|]. apply IH. intros q Q. apply H. now right. }
  induction fs as [|f fs IH]; intros H; cbn [stackText]; [discriminate|]. apply X; [|apply IH; intros g p G; apply H; now right].
  unfold frameText. apply X; [discriminate|]. apply X; [|discriminate]. apply AT. intros p Q. apply (H f p); [now left|exact Q].
Qed.

(** C93.  Showing an argument ends if types do not refer to themselves through pointers, typedefs and
    qualifiers alone (C's types do not).  Partial: that condition. *)
Theorem C93_ends_partial : forall m rank p, ranked types rank -> (forall a, str a <> OutOfFuel) -> pLoc p <> Some OutOfFuel ->
  exists n, forall fuel, (n <= fuel)%nat -> snd (valueText m str types dt ft what fuel p) <> OutOfFuel.
Proof.
  intros m rank p RK ST HL. destruct (pType p) as [t|] eqn:T; [|exists 0%nat; intros; unfold valueText; rewrite T; discriminate].
  exists (rank t + 3)%nat. intros fuel Hf. unfold valueText. rewrite T. destruct (pLoc p) as [[[a isv]| | |]|]; try discriminate; [|now elim HL|destruct (pConst p); discriminate].
  apply ends_andThen; [discriminate|]. destruct (removeCV_ends str types rank RK ST fuel t ltac:(lia)) as (r & -> & X).
  pose proof (rv_ends m str types dt ft rank RK ST fuel a isv r) as Y. unfold ends in Y. destruct (rvText m str types dt ft fuel a isv r) as [s [| | |]]; try discriminate.
  exfalso. apply Y; [intros k Hk; specialize (X k Hk); lia|lia|reflexivity].
Qed.
End P.
Print Assumptions C91_memory_argument_partial.
Print Assumptions C92_register_argument_partial.
Print Assumptions C93_ends_partial.
Print Assumptions C94_order.
Print Assumptions C95_errors_contained_partial.

(** ** Examples and refutations *)
(** Types: 1 int (4 bytes, signed), 2 long (8), 3 pointer to const int, 4 const int, 5 unsigned. *)
Definition C91_types (k : Z) : option tdie :=
  nth_error [mkT 0 [] None None None; mkT 36 [105; 110; 116] (Some 4) (Some 5) None; mkT 36 [108] (Some 8) (Some 5) None;
             mkT 15 [] (Some 8) None (Some 4); mkT 38 [] None None (Some 1); mkT 36 [117] (Some 4) (Some 7) None] (Z.to_nat k).
Definition C91_str (a : Z) : res (list Z) := Ok [].
Definition C91_mem : memory := fun a => znth (a - 4096) (leBytes 8 4104 ++ leBytes 4 (-42 mod 2 ^ 32)).
Definition C91_env : env := mkEnv (fun c => if cell_eq_dec c U_rbp then 4112 else if cell_eq_dec c U_rdi then 4294967295 else 0) 0 C91_mem 0 None.
Definition showArg (t : Z) (data : list Z) : wr :=
  valueText C91_mem C91_str C91_types (fun _ => []) (fun _ => []) [] 20 (mkParam [120] (Some t) (Some (evalLoc 20 data C91_env 0 (zlen data))) None).
(** A pointer to an int of value -42 at rbp - 16 shows as "=0x1008->-42". *)
Example C91_nonvacuous :
  (exists s, shows C91_mem C91_str C91_types 4096 3 s /\ 61 :: s = [61; 48; 120; 49; 48; 48; 56; 45; 62; 45; 52; 50]) /\
  showArg 3 (encodeE [PBreg 6 (-16)]) = ([61; 48; 120; 49; 48; 48; 56; 45; 62; 45; 52; 50], Ok tt).
Proof.
  split; [|vm_compute; reflexivity]. exists [48; 120; 49; 48; 48; 56; 45; 62; 45; 52; 50]. split; [|reflexivity].
  assert (Hm : forall a bs, (forall i, (i < length bs)%nat -> C91_mem (a + Z.of_nat i) = nth_error bs i) -> holds C91_mem a bs).
  { intros a bs H i Hi. rewrite znth_nth_error by lia. rewrite <- H by (unfold zlen in Hi; lia). f_equal. lia. }
  apply (shPtr _ _ _ 4096 3 (mkT 15 [] (Some 8) None (Some 4)) 4104 [48; 120; 49; 48; 48; 56] 4 1 (mkT 36 [105; 110; 116] (Some 4) (Some 5) None) [45; 52; 50]); try reflexivity; try discriminate; try lia.
  - left. reflexivity.
  - eapply stCV; [reflexivity|right; left; reflexivity|reflexivity|]. eapply stEnd; [reflexivity|]. intros [X|[X|X]]; discriminate.
  - apply Hm. intros i Hi. do 8 (destruct i as [|i]; [reflexivity|]). cbn in Hi. lia.
  - right. split; [lia|]. exists [49; 48; 48; 56]. split; [reflexivity|]. split; [|discriminate]. change 4104 with (((1 * 16 + 0) * 16 + 0) * 16 + 8).
    change [49; 48; 48; 56] with ((([49] ++ [48]) ++ [48]) ++ [56]). do 3 (apply NumMore; [|split; [lia|left; lia]]). apply NumOne. split; [lia|left; lia].
  - apply (shSigned _ _ _ 4104 1 (mkT 36 [105; 110; 116] (Some 4) (Some 5) None) 4 (-42)); try reflexivity; try discriminate; [lia|cbn; lia| |].
    + apply Hm. intros i Hi. do 4 (destruct i as [|i]; [reflexivity|]). cbn in Hi. lia.
    + right. split; [lia|]. exists [52; 50]. split; [reflexivity|]. split; [|discriminate]. change (- -42) with (4 * 10 + 2). change [52; 50] with ([52] ++ [50]).
      apply NumMore; [|split; [lia|left; lia]]. apply NumOne. split; [lia|left; lia].
Qed.
(** Refuted: an unsigned int of value 4294967254 shows as -42. *)
Theorem C91_unsigned_refuted : showArg 5 (encodeE [PBreg 6 (-8)]) = ([61; 45; 52; 50], Ok tt) /\ holds C91_mem 4104 (leBytes 4 4294967254).
Proof.
  split; [vm_compute; reflexivity|]. intros i Hi. rewrite leBytes_len in Hi. assert (E : i = 0 \/ i = 1 \/ i = 2 \/ i = 3) by lia. destruct E as [->|[->|[->| ->]]]; reflexivity.
Qed.
(** Refuted: an int whose memory cannot be read shows as 0. *)
Theorem C91_unreadable_refuted : showArg 1 (encodeE [PBreg 6 100]) = ([61; 48], Ok tt) /\ C91_mem 4212 = None.
Proof. split; vm_compute; reflexivity. Qed.
(** A long in rdi. *)
Example C92_nonvacuous : showArg 2 [80 + 5] = ([61; 52; 50; 57; 52; 57; 54; 55; 50; 57; 53], Ok tt) /\ gpGet (eRegs C91_env) 5 = Ok 4294967295.
Proof. split; vm_compute; reflexivity. Qed.
(** Refuted: the int -1 in rdi (upper half of the register 0) shows as 4294967295. *)
Theorem C92_narrow_register_refuted : showArg 1 [80 + 5] = ([61; 52; 50; 57; 52; 57; 54; 55; 50; 57; 53], Ok tt).
Proof. vm_compute. reflexivity. Qed.
(** Refuted: the long 0 in a register shows as "(null)". *)
Theorem C92_zero_refuted : showArg 2 [80 + 3] = (61 :: [40; 110; 117; 108; 108; 41], Ok tt) /\ gpGet (eRegs C91_env) 3 = Ok 0.
Proof. split; vm_compute; reflexivity. Qed.
(** Refuted: the value 4104 computed by an expression (DW_OP_stack_value) is taken for an address:
    what is shown is the int found there; the same for a register given by DW_OP_regx. *)
Theorem C92_stack_value_refuted : showArg 1 (encodeE [PBreg 6 (-8); PStackValue]) = ([61; 45; 52; 50], Ok tt) /\
  showArg 1 [144; 6] = ([61; 48], Ok tt) /\ gpGet (eRegs C91_env) 6 = Ok 4112.
Proof. split; [|split]; vm_compute; reflexivity. Qed.
Example C93_nonvacuous : ranked C91_types (fun k => match k with 3 => 2%nat | 4 => 1%nat | _ => 0%nat end).
Proof.
  intros k d t E _ R. unfold C91_types in E.
  destruct (Z.to_nat k) as [|[|[|[|[|[|j]]]]]] eqn:N; cbn [nth_error] in E; try (injection E as <-; cbn in R; try discriminate R; injection R as <-); [replace k with 3 by lia|replace k with 4 by lia|destruct j; discriminate E]; cbn; lia.
Qed.
(** Refuted: with debug information in which a pointer type is its own target, a pointer that points
    to itself is followed for ever; so is a typedef of itself. *)
Theorem C93_cycle_refuted :
  (let types := fun k => if k =? 1 then Some (mkT 15 [] (Some 8) None (Some 1)) else None in
   let m := fun a => znth (a - 4096) (leBytes 8 4096) in
   forall fuel, snd (rvText m C91_str types (fun _ => []) (fun _ => []) fuel 4096 false (Some 1)) = OutOfFuel) /\
  (forall fuel, removeCV (fun k => Some (mkT 22 [] None None (Some 1))) fuel (Some 1) = OutOfFuel).
Proof.
  split; [|induction fuel as [|f IH]; [reflexivity|exact IH]]. cbv zeta. induction fuel as [|f IH]; [reflexivity|].
  set (m := fun a => znth (a - 4096) (leBytes 8 4096)) in *. set (types := fun k => if k =? 1 then _ else None) in *. cbn [rvText]. change (types 1) with (Some (mkT 15 [] (Some 8) None (Some 1))). cbv iota zeta. cbn [tTag tRef].
  change (rvBuf m 4096 false (mkT 15 [] (Some 8) None (Some 1))) with (leBytes 8 4096). change (4096 =? 0) with false. change (15 =? 36) with false. change ((15 =? 16) || (15 =? 15)) with true.
  change (zlen (leBytes 8 4096) <? 8) with false. cbv iota. change (leValue (ztake 8 (leBytes 8 4096))) with 4096. unfold andThen at 1. cbn [snd emit].
  destruct f as [|f]; [reflexivity|]. change (removeCV types (S f) (Some 1)) with (Ok (Some 1)). cbv iota. change (types 1) with (Some (mkT 15 [] (Some 8) None (Some 1))). cbv iota. cbn [tName].
  destruct (list_eq_dec Z.eq_dec [] charTxt); [discriminate|]. change (4096 =? 0) with false. cbv iota. unfold andThen. cbn [snd emit]. exact IH.
Qed.
Example C94_nonvacuous :
  argsText C91_mem C91_str C91_types (fun _ => []) (fun _ => []) [] 20 []
    [Param (mkParam [97] (Some 1) (Some (Ok (4104, false))) None); OtherDie; Param (mkParam [98] None None None); Param (mkParam [99] (Some 1) None (Some 7))] =
  ([97; 61; 45; 52; 50; 44; 32; 98; 44; 32; 99; 61; 55], Ok tt).
Proof. vm_compute. reflexivity. Qed.
(** Refuted: an argument whose location cannot be evaluated (here an unimplemented operation, 240)
    ends the whole output: the next frame, "g()", is not shown. *)
Theorem C95_bad_location_refuted :
  evalLoc 20 [240] C91_env 0 1 = Throw /\
  stackText C91_mem C91_str C91_types (fun _ => []) (fun _ => []) [] 20
    [mkFT [102] [Param (mkParam [120] (Some 1) (Some (evalLoc 20 [240] C91_env 0 1)) None)] []; mkFT [103] [] []] = ([102; 40; 120], Throw).
Proof. split; vm_compute; reflexivity. Qed.
Example C95_nonvacuous :
  stackText C91_mem C91_str C91_types (fun _ => []) (fun _ => []) [33] 20
    [mkFT [102] [Param (mkParam [120] (Some 1) (Some (Ok (1, false))) None)] []; mkFT [103] [] []] = ([102; 40; 120; 61; 48; 41; 103; 40; 41], Ok tt).
Proof. vm_compute. reflexivity. Qed.
Print Assumptions C91_unsigned_refuted.
Print Assumptions C91_unreadable_refuted.
Print Assumptions C92_narrow_register_refuted.
Print Assumptions C92_zero_refuted.
Print Assumptions C92_stack_value_refuted.
Print Assumptions C93_cycle_refuted.
Print Assumptions C95_bad_location_refuted.
