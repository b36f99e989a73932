(** Property C61: the public names of an image. *)
From Verif Require Import Base DwarfReader CfiSpec CfiProofs Pubnames PubnamesSpec PubnamesProofs.

(** A section holding the contributions [us] is reported as exactly these units, in order, each with
    its length, version, unit offset and length and all of its entries in order; and so it is again on
    every later call.
    Partial: each contribution is shorter than 64 KiB (see [C61_long_unit_refuted]); 32-bit format. *)
Theorem C61_pubnames_partial : forall us fuel, let data := flat_map encodePub us in
  Forall isByte data -> zlen data + 32 < W64 -> (length data < fuel)%nat ->
  Forall wfPub us -> Forall (fun u => zlen (pubBody u) < 65536) us ->
  let want := map (fun u => mkPU (zlen (pubBody u)) (spVersion u) (spInfoOffset u) (spInfoLength u) (spNames u)) us in
  exists st, pubnames fuel (Some data) None = (Some st, Ok want) /\
             forall fuel' sec, pubnames fuel' sec (Some st) = (Some st, Ok want).
Proof.
  intros us fuel data Hd Hw F W L want. unfold pubnames.
  rewrite (section_ok data Hd Hw us fuel 0 []); [|assumption|assumption|exact F| |unfold data; lia].
  - exists want. cbn [app]. split; [reflexivity|reflexivity].
  - split; [lia|]. exists []. now rewrite app_nil_r, zdrop_neg by lia.
Qed.
Print Assumptions C61_pubnames_partial.
(** Whatever the section contains, reading it ends, with an answer or an exception. *)
Theorem C61_terminates : forall data fuel, zlen data + 32 < W64 -> (length data + 2 < fuel)%nat ->
  snd (pubnames fuel (Some data) None) = Throw \/ exists us, snd (pubnames fuel (Some data) None) = Ok us.
Proof.
  intros data fuel Hw F. destruct (section_total data Hw fuel 0 []) as (us & r & E & [-> | ->]).
  - pose proof (zlen_nonneg data). lia.
  - unfold zlen. lia.
  - right. unfold pubnames. rewrite E. cbn. eauto.
  - left. unfold pubnames. rewrite E. reflexivity.
Qed.
Print Assumptions C61_terminates.
Theorem C61_no_section : forall fuel fuel' sec, pubnames fuel None None = (Some [], Ok []) /\ pubnames fuel' sec (Some []) = (Some [], Ok []).
Proof. split; reflexivity. Qed.

Definition C61_units : list sPubUnit :=
  [mkSPU 2 0 100 [(11, [109; 97; 105; 110]); (57, [120])]; mkSPU 2 100 40 []; mkSPU 2 140 9 [(4294967295, [200])]].
Example C61_nonvacuous : let data := flat_map encodePub C61_units in
  Forall isByte data /\ zlen data + 32 < W64 /\ (length data < 200)%nat /\ Forall wfPub C61_units /\
  Forall (fun u => zlen (pubBody u) < 65536) C61_units /\
  snd (pubnames 200 (Some data) None) = Ok [mkPU 29 2 0 100 [(11, [109; 97; 105; 110]); (57, [120])]; mkPU 14 2 100 40 []; mkPU 20 2 140 9 [(4294967295, [200])]].
Proof.
  cbv zeta. split; [|split; [reflexivity|split; [cbn; lia|split; [|split]]]].
  - apply Forall_forall. intros x Hx. assert (F : forallb (fun b => (0 <=? b) && (b <? 256)) (flat_map encodePub C61_units) = true) by reflexivity.
    rewrite forallb_forall in F. specialize (F x Hx). unfold isByte. lia.
  - unfold wfPub, wfName, W16, W32. repeat constructor; cbn; lia.
  - repeat constructor; cbn; lia.
  - vm_compute. reflexivity.
Qed.

(** Refuted: a contribution of 65546 bytes with one (long) name.  Its length is kept in 16 bits, so
    the unit is read as one of length 10 with no entries, and reading goes on right after its header. *)
Theorem C61_long_unit_refuted :
  let u := mkSPU 2 0 100 [(11, repeat 97 (Z.to_nat 65527))] in
  let data := encodePub u in
  wfPub u /\ zlen (pubBody u) = 65546 /\ Forall isByte data /\ zlen data + 32 < W64 /\
  forall fuel, (0 < fuel)%nat -> readPubUnit fuel data 0 = Ok (mkPU 10 2 0 100 [], 14).
Proof.
  cbv zeta. remember (repeat 97 (Z.to_nat 65527)) as s eqn:Es. assert (Ls : zlen s = 65527) by (rewrite Es; unfold zlen; rewrite repeat_length; lia).
  set (u := mkSPU 2 0 100 [(11, s)]). assert (Lb : zlen (pubBody u) = 65546).
  { rewrite body_len. cbn [u spNames flat_map]. unfold encodeName. cbn [fst snd]. rewrite !zlen_app, leBytes_len, Ls. reflexivity. }
  assert (W : wfPub u).
  { unfold wfPub. rewrite Lb. cbn [u spVersion spInfoOffset spInfoLength spNames]. unfold W16, W32. do 3 (split; [lia|]). split; [|lia]. constructor; [|constructor].
    split; cbn [fst snd]; [unfold W32; lia|]. apply Forall_forall. intros x Hx. rewrite Es in Hx. apply repeat_spec in Hx. lia. }
  assert (D : Forall isByte (encodePub u)).
  { unfold encodePub, pubBody, encodeName. cbn [u spVersion spInfoOffset spInfoLength spNames flat_map fst snd].
    assert (Fs : Forall isByte s); [|repeat (apply Forall_app; split); try apply leBytes_byte; try exact Fs; try apply Forall_nil; apply Forall_cons; [unfold isByte; lia|apply Forall_nil]].
    apply Forall_forall. intros x Hx. rewrite Es in Hx. apply repeat_spec in Hx. unfold isByte. lia. }
  assert (Ld : zlen (encodePub u) = 65550) by (unfold encodePub; rewrite leBytes_app_len, Lb; reflexivity).
  split; [exact W|]. split; [exact Lb|]. split; [exact D|]. split; [rewrite Ld; unfold W64; lia|].
  intros fuel F. rewrite (unit_truncated _ D ltac:(rewrite Ld; unfold W64; lia) u fuel 0 []); [rewrite Lb; reflexivity|exact W|rewrite Lb; unfold W16; lia|exact F|].
  split; [lia|]. exists []. now rewrite !app_nil_r, zdrop_neg by lia.
Qed.
Print Assumptions C61_long_unit_refuted.
(** Refuted: after a call that threw, the next call returns the units read before the bad one, as if
    that were all. *)
Theorem C61_repeat_after_failure_refuted : forall fuel, (20 < fuel)%nat ->
  let data := encodePub (mkSPU 2 0 100 []) ++ [1] in
  snd (pubnames fuel (Some data) None) = Throw /\
  snd (pubnames fuel (Some data) (fst (pubnames fuel (Some data) None))) = Ok [mkPU 14 2 0 100 []].
Proof.
  intros fuel F. cbv zeta. do 21 (destruct fuel as [|fuel]; [lia|]).
  set (data := encodePub (mkSPU 2 0 100 []) ++ [1]).
  assert (Q : forall f, pubSection (S (S (S f))) data 0 [] = ([mkPU 14 2 0 100 []], Throw)) by (intros; vm_compute; reflexivity).
  unfold pubnames. rewrite Q. cbn. split; reflexivity.
Qed.
Print Assumptions C61_no_section.
Print Assumptions C61_repeat_after_failure_refuted.
