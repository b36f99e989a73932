(** C146: finding the link map when the auxiliary vector does not lead to it (findRDebugAddr, process.cc:873-922). *)
From Coq Require Import Ascii String.
From Verif Require Import Base DwarfReader Reader ReaderArray CfiSpec Core ArgsSpec FrameTextSpec Load LoadSpec LoadProofs Props_Load.
Open Scope Z_scope.

(** [unfindable s]: nothing is known so far but the program [e]. *)
(** From the program's file: where its dynamic segment is, moved by the difference of the entry points. *)
Theorem C146_from_file : forall m eEntry eDyn eInterp rsym s e va fsz ds,
  sExec s = Some e -> sDtDebug s = 0 -> eDyn e = [(va, fsz)] ->
  Forall (fun d => wordOk (fst d) /\ wordOk (snd d)) ds -> fsz = 16 * zlen ds ->
  holds m ((va + (sEntry s - eEntry e) mod 2 ^ 64) mod 2 ^ 64) (auxBytes ds) -> firstDebug ds <> 0 ->
  exists s', findRDebug m eEntry eDyn eInterp rsym s = Ok s' /\ sDtDebug s' = firstDebug ds /\ sObjs s' = sObjs s.
Proof.
  intros m eEntry eDyn eInterp rsym s e va fsz ds X D Dy F Sz Hm N. unfold findRDebug. rewrite X, D, Dy. cbn [Z.eqb dynSegs bind]. change (u64 (sEntry s - eEntry e)) with ((sEntry s - eEntry e) mod 2 ^ 64).
  rewrite (dtDebug_spec m va fsz _ ds F Sz Hm). cbn [bind sDtDebug setDt]. replace (firstDebug ds =? 0) with false by lia. cbn [andb]. eexists. repeat split.
Qed.
Print Assumptions C146_from_file.
(** If that gives nothing (no such segment, or no DT_DEBUG in it), from the interpreter: it is recorded at its base, and the address
    of its _r_debug taken. *)
Theorem C146_from_interpreter : forall m eEntry eDyn eInterp rsym s e dyn d,
  sExec s = Some e -> sDtDebug s = 0 -> sInterp s <> 0 -> eInterp e <> [] -> rsym = Some d ->
  (eDyn e = [] /\ dyn = [] \/ exists va, eDyn e = [(va, 16 * zlen dyn)] /\ Forall (fun d => wordOk (fst d) /\ wordOk (snd d)) dyn /\
     holds m ((va + (sEntry s - eEntry e) mod 2 ^ 64) mod 2 ^ 64) (auxBytes dyn)) -> firstDebug dyn = 0 ->
  exists s', findRDebug m eEntry eDyn eInterp rsym s = Ok s' /\ sDtDebug s' = d /\ sObjs s' = sObjs s ++ keepFirst (map fst (sObjs s)) [(sInterp s, eInterp e)].
Proof.
  intros m eEntry eDyn eInterp rsym s e dyn d X D I N -> Hd Z0. unfold findRDebug. rewrite X, D. cbn [Z.eqb].
  assert (E : dynSegs m (eDyn e) (u64 (sEntry s - eEntry e)) 0 = Ok 0).
  { destruct Hd as [[-> _]|(va & -> & F & Hm)]; [reflexivity|]. cbn [dynSegs]. change (u64 (sEntry s - eEntry e)) with ((sEntry s - eEntry e) mod 2 ^ 64). rewrite (dtDebug_spec m va _ _ dyn F eq_refl Hm). rewrite Z0. reflexivity. }
  rewrite E. cbn [bind sDtDebug setDt sInterp sObjs]. replace (sInterp s =? 0) with false by lia. cbn [Z.eqb negb andb]. destruct (list_eq_dec Z.eq_dec (eInterp e) []) as [Y|_]; [contradiction|].
  eexists. split; [reflexivity|]. cbn [sDtDebug setDt setObjs sObjs]. split; [reflexivity|]. pose proof (addObj_keep (sObjs s) (eInterp e) (sInterp s) []) as K. cbn [keepFirst] in K. rewrite app_nil_r in K. exact K.
Qed.
Print Assumptions C146_from_interpreter.
(** The interpreter is not looked at if the kernel gave no base for it, and none is if the program names none. *)
Theorem C146_no_interpreter : forall m eEntry eDyn eInterp rsym s e,
  sExec s = Some e -> sDtDebug s = 0 -> eDyn e = [] -> (sInterp s = 0 \/ eInterp e = []) ->
  exists s', findRDebug m eEntry eDyn eInterp rsym s = Ok s' /\ sDtDebug s' = 0 /\ sObjs s' = sObjs s.
Proof.
  intros m eEntry eDyn eInterp rsym s e X D Dy C. unfold findRDebug. rewrite X, D, Dy. cbn [Z.eqb dynSegs bind sDtDebug setDt sInterp]. destruct C as [-> | ->]; cbn [Z.eqb negb andb].
  - eexists. repeat split.
  - destruct (list_eq_dec Z.eq_dec [] []) as [_|N]; [|now elim N]. rewrite andb_false_r. eexists. repeat split.
Qed.
Print Assumptions C146_no_interpreter.
(** Nothing is searched for if the address is known. *)
Theorem C146_known : forall m eEntry eDyn eInterp rsym s, sDtDebug s <> 0 -> findRDebug m eEntry eDyn eInterp rsym s = Ok s.
Proof. intros m eEntry eDyn eInterp rsym s D. unfold findRDebug. destruct (sExec s); [|reflexivity]. replace (sDtDebug s =? 0) with false by lia. cbn [bind]. replace (sDtDebug s =? 0) with false by lia. reflexivity. Qed.
Print Assumptions C146_known.
(** Refuted: a dynamic segment of the file that is not in the process's memory (or is not a whole number of entries) is an exception that
    the search for the interpreter does not survive. *)
Theorem C146_unreadable_refuted : forall m eEntry eDyn eInterp rsym s e va fsz,
  sExec s = Some e -> sDtDebug s = 0 -> eDyn e = [(va, fsz)] ->
  (fsz mod 16 <> 0 \/ fsz = 16 /\ unreadable m ((va + (sEntry s - eEntry e) mod 2 ^ 64) mod 2 ^ 64) 16) ->
  findRDebug m eEntry eDyn eInterp rsym s = Throw.
Proof.
  intros m eEntry eDyn eInterp rsym s e va fsz X D Dy C. unfold findRDebug. rewrite X, D, Dy. cbn [Z.eqb dynSegs]. unfold dtDebug. destruct C as [C|[-> C]].
  - replace (fsz mod 16 =? 0) with false by lia. reflexivity.
  - change (16 mod 16 =? 0) with true. cbn [negb]. change (Z.to_nat (16 / 16)) with 1%nat. cbn [dynLoop]. change (u64 (va + u64 (sEntry s - eEntry e))) with ((va + (sEntry s - eEntry e) mod 2 ^ 64) mod 2 ^ 64).
    unfold obj. destruct (memread m _ 16) as [bs|] eqn:E; [|reflexivity]. apply memread_holds in E as [L E]. elim (C bs); [exact L|exact E].
Qed.
Print Assumptions C146_unreadable_refuted.
(** Refuted: of several dynamic segments the last decides, even if the first has the address and the last has none. *)
Theorem C146_last_segment_refuted : let m := memOf [(65536, auxBytes [(21, 4242); (0, 0)]); (131072, auxBytes [(0, 0)])] in
  exists s', findRDebug m (fun _ => 0) (fun _ => [(65536, 32); (131072, 16)]) (fun _ => []) None (mkSt 0 0 0 0 0 (Some 1) []) = Ok s' /\ sDtDebug s' = 0.
Proof. eexists. split; vm_compute; reflexivity. Qed.
Print Assumptions C146_last_segment_refuted.
(** Program linked at entry 464, started at 66000; dynamic segment at 1024. *)
Example C146_nonvacuous :
  let m := memOf [(66560, auxBytes [(5, 7); (21, 81920); (0, 0)])] in let m2 := memOf [(66560, auxBytes [(5, 7); (0, 0); (0, 0)])] in
  let s := mkSt 66000 196608 0 0 0 (Some 77) [] in
  findRDebug m (fun _ => 464) (fun _ => [(1024, 48)]) (fun _ => lit "/ld") None s = Ok (mkSt 66000 196608 0 81920 0 (Some 77) []) /\
  findRDebug m2 (fun _ => 464) (fun _ => [(1024, 48)]) (fun _ => lit "/ld") (Some 5) s = Ok (mkSt 66000 196608 0 5 0 (Some 77) [(196608, lit "/ld")]) /\
  holds m ((1024 + (66000 - 464) mod 2 ^ 64) mod 2 ^ 64) (auxBytes [(5, 7); (21, 81920); (0, 0)]).
Proof. split; [vm_compute; reflexivity|]. split; [vm_compute; reflexivity|]. vm_compute ((1024 + _) mod _). concrete_holds. Qed.
