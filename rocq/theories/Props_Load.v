(** C97-C103: the objects of a process. *)
From Coq Require Import Ascii String.
From Verif Require Import Base DwarfReader Reader ReaderArray CfiSpec CfiProofs Core ArgsSpec FrameTextSpec Load LoadSpec LoadProofs.
Open Scope Z_scope.

(** C97.  The NT_FILE note of a core file, wherever in the file it is and whatever follows it: every mapping
    is found, with its own name, in order.  Loading from it adds the mappings of the start of a file, at
    the address of the mapping, leaving out addresses at which there is an object already. *)
Theorem C97_file_note : forall m fuel pre pg es post len,
  let c := pre ++ fileNoteBytes pg es ++ post in
  Forall mappingOk es -> zlen c <= 2 ^ 63 -> 16 <= len < 2 ^ 63 -> (length c < fuel)%nat ->
  fileEntries fuel m (rview (RFile c) (zlen pre) len) = Ok (map (fun e => mkFE (mName e) (mStart e) (mEnd e) (mPgoff e)) es).
Proof. intros m fuel pre pg es post len c F H L Hf. exact (fileEntries_spec m fuel pre pg es post c len eq_refl H F L Hf). Qed.
Print Assumptions C97_file_note.
Theorem C97_file_objects : forall es os,
  addFileEntries (map (fun e => mkFE (mName e) (mStart e) (mEnd e) (mPgoff e)) es) os =
  os ++ keepFirst (map fst os) (map (fun e => (mStart e, mName e)) (filter (fun e => mPgoff e =? 0) es)).
Proof.
  intros es os. rewrite addFile_keep. f_equal. f_equal. induction es as [|e es IH]; [reflexivity|]. cbn [map filter feOff]. destruct (mPgoff e =? 0); cbn [map]; rewrite IH; reflexivity.
Qed.
Print Assumptions C97_file_objects.
(** "/a" twice (start, then 2 pages in) and "/bc" *)
Definition C97_es : list mapping := [mkMap [47; 97] 4096 8192 0; mkMap [47; 97] 8192 12288 2; mkMap [47; 98; 99] 65536 69632 0].
Example C97_nonvacuous :
  Forall mappingOk C97_es /\
  fileEntries 400 (fun _ => None) (rview (RFile ([1; 2; 3] ++ fileNoteBytes 4096 C97_es ++ [9; 9])) 3 98) = Ok (map (fun e => mkFE (mName e) (mStart e) (mEnd e) (mPgoff e)) C97_es) /\
  addFileEntries (map (fun e => mkFE (mName e) (mStart e) (mEnd e) (mPgoff e)) C97_es) [(65536, [1])] = [(65536, [1]); (4096, [47; 97])].
Proof. split; [repeat constructor; cbn; unfold wordOk; try lia; intuition lia|]. split; vm_compute; reflexivity. Qed.

(** C98, C99, C100.  A process with the auxiliary vector [l], its program headers [hs] at AT_PHDR, one
    PT_PHDR [p] and one PT_DYNAMIC [d] among them, the dynamic section [ds] in memory, and each note
    segment in memory starting with a note of [ns]. *)
Definition auxOk (l : list (Z * Z)) : Prop := Forall (fun e => fst e <> 0 /\ wordOk (fst e) /\ wordOk (snd e)) l.
Definition loadBias (l : list (Z * Z)) (p : phd) : Z := (lastOf 3 l 0 - hVaddr p) mod 2 ^ 64.
Record running (m : memory) (l : list (Z * Z)) (hs : list phd) (p d : phd) (ds : list (Z * Z)) (ns : list note) : Prop := {
  rAux : auxOk l;
  rPhdr : lastOf 3 l 0 <> 0;
  rPhnum : lastOf 5 l 0 = zlen hs;
  rHdrs : Forall phOk hs;
  rHdrsAt : holds m (lastOf 3 l 0) (flat_map phBytes hs);
  rP : ofType 6 hs = [p];
  rD : ofType 2 hs = [d];
  rDyn : Forall (fun e => wordOk (fst e) /\ wordOk (snd e)) ds;
  rDynSz : hFilesz d = 16 * zlen ds;
  rDynAt : holds m ((hVaddr d + loadBias l p) mod 2 ^ 64) (auxBytes ds);
  rNotes : Forall noteOk ns;
  rNotesAt : Forall2 (fun h n => holds m ((hVaddr h + loadBias l p) mod 2 ^ 64) (noteBytes n) /\ (hVaddr h + loadBias l p) mod 2 ^ 64 + 16 < 2 ^ 64) (ofType 4 hs) ns }.
(** The readable name of the last AT_EXECFN. *)
Definition execName (str : Z -> res (list Z)) (l : list (Z * Z)) : list Z :=
  last (flat_map (fun e => if fst e =? 31 then match str (snd e) with Ok t => [t] | _ => [] end else []) l) [].
Lemma lastName_execName str : forall l d, lastName str l d = last (flat_map (fun e => if fst e =? 31 then match str (snd e) with Ok t => [t] | _ => [] end else []) l) d.
Proof.
  unfold lastName. induction l as [|[t v] l IH]; intros d; [reflexivity|]. cbn [fold_left flat_map fst snd]. rewrite IH. destruct (t =? 31); [|reflexivity]. destruct (str v) as [x| | |]; try reflexivity. cbn [app].
  set (r := flat_map _ l). destruct r as [|y r]; [reflexivity|]. cbn [last]. clear. revert y. induction r as [|z r IH]; intros y; [reflexivity|apply IH].
Qed.
Definition firstOf {A} (a b : option A) : option A := match a with Some _ => a | None => b end.

(** C98.  Whatever else the process consists of. *)
Theorem C98_aux_vector : forall m str vdsoOk byName byId procExe fuel open l z rest s s',
  auxOk l -> wordOk z -> (forall a, str a <> UB /\ str a <> OutOfFuel) -> (length l < fuel)%nat ->
  processAUXV m str vdsoOk byName byId procExe fuel open (auxBytes (l ++ [(0, z)]) ++ rest) s = Ok s' ->
  sEntry s' = lastOf 9 l (sEntry s) /\
  sInterp s' = lastOf 7 l (sInterp s) /\
  sVdso s' = lastOf 33 (filter (fun e => vdsoOk (snd e)) l) (sVdso s) /\
  sObjs s' = sObjs s ++ keepFirst (map fst (sObjs s)) (map (fun e => (snd e, lit "(vdso image)")) (filter (fun e => (fst e =? 33) && vdsoOk (snd e)) l)).
Proof.
  intros m str vdsoOk byName byId procExe fuel open l z rest s s' F Hz ST L E. apply processAUXV_keeps in E as (s1 & n & po & pn & E & A1 & A2 & A3 & A4).
  replace (auxBytes (l ++ [(0, z)]) ++ rest) with (auxBytes l ++ auxBytes [(0, z)] ++ rest) in E by (unfold auxBytes; rewrite flat_map_app, <- app_assoc; reflexivity).
  rewrite (auxLoop_spec str vdsoOk l open rest fuel s [] 0 0 z F ST Hz L) in E. destruct (auxFold str vdsoOk l s [] 0 0) as (s2 & E2 & B1 & B2 & B3 & _ & _ & _ & B7). rewrite E2 in E. injection E as <- <- <- <-.
  split; [congruence|]. split; [congruence|]. split; [congruence|]. rewrite A4, B7. clear. generalize (sObjs s). induction l as [|e l IH]; intros os; cbn [fold_left filter map]; [now rewrite app_nil_r|]. rewrite IH. destruct ((fst e =? 33) && vdsoOk (snd e)); [|reflexivity]. cbn [map]. apply addObj_keep.
Qed.
Print Assumptions C98_aux_vector.
(** Nothing after the terminator, and no entry of another type, has an influence on anything. *)
Theorem C98_others_ignored : forall m str vdsoOk byName byId procExe fuel open l z rest s,
  auxOk l -> wordOk z -> (forall a, str a <> UB /\ str a <> OutOfFuel) -> (length l < fuel)%nat ->
  processAUXV m str vdsoOk byName byId procExe fuel open (auxBytes (l ++ [(0, z)]) ++ rest) s =
  processAUXV m str vdsoOk byName byId procExe fuel open (auxBytes (filter (fun e => if in_dec Z.eq_dec (fst e) [3; 5; 7; 9; 31; 33] then true else false) l ++ [(0, 0)])) s.
Proof.
  intros m str vdsoOk byName byId procExe fuel open l z rest s F Hz ST L. unfold processAUXV. set (p := fun e : Z * Z => if in_dec Z.eq_dec (fst e) [3; 5; 7; 9; 31; 33] then true else false).
  replace (auxBytes (l ++ [(0, z)]) ++ rest) with (auxBytes l ++ auxBytes [(0, z)] ++ rest) by (unfold auxBytes; rewrite flat_map_app, <- app_assoc; reflexivity).
  replace (auxBytes (filter p l ++ [(0, 0)])) with (auxBytes (filter p l) ++ auxBytes [(0, 0)] ++ []) by (unfold auxBytes; rewrite flat_map_app, app_nil_r; reflexivity).
  rewrite (auxLoop_spec str vdsoOk l open rest fuel s [] 0 0 z F ST Hz L). rewrite (auxLoop_spec str vdsoOk (filter p l) open [] fuel s [] 0 0 0).
  2:{ apply Forall_forall. intros x Hx. apply filter_In in Hx as [Hx _]. revert x Hx. now apply Forall_forall. }
  2: exact ST. 2: (unfold wordOk; lia).
  2:{ assert (X : (length (filter p l) <= length l)%nat); [|lia]. clear. induction l as [|e l IH]; [cbn; lia|]. cbn [filter length]. destruct (p e); cbn [length]; lia. }
  assert (G : forall x, fold_left (fun x e => auxStep str vdsoOk e x) (filter p l) x = fold_left (fun x e => auxStep str vdsoOk e x) l x).
  { clear. induction l as [|e l IH]; intros x; [reflexivity|]. cbn [filter fold_left]. unfold p at 1. destruct (in_dec Z.eq_dec (fst e) [3; 5; 7; 9; 31; 33]) as [I|N]; [apply IH|]. rewrite IH. f_equal.
    assert (Q : forall k, In k [3; 5; 7; 9; 31; 33] -> (fst e =? k) = false) by (intros k Hk; apply Z.eqb_neq; intros X; apply N; now rewrite X).
    destruct x as [[[s0 nm] po] pn]. unfold auxStep. rewrite !Q by (cbn; tauto). reflexivity. }
  now rewrite G.
Qed.
Print Assumptions C98_others_ignored.
Theorem C99_loads : forall m str vdsoOk byName byId procExe fuel open l z rest s hs p d ds ns,
  running m l hs p d ds ns -> wordOk z -> (forall a, str a <> UB /\ str a <> OutOfFuel) -> (length l < fuel)%nat -> sDtDebug s = 0 ->
  exists s', processAUXV m str vdsoOk byName byId procExe fuel open (auxBytes (l ++ [(0, z)]) ++ rest) s = Ok s' /\
  sExecBase s' = (lastOf 3 l 0 - hVaddr p) mod 2 ^ 64 /\ sDtDebug s' = firstDebug ds.
Proof.
  intros m str vdsoOk byName byId procExe fuel open l z rest s hs p d ds ns [] Hz ST L D0.
  destruct (processAUXV_spec m str vdsoOk byName byId procExe open l rest z s hs p d ds ns fuel) as (s' & E & _ & _ & _ & _ & A1 & A2 & _); try assumption. exists s'. split.
  { rewrite <- E. f_equal. unfold auxBytes. rewrite flat_map_app, <- app_assoc. reflexivity. }
  split; assumption.
Qed.
Print Assumptions C99_loads.
(** The last header of a type, if there is one. *)
Definition lastType (t : Z) (hs : list phd) : option phd := last (map Some (ofType t hs)) None.
Lemma last_app_one {A} (l : list A) x d : last (l ++ [x]) d = x.
Proof. induction l as [|y l IH]; [reflexivity|]. cbn [app last]. rewrite IH. destruct (l ++ [x]) eqn:E; [now destruct l|reflexivity]. Qed.
Lemma fold_lastType {B} t (f : phd -> B) : forall hs d, fold_left (fun b h => if hType h =? t then f h else b) hs d = match lastType t hs with Some h => f h | None => d end.
Proof.
  induction hs as [|h hs IH] using rev_ind; intros d; [reflexivity|]. rewrite fold_left_app. cbn [fold_left]. rewrite IH. unfold lastType, ofType. rewrite filter_app. cbn [filter]. destruct (hType h =? t).
  - rewrite map_app. cbn [map]. now rewrite last_app_one.
  - now rewrite app_nil_r.
Qed.
(** Headers that are read until the first that is not in memory. *)
Lemma phLoop_prefix m phOff : forall hs k a base notes dyn, Forall phOk hs -> holds m a (flat_map phBytes hs) -> (k = O \/ unreadable m (a + 56 * zlen hs) 56) ->
  phLoop m (length hs + k) phOff a base notes dyn = phLoop m (length hs) phOff a base notes dyn.
Proof.
  induction hs as [|h hs IH]; intros k a base notes dyn F H U.
  - cbn [length Nat.add phLoop]. destruct U as [->|U]; [reflexivity|]. destruct k as [|k]; [reflexivity|]. cbn [phLoop]. unfold obj. destruct (memread m a 56) as [bs|] eqn:E; [|reflexivity]. exfalso. apply memread_holds in E as [E1 E2]. change (zlen (@nil phd)) with 0 in U. rewrite Z.mul_0_r, Z.add_0_r in U. exact (U bs E1 E2).
  - apply Forall_cons_iff in F as [_ F]. cbn [flat_map] in H. apply holds_app in H as [H1 H2]. replace (zlen (phBytes h)) with 56 in H2 by (unfold zlen; now rewrite phBytes_len).
    cbn [length Nat.add phLoop]. rewrite (obj_holds m a (phBytes h) 56 H1) by (now rewrite phBytes_len). cbv zeta. rewrite zlen_cons in U. replace (a + 56 * (zlen hs + 1)) with (a + 56 + 56 * zlen hs) in U by lia.
    destruct (half (phBytes h) 0 =? 6); [now apply IH|]. destruct (half (phBytes h) 0 =? 4); [now apply IH|]. destruct (half (phBytes h) 0 =? 2); now apply IH.
Qed.
Lemma dynLoop_prefix m : forall ds k a, Forall (fun d => wordOk (fst d) /\ wordOk (snd d)) ds -> holds m a (auxBytes ds) -> firstDebug ds <> 0 -> dynLoop m (length ds + k) a = Ok (firstDebug ds).
Proof.
  induction ds as [|[t v] ds IH]; intros k a F H N; [now elim N|]. apply Forall_cons_iff in F as [[Wt Wv] F]. cbn [fst snd] in *. unfold auxBytes in H. cbn [flat_map fst snd] in H. apply holds_app in H as [H1 H2]. cbn [dynLoop length Nat.add].
  rewrite (obj_holds m a _ 16 H1) by (rewrite app_length, !leBytes_length; reflexivity). cbn [bind]. rewrite word_at0 by assumption.
  assert (W8 : Load.word (leBytes 8 t ++ leBytes 8 v) 8 = v) by (rewrite <- (app_nil_r (leBytes 8 v)); exact (word_at (leBytes 8 t) v [] 8 (leBytes_len 8 t) Wv)). rewrite W8. clear W8.
  unfold firstDebug in *. cbn [find fst snd] in *. destruct ((t =? 21) && negb (v =? 0)); [reflexivity|]. apply IH; [exact F| |exact N]. rewrite zlen_app, !leBytes_len in H2. exact H2.
Qed.
(** Whatever program headers there are, as far as they are in memory ([hs]: all of them, or those before the first that is not): the load address comes from
    PT_PHDR (without one it stays what it was), DT_DEBUG is the first that is not zero of the dynamic section ([ds]: all of it, or a part of it that has one). *)
Theorem C99_base_and_debug : forall m str vdsoOk byName byId procExe fuel open l z rest s s' hs,
  auxOk l -> wordOk z -> (forall a, str a <> UB /\ str a <> OutOfFuel) -> (length l < fuel)%nat -> lastOf 3 l 0 <> 0 ->
  Forall phOk hs -> holds m (lastOf 3 l 0) (flat_map phBytes hs) ->
  (lastOf 5 l 0 = zlen hs \/ zlen hs < lastOf 5 l 0 /\ unreadable m (lastOf 3 l 0 + 56 * zlen hs) 56) ->
  processAUXV m str vdsoOk byName byId procExe fuel open (auxBytes (l ++ [(0, z)]) ++ rest) s = Ok s' ->
  sExecBase s' = match lastType 6 hs with Some p => (lastOf 3 l 0 - hVaddr p) mod 2 ^ 64 | None => sExecBase s end /\
  (sDtDebug s <> 0 \/ lastType 2 hs = None -> sDtDebug s' = sDtDebug s) /\
  (forall d ds, sDtDebug s = 0 -> lastType 2 hs = Some d -> Forall (fun e => wordOk (fst e) /\ wordOk (snd e)) ds ->
    holds m ((hVaddr d + sExecBase s') mod 2 ^ 64) (auxBytes ds) -> (hFilesz d = 16 * zlen ds \/ 16 * zlen ds <= hFilesz d /\ firstDebug ds <> 0) ->
    sDtDebug s' = firstDebug ds).
Proof.
  intros m str vdsoOk byName byId procExe fuel open l z rest s s' hs F Hz ST L P3 Fh Hh Hn E. unfold processAUXV in E.
  replace (auxBytes (l ++ [(0, z)]) ++ rest) with (auxBytes l ++ auxBytes [(0, z)] ++ rest) in E by (unfold auxBytes; rewrite flat_map_app, <- app_assoc; reflexivity).
  rewrite (auxLoop_spec str vdsoOk l open rest fuel s [] 0 0 z F ST Hz L) in E. destruct (auxFold str vdsoOk l s [] 0 0) as (s1 & E0 & E1 & E2 & E3 & E4 & E5 & E6 & E7). rewrite E0 in E. cbn [bind] in E. clear E0.
  replace (lastOf 3 l 0 =? 0) with false in E by lia. cbn [orb] in E. pose proof (zlen_nonneg hs) as ZH.
  destruct (Z.eqb_spec (lastOf 5 l 0) 0) as [N0|N0].
  - assert (hs = []) as -> by (destruct hs as [|h hs]; [reflexivity|]; rewrite zlen_cons in *; pose proof (zlen_nonneg hs); lia). cbn [bind] in E. injection E as <-. cbn [setExec sExecBase sDtDebug lastType ofType filter map last].
    split; [exact E5|]. split; [intros _; exact E4|]. intros d ds _ X. discriminate X.
  - assert (EN : exists k, Z.to_nat (lastOf 5 l 0) = (length hs + k)%nat /\ (k = O \/ unreadable m (lastOf 3 l 0 + 56 * zlen hs) 56)).
    { exists (Z.to_nat (lastOf 5 l 0 - zlen hs)). unfold zlen in *. split; [lia|]. destruct Hn as [X|[X Y]]; [left; lia|right; exact Y]. }
    destruct EN as (k & EN & U). rewrite EN, (phLoop_prefix m _ hs k _ _ _ _ Fh Hh U), (phLoop_spec m (lastOf 3 l 0) hs _ _ _ _ Fh Hh) in E.
    rewrite (fold_lastType 6 (fun h => u64 (lastOf 3 l 0 - hVaddr h))), (fold_lastType 2 (fun h => Some (hVaddr h, hFilesz h))) in E. rewrite E5 in E.
    set (base := match lastType 6 hs with Some p => u64 (lastOf 3 l 0 - hVaddr p) | None => sExecBase s end) in *. cbv beta iota in E. cbn [sDtDebug setBase app] in E. rewrite E4 in E.
    match type of E with (let* s3 := ?r in _) = _ => destruct r as [s3| | |] eqn:E3' end; cbn [bind] in E; try discriminate. injection E as <-. cbn [setExec sExecBase sDtDebug].
    assert (K : forall s2 r, (match sExec s2 with Some _ => Ok s2 | None => r end) = Ok s3 -> (forall t, r = Ok t -> sExecBase t = sExecBase s2 /\ sDtDebug t = sDtDebug s2) -> sExecBase s3 = sExecBase s2 /\ sDtDebug s3 = sDtDebug s2).
    { intros s2 r X Y. destruct (sExec s2); [injection X as ->; split; reflexivity|exact (Y s3 X)]. }
    assert (K2 : forall s2 t, (let* id := noteLoop m (map hVaddr (ofType 4 hs)) base in Ok (setExec s2 (match id with Some i => byId i | None => None end))) = Ok t -> sExecBase t = sExecBase s2 /\ sDtDebug t = sDtDebug s2).
    { intros s2 t X. destruct (noteLoop m _ base); cbn [bind] in X; try discriminate. injection X as <-. split; reflexivity. }
    destruct (lastType 2 hs) as [d|] eqn:ED.
    + destruct (Z.eqb_spec (sDtDebug s) 0) as [D0|D0].
      * destruct (dtDebug m (hVaddr d) (hFilesz d) base) as [v| | |] eqn:EV; cbn [bind] in E3'; try discriminate. apply K in E3' as [B1 B2]; [|intros t; apply K2]. cbn [setDt setBase sExecBase sDtDebug] in B1, B2.
        split; [exact B1|]. split; [intros [X|X]; [contradiction|discriminate X]|]. intros d0 ds _ X Fd Hd C. injection X as <-. rewrite B2. rewrite B1 in Hd.
        destruct C as [C|[C1 C2]]; [rewrite (dtDebug_spec m _ _ base ds Fd C Hd) in EV; now injection EV|].
        unfold dtDebug in EV. destruct (Z.eqb_spec (hFilesz d mod 16) 0) as [M|M]; cbn [negb] in EV; [|discriminate].
        assert (EK : exists k', Z.to_nat (hFilesz d / 16) = (length ds + k')%nat) by (exists (Z.to_nat (hFilesz d / 16 - zlen ds)); assert (zlen ds <= hFilesz d / 16) by (apply Z.div_le_lower_bound; lia); unfold zlen in *; lia).
        destruct EK as [k' EK]. rewrite EK in EV; change (u64 (hVaddr d + base)) with ((hVaddr d + base) mod 2 ^ 64) in EV; rewrite (dynLoop_prefix m ds k' _ Fd Hd C2) in EV. now injection EV.
      * apply K in E3' as [B1 B2]; [|intros t; apply K2]. cbn [setBase sExecBase sDtDebug] in B1, B2. split; [exact B1|]. split; [intros _; congruence|]. intros d0 ds X. contradiction.
    + cbn [bind] in E3'. apply K in E3' as [B1 B2]; [|intros t; apply K2]. cbn [setBase sExecBase sDtDebug] in B1, B2. split; [exact B1|]. split; [intros _; congruence|]. intros d0 ds _ X. discriminate X.
Qed.
Print Assumptions C99_base_and_debug.
Theorem C100_executable_partial : forall m str vdsoOk byName byId procExe fuel open l z rest s hs p d ds ns,
  running m l hs p d ds ns -> wordOk z -> (forall a, str a <> UB /\ str a <> OutOfFuel) -> (length l < fuel)%nat -> sDtDebug s = 0 ->
  exists s', processAUXV m str vdsoOk byName byId procExe fuel open (auxBytes (l ++ [(0, z)]) ++ rest) s = Ok s' /\
  sExec s' = firstOf (sExec s)
            (firstOf (match find isBuildId ns with Some n => byId (nDesc n) | None => None end)
            (firstOf (match execName str l with [] => None | t => byName t end)
                     procExe)).
Proof.
  intros m str vdsoOk byName byId procExe fuel open l z rest s hs p d ds ns [] Hz ST L D0.
  destruct (processAUXV_spec m str vdsoOk byName byId procExe open l rest z s hs p d ds ns fuel) as (s' & E & _ & _ & _ & _ & _ & _ & A); try assumption. exists s'. split.
  { rewrite <- E. f_equal. unfold auxBytes. rewrite flat_map_app, <- app_assoc. reflexivity. }
  rewrite A. unfold buildId. rewrite lastName_execName. fold (execName str l). destruct (sExec s); [reflexivity|]. cbn [orElse firstOf]. destruct (find isBuildId ns) as [n|]; cbn [option_map].
  - destruct (byId (nDesc n)); [reflexivity|]. destruct (list_eq_dec Z.eq_dec (execName str l) []) as [->|N]; [reflexivity|]. destruct (execName str l); [now elim N|]. cbn [orElse firstOf]. destruct (byName _); reflexivity.
  - destruct (list_eq_dec Z.eq_dec (execName str l) []) as [->|N]; [reflexivity|]. destruct (execName str l); [now elim N|]. cbn [orElse firstOf]. destruct (byName _); reflexivity.
Qed.
Print Assumptions C100_executable_partial.

(** A program linked at 0 and loaded at 0x10000: headers at +64; dynamic section at +0x400, notes at +0x500. *)
Definition memOf (l : list (Z * list Z)) : memory := fun a =>
  match find (fun e => (fst e <=? a) && (a <? fst e + zlen (snd e))) l with
  | Some e => znth (a - fst e) (snd e)
  | None => None
  end.
Definition C98_hs : list phd := [mkPhd 6 4 64 64 64 168 168 8; mkPhd 2 6 1024 1024 1024 48 48 8; mkPhd 4 4 1280 1280 1280 36 36 4].
Definition C98_ds : list (Z * Z) := [(1, 7); (21, 81920); (0, 0)].
Definition C98_note : note := mkNote [71; 78; 85; 0] 3 [171; 205].
Definition C98_mem : memory := memOf [(65600, flat_map phBytes C98_hs); (66560, auxBytes C98_ds); (66816, noteBytes C98_note)].
Definition C98_aux : list (Z * Z) := [(33, 131072); (3, 65600); (5, 3); (7, 196608); (9, 66000); (31, 5000)].
Definition C98_str (a : Z) : res (list Z) := if a =? 5000 then Ok [47; 120] else Throw.
Fixpoint holdsb (m : memory) (a : Z) (bs : list Z) : bool :=
  match bs with
  | [] => true
  | b :: r => match m a with Some x => (x =? b) && holdsb m (a + 1) r | None => false end
  end.
Lemma holds_dec (m : memory) : forall bs a, holdsb m a bs = true -> holds m a bs.
Proof.
  induction bs as [|b bs IH]; intros a H i Hi; [change (zlen (@nil Z)) with 0 in Hi; lia|]. cbn [holdsb] in H. destruct (m a) as [x|] eqn:E; [|discriminate]. apply andb_prop in H as [H1 H2]. rewrite zlen_cons in Hi. cbn [znth].
  destruct (Z.eqb_spec i 0) as [->|N]; [rewrite Z.add_0_r, E; f_equal; lia|]. replace (i <? 0) with false by lia. rewrite <- (IH (a + 1) H2) by lia. f_equal. lia.
Qed.
Ltac concrete_holds := apply holds_dec; vm_compute; reflexivity.
Lemma C98_running : running C98_mem C98_aux C98_hs (mkPhd 6 4 64 64 64 168 168 8) (mkPhd 2 6 1024 1024 1024 48 48 8) C98_ds [C98_note].
Proof.
  split; try reflexivity; try discriminate.
  - repeat (apply Forall_cons || apply Forall_nil); cbn [fst snd]; unfold wordOk; repeat split; lia.
  - repeat (apply Forall_cons || apply Forall_nil); unfold phOk, wordOk; cbn; repeat split; lia.
  - concrete_holds.
  - repeat (apply Forall_cons || apply Forall_nil); unfold wordOk; cbn [fst snd]; repeat split; lia.
  - concrete_holds.
  - repeat (apply Forall_cons || apply Forall_nil). unfold noteOk. split; [cbn; lia|]. split; [vm_compute; reflexivity|]. split; [vm_compute; reflexivity|]. intros _. exists [71; 78; 85]. reflexivity.
  - apply Forall2_cons; [|constructor]. split; [concrete_holds|vm_compute; reflexivity].
Qed.
Example C98_nonvacuous :
  processAUXV C98_mem C98_str (fun _ => true) (fun _ => None) (fun i => if list_eq_dec Z.eq_dec i [171; 205] then Some 77 else None) None 10 false (auxBytes (C98_aux ++ [(0, 0)])) (initSt (fun _ => 0) None) =
  Ok (mkSt 66000 196608 131072 81920 65536 (Some 77) [(131072, lit "(vdso image)")]).
Proof. vm_compute. reflexivity. Qed.
(** five headers announced, three of them in memory; and a program without PT_PHDR and PT_DYNAMIC *)
Example C99_case :
  unreadable C98_mem (65600 + 56 * 3) 56 /\
  processAUXV C98_mem C98_str (fun _ => true) (fun _ => None) (fun _ => None) None 10 false (auxBytes ([(3, 65600); (5, 5); (9, 66000)] ++ [(0, 0)])) (initSt (fun _ => 0) None) =
  Ok (mkSt 66000 0 0 81920 65536 None []) /\
  processAUXV (memOf [(65600, phBytes (mkPhd 1 5 0 0 0 4096 4096 4096))]) C98_str (fun _ => true) (fun _ => None) (fun _ => None) None 10 false (auxBytes ([(3, 65600); (5, 1); (9, 66000)] ++ [(0, 0)])) (initSt (fun _ => 0) None) =
  Ok (mkSt 66000 0 0 0 0 None []).
Proof.
  split; [|split; vm_compute; reflexivity]. intros bs L H. specialize (H 0 ltac:(lia)). destruct bs as [|b bs]; [discriminate L|]. cbn [znth Z.eqb] in H. discriminate H.
Qed.
(** without the image of that build ID, the name is used *)
Example C100_nonvacuous :
  processAUXV C98_mem C98_str (fun _ => true) (fun n => if list_eq_dec Z.eq_dec n [47; 120] then Some 78 else None) (fun _ => None) (Some 1) 10 false (auxBytes (C98_aux ++ [(0, 0)])) (initSt (fun _ => 0) None) =
  Ok (mkSt 66000 196608 131072 81920 65536 (Some 78) [(131072, lit "(vdso image)")]).
Proof. vm_compute. reflexivity. Qed.
(** Refuted (C100): only the first note of a segment is looked at.  The segment here holds an ABI tag
    (GNU, 1) and then the build ID, a common layout: the image known by that build ID is not found. *)
Definition C100_abi : note := mkNote [71; 78; 85; 0] 1 [0; 0; 0; 0].
Theorem C100_second_note_refuted :
  holds (memOf [(65600, flat_map phBytes C98_hs); (66560, auxBytes C98_ds); (66816, noteBytes C100_abi ++ noteBytes C98_note)]) 66816 (noteBytes C100_abi ++ noteBytes C98_note) /\
  forall byId, exists s',
  processAUXV (memOf [(65600, flat_map phBytes C98_hs); (66560, auxBytes C98_ds); (66816, noteBytes C100_abi ++ noteBytes C98_note)])
    (fun _ => Throw) (fun _ => true) (fun _ => None) byId None 10 false (auxBytes (C98_aux ++ [(0, 0)])) (initSt (fun _ => 0) None) = Ok s' /\ sExec s' = None.
Proof. split; [concrete_holds|]. intros byId. eexists. split; [lazy; reflexivity|]. reflexivity. Qed.
(** Refuted (C100): a note of type 3 with an empty name (n_namesz = 0) is read at name[-1]. *)
Theorem C100_empty_name_refuted :
  processAUXV (memOf [(65600, flat_map phBytes C98_hs); (66560, auxBytes C98_ds); (66816, noteBytes (mkNote [] 3 []))])
    (fun _ => Throw) (fun _ => true) (fun _ => None) (fun _ => None) None 10 false (auxBytes (C98_aux ++ [(0, 0)])) (initSt (fun _ => 0) None) = UB.
Proof. vm_compute. reflexivity. Qed.

(** C101.  The link map: the executable at the address its first entry says, then every object with a
    name, besides the vdso, at its own address. *)
Theorem C101_link_map : forall m str eEntry fuel rd first s addr0 name0 l,
  rDebugAt m rd first -> linkMap m str first ((first, addr0, name0) :: l) -> (1 + length l < fuel)%nat ->
  exists s', loadShared m str eEntry fuel rd s = (s', Ok tt) /\
  sObjs s' = sObjs s ++ keepFirst (map fst (sObjs s)) ((match sExec s with Some _ => [(addr0, lit "(exe)")] | None => [] end) ++ listed (sVdso s) l).
Proof. intros m str eEntry fuel rd first s addr0 name0 l R L Hf. destruct (loadShared_spec m str eEntry fuel rd first s first addr0 name0 l 0 R L (or_introl eq_refl) Hf) as (s' & E & O1 & _). exists s'. split; assumption. Qed.
Print Assumptions C101_link_map.
Definition lmBytes (addr nm next : Z) : list Z := leBytes 8 addr ++ leBytes 8 nm ++ leBytes 8 0 ++ leBytes 8 next ++ leBytes 8 0.
(** exe, vdso, libc "/c", and the interpreter "/i" *)
Definition C101_mem : memory := memOf
  [(81920, leBytes 8 1 ++ leBytes 8 1000 ++ leBytes 8 0 ++ leBytes 8 0 ++ leBytes 8 0);
   (1000, lmBytes 65536 500 1100); (1100, lmBytes 131072 501 1200); (1200, lmBytes 300000 502 1300); (1300, lmBytes 196608 503 0)].
Definition C101_str (a : Z) : res (list Z) :=
  if a =? 500 then Ok [] else if a =? 501 then Ok [118] else if a =? 502 then Ok [47; 99] else if a =? 503 then Ok [47; 105] else Throw.
Lemma C101_map : rDebugAt C101_mem 81920 1000 /\ linkMap C101_mem C101_str 1000 [(1000, 65536, []); (1100, 131072, [118]); (1200, 300000, [47; 99]); (1300, 196608, [47; 105])].
Proof.
  split.
  - split; [unfold wordOk; lia|]. exists 1, 0, 0, 0. concrete_holds.
  - apply (lpCons _ _ 1000 65536 500 0 1100 0); try (unfold wordOk; lia); [concrete_holds|right; split; [lia|reflexivity]|].
    apply (lpCons _ _ 1100 131072 501 0 1200 0); try (unfold wordOk; lia); [concrete_holds|right; split; [lia|reflexivity]|].
    apply (lpCons _ _ 1200 300000 502 0 1300 0); try (unfold wordOk; lia); [concrete_holds|right; split; [lia|reflexivity]|].
    apply (lpCons _ _ 1300 196608 503 0 0 0); try (unfold wordOk; lia); [concrete_holds|right; split; [lia|reflexivity]|]. apply lpEnd.
Qed.
Example C101_nonvacuous :
  loadShared C101_mem C101_str (fun _ => 464) 6 81920 (mkSt 66000 196608 131072 81920 65536 (Some 77) [(131072, lit "(vdso image)")]) =
  (mkSt 66000 196608 131072 81920 65536 (Some 77) [(131072, lit "(vdso image)"); (65536, lit "(exe)"); (300000, [47; 99]); (196608, [47; 105])], Ok tt).
Proof. vm_compute. reflexivity. Qed.
(** Refuted: a link map that runs into itself (a process stopped while changing it, a corrupt core) is
    followed for ever. *)
Definition C101_loop : memory := memOf [(81920, leBytes 8 1 ++ leBytes 8 1000 ++ leBytes 8 0 ++ leBytes 8 0 ++ leBytes 8 0); (1000, lmBytes 65536 0 1100); (1100, lmBytes 5 0 1100)].
Theorem C101_cycle_refuted : forall str eEntry fuel s, snd (loadShared C101_loop str eEntry fuel 81920 s) = OutOfFuel.
Proof.
  intros str eEntry fuel s. unfold loadShared. replace (obj C101_loop 81920 40) with (Ok (leBytes 8 1 ++ leBytes 8 1000 ++ leBytes 8 0 ++ leBytes 8 0 ++ leBytes 8 0)) by (vm_compute; reflexivity).
  replace (word (leBytes 8 1 ++ leBytes 8 1000 ++ leBytes 8 0 ++ leBytes 8 0 ++ leBytes 8 0) 8) with 1000 by (vm_compute; reflexivity).
  assert (E1 : obj C101_loop 1100 40 = Ok (lmBytes 5 0 1100)) by (vm_compute; reflexivity). assert (E0 : obj C101_loop 1000 40 = Ok (lmBytes 65536 0 1100)) by (vm_compute; reflexivity).
  assert (W1 : word (lmBytes 5 0 1100) 0 = 5 /\ word (lmBytes 5 0 1100) 8 = 0 /\ word (lmBytes 5 0 1100) 24 = 1100) by (vm_compute; repeat split).
  assert (W0 : word (lmBytes 65536 0 1100) 24 = 1100) by (vm_compute; reflexivity).
  assert (G : forall n s, snd (linkLoop C101_loop str eEntry n 1000 1100 s) = OutOfFuel).
  { induction n as [|n IH]; intros t; [reflexivity|]. cbn [linkLoop Z.eqb Pos.eqb]. rewrite E1. cbv zeta. destruct W1 as (-> & -> & ->). change (0 =? 0) with true. cbv iota. destruct (negb (sVdso t =? 0) && (5 =? sVdso t)); apply IH. }
  destruct fuel as [|n]; [reflexivity|]. cbn [linkLoop Z.eqb Pos.eqb]. rewrite E0. cbv zeta. rewrite W0. destruct (sExec s); apply G.
Qed.
Print Assumptions C101_cycle_refuted.

(** C102.  Loading.  If the program is found and the address of the link map is known and readable, the
    objects are those of the link map; if the link map cannot be read, a core's NT_FILE mappings are added
    to what had been found. *)
Theorem C102_load_link_map : forall m str vdsoOk byName byId procExe eEntry eDyn eInterp rdebugSym fuel aux fileNote s s0 first addr0 name0 l,
  (match aux with Some (open, bs) => processAUXV m str vdsoOk byName byId procExe fuel open bs s | None => Ok s end) = Ok s0 ->
  sDtDebug s0 <> 0 -> sDtDebug s0 <> 2 ^ 64 - 1 ->
  rDebugAt m (sDtDebug s0) first -> linkMap m str first ((first, addr0, name0) :: l) -> (1 + length l < fuel)%nat ->
  exists s', load m str vdsoOk byName byId procExe eEntry eDyn eInterp rdebugSym fuel aux fileNote s = Ok s' /\
  sObjs s' = sObjs s0 ++ keepFirst (map fst (sObjs s0)) ((match sExec s0 with Some _ => [(addr0, lit "(exe)")] | None => [] end) ++ listed (sVdso s0) l).
Proof.
  intros m str vdsoOk byName byId procExe eEntry eDyn eInterp rdebugSym fuel aux fileNote s s0 first addr0 name0 l A N0 N1 R L Hf. unfold load. rewrite A. cbn [bind].
  assert (FR : findRDebug m eEntry eDyn eInterp rdebugSym s0 = Ok s0) by (unfold findRDebug; destruct (sExec s0); [|reflexivity]; replace (sDtDebug s0 =? 0) with false by lia; cbn [bind]; replace (sDtDebug s0 =? 0) with false by lia; reflexivity).
  rewrite FR. replace (sDtDebug s0 =? 0) with false by lia. replace (sDtDebug s0 =? W64 - 1) with false by (unfold W64; lia). cbn [orb].
  destruct (C101_link_map m str eEntry fuel (sDtDebug s0) first s0 addr0 name0 l R L Hf) as (s' & E & O1). rewrite E. exists s'. split; [reflexivity|exact O1].
Qed.
Print Assumptions C102_load_link_map.
(** The link map cannot be read: either there is nothing where DT_DEBUG points, or the list leads to an
    address where there is no entry.  Partial: a name that cannot be read has the same effect. *)
Theorem C102_fallback_partial : forall m str vdsoOk byName byId procExe eEntry eDyn eInterp rdebugSym fuel aux es s s0 found,
  (match aux with Some (open, bs) => processAUXV m str vdsoOk byName byId procExe fuel open bs s | None => Ok s end) = Ok s0 ->
  sDtDebug s0 <> 0 -> sDtDebug s0 <> 2 ^ 64 - 1 ->
  (unreadable m (sDtDebug s0) 40 /\ found = [] \/
   exists first addr0 name0 l b, rDebugAt m (sDtDebug s0) first /\ linkPath m str first ((first, addr0, name0) :: l) b /\ b <> 0 /\ unreadable m b 40 /\ (1 + length l < fuel)%nat /\
     found = (match sExec s0 with Some _ => [(addr0, lit "(exe)")] | None => [] end) ++ listed (sVdso s0) l) ->
  exists s', load m str vdsoOk byName byId procExe eEntry eDyn eInterp rdebugSym fuel aux (Some (Ok (map (fun e => mkFE (mName e) (mStart e) (mEnd e) (mPgoff e)) es))) s = Ok s' /\
  sObjs s' = sObjs s0 ++ keepFirst (map fst (sObjs s0)) (found ++ map (fun e => (mStart e, mName e)) (filter (fun e => mPgoff e =? 0) es)).
Proof.
  intros m str vdsoOk byName byId procExe eEntry eDyn eInterp rdebugSym fuel aux es s s0 found A N0 N1 C. unfold load. rewrite A. cbn [bind].
  assert (FR : findRDebug m eEntry eDyn eInterp rdebugSym s0 = Ok s0) by (unfold findRDebug; destruct (sExec s0); [|reflexivity]; replace (sDtDebug s0 =? 0) with false by lia; cbn [bind]; replace (sDtDebug s0 =? 0) with false by lia; reflexivity).
  rewrite FR. replace (sDtDebug s0 =? 0) with false by lia. replace (sDtDebug s0 =? W64 - 1) with false by (unfold W64; lia). cbn [orb]. destruct C as [[U ->]|(first & addr0 & name0 & l & b & R & L & Nb & U & Hf & ->)].
  - unfold loadShared. rewrite (unreadable_obj _ _ U). eexists. split; [reflexivity|]. cbn [sObjs setObjs app]. apply C97_file_objects.
  - destruct (loadShared_spec m str eEntry fuel (sDtDebug s0) first s0 first addr0 name0 l b R L (or_intror (unreadable_obj _ _ U)) Hf) as (s' & E & O1 & _). rewrite E. unfold endOf. replace (b =? 0) with false by lia.
    eexists. split; [reflexivity|]. cbn [sObjs setObjs]. rewrite C97_file_objects, O1. apply keepFirst_app.
Qed.
Print Assumptions C102_fallback_partial.
(** The second entry of the list above is not in the core; the file mappings complete the picture, leaving
    the executable where it is. *)
Definition C102_mem : memory := memOf
  [(81920, leBytes 8 1 ++ leBytes 8 1000 ++ leBytes 8 0 ++ leBytes 8 0 ++ leBytes 8 0); (1000, lmBytes 65536 500 1100)].
Example C102_nonvacuous :
  unreadable C102_mem 1100 40 /\ linkPath C102_mem C101_str 1000 [(1000, 65536, [])] 1100 /\
  load C102_mem C101_str (fun _ => true) (fun _ => None) (fun _ => None) None (fun _ => 0) (fun _ => []) (fun _ => []) None 5 None
    (Some (Ok (map (fun e => mkFE (mName e) (mStart e) (mEnd e) (mPgoff e)) C97_es))) (mkSt 66000 0 0 81920 65536 (Some 77) []) =
  Ok (mkSt 66000 0 0 81920 65536 (Some 77) [(65536, lit "(exe)"); (4096, [47; 97])]).
Proof.
  split; [intros bs L H; specialize (H 0 ltac:(lia)); destruct bs; [discriminate L|discriminate H]|]. split; [|vm_compute; reflexivity].
  apply (lpCons _ _ 1000 65536 500 0 1100 0); try (unfold wordOk; lia); [concrete_holds|right; split; [lia|reflexivity]|apply lpEnd].
Qed.
(** Refuted: if it is the program's dynamic section itself that is missing from the core, the exception
    leaves processAUXV, which is outside the try block: nothing is loaded although the NT_FILE note is
    there. *)
Theorem C102_missing_dynamic_refuted : forall str byName byId procExe eEntry eDyn eInterp rdebugSym fileNote s, sDtDebug s = 0 ->
  load (memOf [(65600, flat_map phBytes C98_hs); (66816, noteBytes C98_note)]) str (fun _ => true) byName byId procExe eEntry eDyn eInterp rdebugSym 10
    (Some (false, auxBytes [(3, 65600); (5, 3); (0, 0)])) fileNote s = Throw.
Proof.
  intros str byName byId procExe eEntry eDyn eInterp rdebugSym fileNote s D. unfold load, processAUXV. set (m := memOf _).
  assert (A : auxLoop str (fun _ => true) 10 false (auxBytes [(3, 65600); (5, 3); (0, 0)]) s [] 0 0 = Ok (s, [], 65600, 3)) by (lazy; reflexivity). rewrite A. cbn [bind Z.eqb orb].
  assert (P : forall b, phLoop m (Z.to_nat 3) 65600 65600 b [] None = (65536, [1280], Some (1024, 48))) by (intros b; lazy; reflexivity). rewrite P. cbn [setBase sDtDebug]. rewrite D. cbn [Z.eqb].
  assert (T : dtDebug m 1024 48 65536 = Throw) by (vm_compute; reflexivity). rewrite T. reflexivity.
Qed.
Print Assumptions C102_missing_dynamic_refuted.

(** C103.  A program without a dynamic linker: its image is the one object, at address 0. *)
Theorem C103_static_partial : forall m str vdsoOk byName byId procExe eEntry eDyn eInterp rdebugSym fuel aux fileNote s s0 e,
  (match aux with Some (open, bs) => processAUXV m str vdsoOk byName byId procExe fuel open bs s | None => Ok s end) = Ok s0 ->
  sExec s0 = Some e -> sDtDebug s0 = 0 -> eDyn e = [] -> eInterp e = [] ->
  exists s', load m str vdsoOk byName byId procExe eEntry eDyn eInterp rdebugSym fuel aux fileNote s = Ok s' /\
  sObjs s' = sObjs s0 ++ keepFirst (map fst (sObjs s0)) [(0, [])].
Proof.
  intros m str vdsoOk byName byId procExe eEntry eDyn eInterp rdebugSym fuel aux fileNote s s0 e A X D E I. unfold load. rewrite A. cbn [bind]. unfold findRDebug. rewrite X, D, E, I. cbn [Z.eqb dynSegs bind].
  destruct (list_eq_dec Z.eq_dec [] []) as [_|N]; [|now elim N]. rewrite andb_false_r. cbn [sDtDebug setDt Z.eqb orb sExec]. rewrite X. eexists. split; [reflexivity|]. cbn [sObjs setObjs setDt].
  pose proof (addObj_keep (sObjs s0) [] 0 []) as K. cbn [keepFirst] in K. rewrite app_nil_r in K. exact K.
Qed.
Print Assumptions C103_static_partial.
(** Refuted: a static position-independent program ([gcc -static-pie]; dynamic section, PT_PHDR, but no
    DT_DEBUG and no interpreter) loaded at 0x10000 is recorded at 0 too, so that nothing in it resolves. *)
Theorem C103_static_pie_refuted :
  load (memOf [(65600, flat_map phBytes C98_hs); (66560, auxBytes [(1, 7); (5, 9); (0, 0)]); (66816, noteBytes C98_note)])
    (fun _ => Throw) (fun _ => true) (fun _ => None) (fun _ => Some 77) None (fun _ => 464) (fun _ => [(1024, 48)]) (fun _ => []) None 10
    (Some (false, auxBytes [(3, 65600); (5, 3); (9, 66000); (0, 0)])) None (initSt (fun _ => 464) None) =
  Ok (mkSt 66000 0 0 0 65536 (Some 77) [(0, [])]).
Proof. vm_compute. reflexivity. Qed.
Print Assumptions C100_second_note_refuted.
Print Assumptions C100_empty_name_refuted.
Print Assumptions C103_static_pie_refuted.
