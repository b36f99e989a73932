From Coq Require Import Ascii String Permutation Sorted.
From Verif Require Import Base Reader Leb LebSpec LebProofs DwarfReader DwarfReaderProofs ReaderSpec CfiSpec CfiProofs CfiProofs2 Cursor ExprProofs Lines LinesSpec LinesProofs Props_Lines Pubnames PubnamesSpec PubnamesProofs Macros Units UnitsSpec UnitsProofs
  Die DieSpec DieProofs DieNav DieTree DieHist Props_Die DieAttr DieAttrSpec DieAttrProofs Args ArgsSpec FrameText FrameTextSpec FrameTextProofs JsonDoc JsonDocSpec JsonDocProofs Dump DumpProofs DumpCfi DumpTables DumpDie DumpDieSpec DumpDieProofs DumpElfProofs Props_DumpDie DumpUnit DumpUnitSpec.
From Verif Require MacrosSpec MacrosProofs.
Open Scope Z_scope.

Ltac pw := change (2 ^ 63) with 9223372036854775808 in *; change (2 ^ 64) with 18446744073709551616 in *; change (2 ^ 32) with 4294967296 in *.
Ltac mem := unfold DumpUnitSpec.num, nf; apply mmCons; [lits| |].
Definition tr (f : fileEntry) : list Z * Z * Z := (fName f, fDir f, fMtime f).
Definition small (f : fileEntry) : Prop := 0 <= fDir f < 2 ^ 32 /\ 0 <= fMtime f < 2 ^ 32.
Lemma file_ok f y : small f -> plainText (fName f) y -> exists x, means (fileJ f) x /\ fileDoc (tr f) x.
Proof.
  intros [A B] P. pw. eexists. split.
  - unfold fileJ. apply mObj. mem; [apply mStr; exact P|]. mem; [apply mInt; pw; lia|]. mem; [apply mInt; pw; lia|]. apply mmNil.
  - exists y. split; [exact P|reflexivity].
Qed.
Lemma znth_map {X Y} (g : X -> Y) l k : znth k (map g l) = option_map g (znth k l).
Proof. revert k. induction l as [|a l IH]; intros k; cbn [znth map]; [reflexivity|]. destruct (k =? 0); [reflexivity|]. destruct (k <? 0); [reflexivity|]. apply IH. Qed.
Lemma znth_is {X} (l : list X) : forall k, 0 <= k < zlen l -> exists x, znth k l = Some x /\ In x l.
Proof.
  induction l as [|a l IH]; intros k H; [cbn in H; lia|]. rewrite zlen_cons in H. cbn [znth]. destruct (k =? 0) eqn:E; [exists a; split; [reflexivity|now left]|].
  replace (k <? 0) with false by lia. destruct (IH (k - 1)) as (x & E' & I); [lia|]. exists x. split; [exact E'|now right].
Qed.
Lemma ints_ok l : Forall (fun n => - 2 ^ 63 <= n < 2 ^ 64) l -> meanL (map VInt l) (map XNum l).
Proof. induction 1; [apply mlNil|]. cbn [map]. apply mlCons; [now apply mInt|assumption]. Qed.
Lemma strs_ok ds : Forall (fun d => exists y, plainText d y) ds -> exists dds, Forall2 plainText ds dds /\ meanL (map VStr ds) (map XStr dds).
Proof. induction 1 as [|d ds [y P] _ (dds & F & M)]; [exists []; split; constructor|]. exists (y :: dds). split; [now constructor|]. cbn [map]. apply mlCons; [now apply mStr|exact M]. Qed.
Lemma files_ok fs : Forall small fs -> Forall (fun f => exists y, plainText (fst (fst f)) y) (map tr fs) -> exists fds, Forall2 fileDoc (map tr fs) fds /\ meanL (map fileJ fs) fds.
Proof.
  induction fs as [|f fs IH]; intros S P; [exists []; split; constructor|]. inversion S; inversion P as [|? ? [y Py] P']; subst. destruct IH as (fds & F & M); [assumption..|].
  destruct (file_ok f y) as (x & Mx & D); [assumption..|]. exists (x :: fds). split; [now constructor|]. cbn [map]. now apply mlCons.
Qed.
Lemma rows_ok fs rows rs : Forall small fs -> Forall (fun f => exists y, plainText (fst (fst f)) y) (map tr fs) -> Forall2 agree rows rs ->
  Forall (fun r => 0 <= rLine r < 2 ^ 32 /\ 0 <= rAddr r < 2 ^ 64) rs -> Forall (fun r => 0 <= rFile r < zlen (map tr fs)) rs ->
  exists vs ds, dumpAll (rowJ fs) rows = Ok vs /\ meanL vs ds /\ Forall2 (rowDoc (map tr fs)) rs ds.
Proof.
  intros S P F. induction F as [|m r rows rs A F IH]; intros B C; [exists [], []; split; [reflexivity|split; constructor]|].
  inversion B as [|? ? [B1 B2] B']; inversion C as [|? ? C1 C']; subst. destruct (IH B' C') as (vs & ds & E & M & D).
  destruct A as (A1 & A2 & A3 & _). rewrite Z.mod_small in A1, A3 by lia.
  assert (Z : zlen (map tr fs) = zlen fs) by (unfold zlen; now rewrite map_length). rewrite Z in C1.
  destruct (znth_is fs (rFile r) C1) as (f & Ef & If).
  assert (Sf : small f) by (rewrite Forall_forall in S; now apply S).
  assert (Pf : exists y, plainText (fName f) y) by (rewrite Forall_forall in P; apply (P (tr f)); now apply in_map). destruct Pf as [y Py].
  destruct (file_ok f y Sf Py) as (x & Mx & Dx). eexists _, (_ :: ds). split; [|split].
  - cbn [dumpAll]. unfold rowJ at 1. rewrite A2, Ef. cbn [bind]. rewrite E. reflexivity.
  - apply mlCons; [|exact M]. apply mObj. mem; [exact Mx|]. rewrite A3, A1. mem; [apply mInt; pw; lia|]. mem; [apply mInt; pw; lia|]. apply mmNil.
  - constructor; [|exact D]. exists (tr f), x. rewrite znth_map, Ef. split; [reflexivity|]. split; [exact Dx|]. reflexivity.
Qed.
Lemma lines_core e t ds fs rows : wfParams (lineP t) (lineLens t) -> tablesOf e t ds (map tr fs) -> Forall small fs -> Forall2 agree rows (lineRows t) -> linesShowable e t ->
  exists v x, dumpLines (mkLI ds fs rows (pDefStmt (lineP t)) (pOpBase (lineP t)) (0 :: lineLens t)) = Ok v /\ means v x /\ linesDoc e t x.
Proof.
  intros (_ & _ & _ & P4 & _ & P6) T S A [B C]. destruct (C _ _ T) as (C1 & C2 & C3). destruct (strs_ok ds C1) as (dds & Fd & Md). destruct (files_ok fs S C2) as (fds & Ff & Mf).
  destruct (rows_ok fs rows (lineRows t) S C2 A B C3) as (vs & xs & E & M & D). eexists _, _. split; [unfold dumpLines; cbn [liFiles liMatrix liDefStmt liOpBase liOpLens liDirs]; rewrite E; reflexivity|]. split.
  - apply mObj. mem; [apply mBool|]. mem; [apply mInt; pw; lia|]. mem.
    { apply mList. apply ints_ok. constructor; [pw; lia|]. eapply Forall_impl; [|exact P6]. unfold isByte. intros z Hz. pw. lia. }
    mem; [apply mList; exact Mf|]. mem; [apply mList; exact Md|]. mem; [apply mList; exact M|]. apply mmNil.
  - exists ds, (map tr fs), dds, fds, xs. auto 7.
Qed.
Lemma lines_ok e data off t fuel : lineAt e data off t -> linesShowable e t -> (List.length data < fuel)%nat -> (lineSize t < fuel)%nat ->
  exists li v x, lineBuild fuel data e off = Ok li /\ dumpLines li = Ok v /\ means v x /\ linesDoc e t x.
Proof.
  intros (OK & Hd & Hw & Hs & Ho & Hat) SH F1 F2. assert (W : zlen data + 32 < W64) by (unfold W64; pw; lia). assert (At : at_ data off (lineBytes t)) by (split; assumption). clear Hat.
  destruct OK as (WP & WL & FX & K). destruct t as [long ver maxOps p lens dirs files prog|long maxOps p lens dfmt dirs ffmt files prog]; cbn [lineP lineLens lineProg lineLong lineBytes lineSize] in *.
  - destruct K as (K1 & K2 & K3 & K4 & K5).
    destruct (C23_line_matrix_v4_partial data e fuel off long ver maxOps p lens dirs files prog Hd W K1 K2 K3 WP WL FX F1 Hs K4 K5 At) as (rows & E & A).
    destruct (lines_core e (Line4 long ver maxOps p lens dirs files prog) ([46] :: dirs) (mkFile [117; 110; 107; 110; 111; 119; 110] 0 0 0 :: map fileOf files) rows) as (v & x & Ev & M & D); [exact WP| | |exact A|exact SH|].
    + cbn [map]. rewrite map_map. apply (Tables4 e).
    + constructor; [unfold small; cbn; lia|]. apply Forall_map. eapply Forall_impl; [|exact K5]. intros f (_ & _ & F3 & F4 & _). exact (conj F3 F4).
    + eexists _, v, x. split; [exact E|]. auto.
  - destruct K as (K1 & K2 & K3 & K4 & K5 & K6 & K7 & K8).
    destruct (C23_line_matrix_v5_partial data e fuel off long maxOps p lens dfmt dirs ffmt files prog Hd W K1 WP WL FX ltac:(lia) ltac:(lia) ltac:(lia) Hs K2 K3 K4 K5 K6 K7 K8 At) as (ds & fs & rows & E & T1 & T2 & A).
    destruct (lines_core e (Line5 long maxOps p lens dfmt dirs ffmt files prog) ds fs rows) as (v & x & Ev & M & D); [exact WP| | |exact A|exact SH|].
    + apply Tables5; [exact T1|]. clear -T2. induction T2 as [|x f files fs (H1 & H2 & H3) T2 IH]; [constructor|]. cbn [map]. constructor; [|exact IH]. cbn [tr fst snd]. auto.
    + clear -T2 K8. induction T2 as [|x f files fs (H1 & H2 & H3) T2 IH]; [constructor|]. inversion K8 as [|? ? (_ & F & _) K8']; subst. constructor; [|now apply IH].
      split; [|rewrite H3; lia]. destruct H2 as [(v & I & N)|[_ ->]]; [|lia]. rewrite Forall_forall in F. destruct (F _ I) as [WV _]. cbn [snd] in WV.
      change (2 ^ 8) with 0x100 in *. change (2 ^ 16) with 65536 in *. inversion N; subst; cbn [wfV] in WV; unfold u32ok in WV; pw; change (2 ^ 8) with 0x100 in *; change (2 ^ 16) with 65536 in *; lia.
    + eexists _, v, x. split; [exact E|]. auto.
Qed.

(** ** Public names *)
Lemma pub_ok u : wfPub u -> Forall (fun n => exists y, plainText (snd n) y) (spNames u) ->
  exists x, means (dumpPub (mkPU (zlen (pubBody u)) (spVersion u) (spInfoOffset u) (spInfoLength u) (spNames u))) x /\ pubDoc u x.
Proof.
  intros (W1 & W2 & W3 & W4 & W5) P. unfold W16, W32 in *. pose proof (zlen_nonneg (pubBody u)).
  assert (G : exists ns, Forall2 nameDoc (spNames u) ns /\ meanL (map pubJ (spNames u)) ns).
  { revert P W4. generalize (spNames u) as l. clear. induction l as [|[o s] l IH]; intros P W; [exists []; split; constructor|]. inversion P as [|? ? [y Py] P']; inversion W as [|? ? [W1 _] W']; subst. destruct (IH P' W') as (ns & F & M).
    cbn [fst snd] in *. unfold W32 in W1. eexists (_ :: ns). split; [constructor; [|exact F]; exists y; split; [exact Py|reflexivity]|]. cbn [map]. apply mlCons; [|exact M]. unfold pubJ. apply mObj. cbn [fst snd]. mem; [apply mInt; pw; lia|]. mem; [now apply mStr|]. apply mmNil. }
  destruct G as (ns & F & M). eexists. split; [|exists ns; split; [exact F|reflexivity]]. unfold dumpPub. cbn [puLength puVersion puInfoOffset puInfoLength puNames].
  apply mObj. repeat (mem; [apply mInt; pw; lia|]). mem; [now apply mList|]. apply mmNil.
Qed.
Lemma pubs_ok us : Forall wfPub us -> Forall (fun u => Forall (fun n => exists y, plainText (snd n) y) (spNames u)) us ->
  exists xs, Forall2 pubDoc us xs /\ meanL (map dumpPub (map (fun u => mkPU (zlen (pubBody u)) (spVersion u) (spInfoOffset u) (spInfoLength u) (spNames u)) us)) xs.
Proof.
  induction us as [|u us IH]; intros W P; [exists []; split; constructor|]. inversion W; inversion P; subst. destruct IH as (xs & F & M); [assumption..|]. destruct (pub_ok u) as (x & Mx & D); [assumption..|].
  exists (x :: xs). split; [now constructor|]. cbn [map]. now apply mlCons.
Qed.

(** ** Macro headers *)
Definition keyLt (a b : Z * list Z) : Prop := fst a < fst b.
Lemma addOp_ok c q m : StronglySorted keyLt m -> ~ In c (map fst m) -> Permutation ((c, q) :: m) (addOp c q m) /\ StronglySorted keyLt (addOp c q m).
Proof.
  induction 1 as [|[k l] m S IH F]; intros N; cbn [addOp]; [split; [reflexivity|repeat constructor]|]. cbn [map In fst] in N.
  destruct (c <? k) eqn:L.
  - split; [reflexivity|]. constructor; [now constructor|]. constructor; [unfold keyLt; cbn; lia|]. eapply Forall_impl; [|exact F]. unfold keyLt. cbn [fst]. lia.
  - replace (c =? k) with false by lia. destruct IH as [P S']; [tauto|]. split; [rewrite perm_swap; now constructor|]. constructor; [exact S'|].
    rewrite <- P. constructor; [unfold keyLt; cbn; lia|exact F].
Qed.
Lemma opMap_ok l : NoDup (map fst l) -> Permutation (opMap l) l /\ StronglySorted keyLt (opMap l).
Proof.
  assert (G : forall l acc, StronglySorted keyLt acc -> NoDup (map fst (acc ++ l)) ->
     let r := fold_left (fun m d => addOp (fst d) (snd d) m) l acc in Permutation r (acc ++ l) /\ StronglySorted keyLt r).
  { clear. induction l as [|[c q] l IH]; intros acc S N; cbn [fold_left].
    - cbv zeta. rewrite app_nil_r. split; [reflexivity|exact S].
    - rewrite map_app in N. cbn [map fst] in N. pose proof (NoDup_remove_2 _ _ _ N) as N2. destruct (addOp_ok c q acc S) as [P S']; [intros I; apply N2, in_or_app; now left|].
      cbn [fst snd]. destruct (IH (addOp c q acc) S') as [P2 S2].
      + eapply Permutation_NoDup; [|exact N]. rewrite map_app. rewrite <- (Permutation_middle (map fst acc) (map fst l) c). change (c :: map fst acc ++ map fst l) with (map fst ((c, q) :: acc) ++ map fst l). now rewrite P.
      + cbv zeta. split; [|exact S2]. rewrite P2. rewrite <- P. cbn [app]. apply Permutation_middle. }
  intros N. apply (G l [] (SSorted_nil _) N).
Qed.
Lemma ops_ok l : Forall (fun d => isByte (fst d) /\ Forall isByte (snd d)) l -> meanL (map opJ l) (map opDoc l).
Proof.
  induction 1 as [|[c q] l [B Q] _ IH]; [apply mlNil|]. cbn [map]. apply mlCons; [|exact IH]. unfold opJ, opDoc. unfold isByte in B. cbn [fst snd] in *. apply mObj. mem; [apply mInt; pw; lia|].
  mem; [|apply mmNil]. apply mList. apply ints_ok. eapply Forall_impl; [|exact Q]. unfold isByte. intros z Hz. pw. lia.
Qed.
Lemma macro_ok data off u : macroAt data off u -> exists m x, readMacros (Some data) off 5 = Ok m /\ means (dumpMacros m) x /\ macroDoc u x.
Proof.
  intros (W & O & Hd & Hw & Ho & rest & R). assert (HW : zlen data + 32 < W64) by (unfold W64; pw; lia).
  destruct (MacrosProofs.readD5_ok data Hd HW u off [] W) as [E _]; [rewrite app_nil_r; split; [exact Ho|exists rest; exact R]|].
  set (t := match MacrosSpec.muTable u with Some t => t | None => [] end) in *. set (l := match MacrosSpec.muLine u with Some l => l | None => -1 end) in *.
  destruct (opMap_ok t) as [P S]. { unfold t. unfold opsOnce in O. destruct (MacrosSpec.muTable u); [exact O|constructor]. }
  eexists _, _. split; [unfold readMacros; change (5 >=? 5) with true; cbv iota; rewrite E; reflexivity|]. split.
  - unfold dumpMacros. cbn [mhVersion mhLine mhOps]. apply mObj. mem; [apply mInt; pw; lia|]. mem; [apply mInt; destruct W as (_ & W & _); unfold l; destruct (MacrosSpec.muLine u); pw; lia|].
    mem; [|apply mmNil]. apply mList. apply ops_ok. rewrite P. destruct W as (_ & _ & W). unfold t. destruct (MacrosSpec.muTable u) as [t'|]; [|constructor]. eapply Forall_impl; [|exact (proj2 W)]. cbn. tauto.
  - exists (opMap t). split; [exact P|]. split; [exact S|]. reflexivity.
Qed.
Lemma noMacro_ok sec off v : v = 4 \/ (v = 5 /\ sec = None) -> exists m, readMacros sec off v = Ok m /\ means (dumpMacros m) (noMacro v).
Proof.
  intros V. exists (mkMH v (-1) []). split; [unfold readMacros; destruct V as [->|[-> ->]]; reflexivity|]. unfold dumpMacros, noMacro. cbn [mhVersion mhLine mhOps map]. apply mObj.
  mem; [apply mInt; pw; lia|]. mem; [apply mInt; pw; lia|]. mem; [apply mList, mlNil|apply mmNil].
Qed.

(** ** Units *)
Lemma u64_s64 w : 0 <= w < W64 -> u64 (s64 w) = w.
Proof. intros H. unfold s64, sgn. rewrite Z.mod_small by exact H. destruct (w <? W64 / 2); [apply u64_id; exact H|]. unfold u64. rewrite <- (Z_mod_plus_full (w - W64) 1 W64). replace (w - W64 + 1 * W64) with w by lia. now apply Z.mod_small. Qed.
Section Root.
Context (f : fmt) (root : Z) (ents : Z -> option entry) (d : sdecl) (t : dtree) (nf0 : nat) (Hn : (0 < nf0)%nat) (en : entry).
Context (HE : ents root = Some en) (HA : eAttrs en = sdAttrs d) (HS : Forall2 (fun v s => match v with AOffset _ w | AFixed _ _ w => s = VWord w | _ => True end) (tVals t) (eVals en)).
Context (HW : forall o e, ents o = Some e -> wfEntry e /\ 0 <= eUnit e).
Context (HF : wfFmt f) (H31 : rootLacks d 0x31) (H47 : rootLacks d 0x47).
Context (HV : Forall2 (fun a v => snd (fst a) = formOfA v /\ wfA f v) (sdAttrs d) (tVals t)).
Lemma root_has name w : rootHas d t name w -> exists form, attribute ents nf0 root name false = Ok (Some (root, form, VWord w)) /\ toI form (VWord w) = Ok (s64 w) /\ 0 <= w < W64.
Proof.
  intros (i & form & impl & v & E1 & E2 & V). 
  assert (E3 : nth_error (eVals en) i = Some (VWord w)).
  { pose proof HS as HS2. clear -HS2 E2 V. revert i HS2 E2. generalize (tVals t) (eVals en). intros la lv i HS2. revert i. induction HS2 as [|v0 s0 l1 l2 A _ IH]; intros [|i] E2; cbn [nth_error] in *; try discriminate.
    - injection E2 as ->. destruct V as [->|[->| ->]]; now rewrite A.
    - apply IH. exact E2. }
  assert (FV : form = formOfA v /\ wfA f v).
  { pose proof HV as HV2. clear -HV2 E1 E2. revert i HV2 E1 E2. generalize (sdAttrs d) (tVals t). intros la lv i HV2. revert i. induction HV2 as [|a v0 l1 l2 [A B] _ IH]; intros [|i] E1 E2; cbn [nth_error] in *; try discriminate; [injection E1 as ->; injection E2 as ->; exact (conj A B)|exact (IH i E1 E2)]. }
  destruct FV as [Ff WA]. exists form. split; [|split].
  - destruct nf0 as [|g]; [lia|]. cbn [attribute]. rewrite HE. rewrite (own_has _ name form (VWord w) (proj1 (HW _ _ HE))); [reflexivity|]. exists i, impl. rewrite HA. auto.
  - subst form. destruct V as [->|[->| ->]]; reflexivity.
  - destruct V as [->|[->| ->]]; cbn [wfA] in WA; unfold W64; pw.
    + destruct WA as [_ [WA _]]. destruct HF as (_ & [F4|F8] & _); rewrite ?F4, ?F8 in WA; cbn in WA; lia.
    + cbn in WA. lia.
    + cbn in WA. lia.
Qed.
Lemma root_no name : rootLacks d name -> attribute ents nf0 root name false = Ok None.
Proof.
  intros L. destruct nf0 as [|g]; [lia|]. cbn [attribute]. rewrite HE. pose proof (proj1 (HW _ _ HE)) as W. assert (No : forall n, rootLacks d n -> hasNo en n) by (intros n Hl; unfold hasNo; rewrite HA; exact Hl). rewrite (own_hasNo _ name W (No _ L)).
  destruct (false || (name =? 60) || (name =? 49) || (name =? 71)); [reflexivity|]. rewrite (asDie_no ents _ 49 W (No _ H31)). cbn [bind]. rewrite (asDie_no ents _ 71 W (No _ H47)). reflexivity.
Qed.
End Root.

Lemma dunit_ok info h off u : isUnit info h (off, u) -> wfFmt (fmtOfUnit u) -> dunitOf h = unitOf (fmtOfUnit u) off (uhEnd h) (uhRoot h).
Proof.
  intros (Q1 & Q2 & Q3 & Q4 & Q5 & _ & _ & _ & _ & _ & _ & Q6) (_ & _ & A & _). cbn [fst snd fmtOfUnit fAddr fVer fOff] in *. unfold dunitOf, unitOf. cbn [fmtOfUnit fAddr fVer fOff]. rewrite Q1, Q3, Q5, Q6, Z2Nat.id by lia. reflexivity.
Qed.
Lemma unitType_ok k : exists ty, called stdUnitTypes (kindCode k) ty /\ means (unitTypeJ (kindCode k)) (XStr ty).
Proof.
  assert (H : exists n, In (kindCode k, n) stdUnitTypes) by (destruct k; eexists; cbn; eauto 8). destruct H as [n I]. exists (lit n). assert (Cl : called stdUnitTypes (kindCode k) (lit n)) by (exists n; auto). split; [exact Cl|].
  destruct (table_std stdUnitTypes unitTypeTable ltac:(vm_compute; reflexivity) _ _ Cl) as (n' & E & Et). unfold unitTypeJ. rewrite E, <- Et. apply mStr. eapply (called_plain stdUnitTypes); [vm_compute; reflexivity|exact Cl].
Qed.
Section Unit.
Context (info str lineStr : list Z) (alt : option (list Z)) (sx : Z -> Z -> res (list Z)) (sc : secs) (ue : uenv) (ents : Z -> option entry) (dline dmacro : option (list Z)) (e : strEnv).
Lemma lines_part f root d t (RE : rootEntry ents root d t) (HW : forall o e, ents o = Some e -> wfEntry e /\ 0 <= eUnit e)
    (HF : wfFmt f) (H31 : rootLacks d 0x31) (H47 : rootLacks d 0x47) (HV : Forall2 (fun a v => snd (fst a) = formOfA v /\ wfA f v) (sdAttrs d) (tVals t)) :
  (exists lf, linesPart e dline d t lf) -> exists N, forall nf0 fuel, (N <= nf0)%nat -> (N <= fuel)%nat ->
  exists li lf fs, getLines ents nf0 dline e fuel root = Ok li /\ match li with None => Ok [] | Some li => let* x := dumpLines li in Ok [(txt "linenumbers", x)] end = Ok fs /\ meanM fs lf /\ linesPart e dline d t lf.
Proof.
  destruct RE as (en & HE & HT & HA & HS). intros (lf & P). destruct P as [T1 T2|L|w T H ->|data w l x T H -> At Sh Dc].
  - exists 0%nat. intros. exists None, [], []. split; [|split; [reflexivity|split; [constructor|now constructor]]]. unfold getLines. rewrite HE. rewrite HT. replace (negb (sdTag d =? 60) && negb (sdTag d =? 17)) with true by lia. reflexivity.
  - exists 1%nat. intros nf0 fuel Hn Hf. exists None, [], []. split; [|split; [reflexivity|split; [constructor|now apply LPNone]]]. unfold getLines. rewrite HE. destruct (negb _ && negb _); [reflexivity|].
    rewrite (root_no root ents d nf0 ltac:(lia) en HE HA HW H31 H47 _ L). reflexivity.
  - exists 1%nat. intros nf0 fuel Hn Hf. destruct (root_has f root ents d t nf0 ltac:(lia) en HE HA HS HW HF HV _ _ H) as (form & E1 & E2 & R).
    eexists (Some _), _, _. split; [unfold getLines; rewrite HE; rewrite HT; replace (negb (sdTag d =? 60) && negb (sdTag d =? 17)) with false by lia; rewrite E1; cbn [bind]; rewrite E2; reflexivity|].
    split; [reflexivity|]. split; [|eapply LPEmpty; eauto]. cbn [map]. unfold emptyLines. mem; [|apply mmNil]. apply mObj. mem; [apply mBool|]. mem; [apply mInt; pw; lia|]. repeat (mem; [apply mList, mlNil|]). apply mmNil.
  - exists (S (S (List.length data) + lineSize l))%nat. intros nf0 fuel Hn Hf. destruct (root_has f root ents d t nf0 ltac:(lia) en HE HA HS HW HF HV _ _ H) as (form & E1 & E2 & R).
    destruct (lines_ok e data w l fuel At Sh ltac:(lia) ltac:(lia)) as (li & v & x' & L1 & L2 & L3 & L4).
    exists (Some li), [(lit "linenumbers", x')], [(txt "linenumbers", v)].
    split; [unfold getLines; rewrite HE; rewrite HT; replace (negb (sdTag d =? 60) && negb (sdTag d =? 17)) with false by lia; rewrite E1; cbn [bind]; rewrite E2; cbn [bind]; rewrite (u64_s64 w R), L1; reflexivity|].
    split; [rewrite L2; reflexivity|]. split; [|eapply LPLines; eauto]. mem; [exact L3|apply mmNil].
Qed.
Lemma macros_part f root d t (RE : rootEntry ents root d t) (HW : forall o e, ents o = Some e -> wfEntry e /\ 0 <= eUnit e)
    (HF : wfFmt f) (H31 : rootLacks d 0x31) (H47 : rootLacks d 0x47) (HV : Forall2 (fun a v => snd (fst a) = formOfA v /\ wfA f v) (sdAttrs d) (tVals t)) :
  (exists mf, macrosPart dmacro d t mf) -> forall nf0, (0 < nf0)%nat ->
  exists m mf, getMacros ents nf0 dmacro root = Ok m /\ meanM (match m with None => [] | Some m => [(txt "macros", dumpMacros m)] end) mf /\ macrosPart dmacro d t mf.
Proof.
  destruct RE as (en & HE & HT & HA & HS). intros (mf & P) nf0 Hn. pose proof (root_no root ents d nf0 Hn en HE HA HW H31 H47) as No. pose proof (root_has f root ents d t nf0 Hn en HE HA HS HW HF HV) as Has.
  unfold getMacros. cbn [firstMacros].
  assert (Two : forall w (r : res macroHdr) (m : macroHdr), rootHas d t 0x2119 w \/ (rootLacks d 0x2119 /\ rootHas d t 0x79 w) -> readMacros dmacro w 5 = Ok m ->
     firstMacros ents nf0 dmacro root [0x2119; 0x79; 0x43] = Ok (Some m)).
  { intros w r m [H|[L H]] R; cbn [firstMacros]; [|rewrite (No _ L); cbn [bind]]; destruct (Has _ _ H) as (form & E1 & E2 & Rw); rewrite E1; cbn [bind]; rewrite E2; cbn [bind]; rewrite (u64_s64 w Rw).
    - change (0x2119 =? 0x43) with false. cbv iota. rewrite R. reflexivity.
    - change (0x79 =? 0x43) with false. cbv iota. rewrite R. reflexivity. }
  destruct P as [L1 L2 L3|w L1 L2 H|w H N|data w m x H N At Dc].
  - rewrite (No _ L1). cbn [bind]. rewrite (No _ L2). cbn [bind]. rewrite (No _ L3). cbn [bind]. exists None, []. split; [reflexivity|]. split; [constructor|now constructor].
  - rewrite (No _ L1). cbn [bind]. rewrite (No _ L2). cbn [bind]. destruct (Has _ _ H) as (form & E1 & E2 & Rw). rewrite E1. cbn [bind]. rewrite E2. cbn [bind]. rewrite (u64_s64 w Rw). change (0x43 =? 0x43) with true. cbv iota.
    destruct (noMacro_ok dmacro w 4 (or_introl eq_refl)) as (m & M1 & M2). rewrite M1. cbn [bind]. exists (Some m), [(lit "macros", noMacro 4)]. split; [reflexivity|]. split; [mem; [exact M2|apply mmNil]|eapply MPInfo; eauto].
  - destruct (noMacro_ok dmacro w 5 (or_intror (conj eq_refl N))) as (m & M1 & M2). exists (Some m), [(lit "macros", noMacro 5)]. split; [exact (Two w (Ok m) m H M1)|]. split; [mem; [exact M2|apply mmNil]|eapply MPEmpty; eauto].
  - destruct (macro_ok data w m At) as (mh & x' & M1 & M2 & M3). rewrite <- N in M1. exists (Some mh), [(lit "macros", x')]. split; [exact (Two w (Ok mh) mh H M1)|]. split; [mem; [exact M2|apply mmNil]|eapply MPMacro; eauto].
Qed.
Lemma unit_ok h off u ds t d st : isUnit info h (off, u) -> unitReady info str lineStr alt sx ents dline dmacro e off u ds t d -> let du := dunitOf h in let dec := decode info du (tableOf ds) in
  Inv dec (toNode (fmtOfUnit u) ds (rootOf off u) t) st ->
  exists N, forall nf0 fuel, (N <= nf0)%nat -> (N <= fuel)%nat -> exists v x,
    dumpUnit info str lineStr alt sx sc ue du dec ents nf0 dline dmacro e fuel h st = ((fun _ => None), Ok v) /\ means v x /\ unitShown info str lineStr alt sx ents dline dmacro e off u ds t d x.
Proof.
  intros IU UR du dec HI. unfold unitReady in UR. unfold unitShown. set (f := fmtOfUnit u) in *. cbv zeta in UR.
  assert (Hends : uhEnd h = finOf off u /\ uhRoot h = rootOf off u) by (pose proof IU as (_ & Q & _ & _ & _ & _ & _ & _ & Q' & _); cbn [fst snd] in *; unfold rootOf, finOf; lia).
  destruct Hends as [HEnd HRoot]. rewrite <- HEnd, <- HRoot in *.
  destruct UR as (OK & Len & UA & HE & HS & (D & H31 & H47) & ER & HL & HM). pose proof UA as [Uf Ud Ub Ul Ubs Ufn Ut Us _].
  assert (Edu : du = unitOf f off (uhEnd h) (uhRoot h)) by (apply (dunit_ok info); assumption).
  assert (HV : Forall2 (fun a v => snd (fst a) = formOfA v /\ wfA f v) (sdAttrs d) (tVals t)).
  { clear -Ut D. inversion Ut as [? c vs ks d2 D2 V2 _ _]; subst. cbn [tCode tVals] in *. assert (d2 = d) by congruence. subst d2. clear -V2. induction V2 as [|a v l1 l2 (Q1 & _ & Q3 & _) _ IH]; constructor; auto. }
  pose proof (proj1 HE) as HW.
  destruct (names_ok _ _ _ _ _ _ _ _ _ _ _ _ HE HS) as (N1 & HN).
  destruct (lines_part f (uhRoot h) d t ER HW Uf H31 H47 HV HL) as (N2 & HL2).
  exists (S (N1 + N2 + 3 * List.length info))%nat. intros nf0 fuel Hn Hf.
  assert (HI' : Inv (decode info (unitOf f off (uhEnd h) (uhRoot h)) (tableOf ds)) (toNode f ds (uhRoot h) t) st) by (rewrite <- Edu; exact HI).
  destruct (dumpTree_ok f off (uhEnd h) (uhRoot h) ds t info UA str lineStr alt sx sc ue ents nf0 HE HS (HN nf0 ltac:(lia)) fuel st HI' ltac:(lia)) as (tv & td & T1 & T2 & T3).
  destruct (HL2 nf0 fuel ltac:(lia) ltac:(lia)) as (li & lf & fs & L1 & L2 & L3 & L4).
  destruct (macros_part f (uhRoot h) d t ER HW Uf H31 H47 HV HM nf0 ltac:(lia)) as (m & mf & M1 & M2 & M3).
  destruct (unitType_ok (suKind u)) as (ty & Ty1 & Ty2).
  eexists _, _. split; [|split; [|exists td, lf, mf; split; [exact T3|split; [exact L4|split; [exact M3|exists ty; split; [exact Ty1|reflexivity]]]]]].
  - unfold dumpUnit. subst dec. rewrite Edu. destruct (dumpTree _ _ _ _ _ _ _ _ _ _ _ _ _) as [st1 rt]. cbn [snd] in T1. subst rt. cbn [sbind]. rewrite L1. cbn [sbind]. rewrite L2. cbn [sbind]. rewrite M1. cbn [sbind]. reflexivity.
  - pose proof IU as (Q1 & Q2 & Q3 & Q4 & Q5 & _ & _ & _ & _ & Q6 & Q7 & _). cbn [fst snd] in *. rewrite Q1, Q3, Q4, Q5, Q6, Q7. pose proof (zlen_nonneg (unitRest u)). rewrite Z.mod_small by lia.
    destruct OK as (V & _ & _ & K & _ & B). assert (Ha : 0 < suAddrLen u <= 8) by (destruct Uf as (_ & _ & A & _); cbn [f fmtOfUnit fAddr] in A; lia).
    assert (Hroot : off < 2 ^ 64) by (destruct (unit_at f off (uhEnd h) (uhRoot h) ds t info UA _ (le_n _)) as [post A]; apply at_app in A as [A _]; apply at_len in A; [|pose proof (zlenT_pos f ds t); destruct (encodeT f ds t); [cbn in *; lia|discriminate]]; pose proof (zlenT_pos f ds t); unfold W64 in Ul; pw; lia).
    apply mObj. cbn [app]. pw. repeat (mem; [first [apply mInt; pw; lia|idtac]|]); [apply mList, ints_ok|exact Ty2|exact T2|apply mM_app; [exact L3|exact M2]].
    destruct (suKind u); cbn [idOf]; try (apply Forall_forall; intros z I; apply repeat_spec in I; subst z; pw; lia); (eapply Forall_impl; [|apply leBytes_byte]; unfold isByte; intros z Hz; pw; lia).
Qed.
End Unit.

(** ** The whole *)
Lemma units_ok us fuel : Forall suOk us -> us <> [] -> zlen (sectionOf us) < 2 ^ 63 -> (List.length us <= fuel)%nat ->
  exists l, snd (unitsFrom (sectionOf us) fuel [] 0) = Ok l /\ Forall2 (isUnit (sectionOf us)) l (starts 0 us).
Proof.
  intros F NE W Hf. destruct us as [|u l2] eqn:EU; [congruence|]. rewrite <- EU in *.
  destruct (unitsFrom_spec us F W fuel l2 u [] []) as (m' & l & G & _ & F2); [intros o x []|exact EU|rewrite EU in Hf; cbn [List.length] in Hf; lia|].
  change (zlen (sectionOf [])) with 0 in *. rewrite G. exists l. split; [reflexivity|]. rewrite EU at 2. exact F2.
Qed.
Section Whole.
Context (us : list sunit) (str lineStr : list Z) (alt : option (list Z)) (sx : Z -> Z -> res (list Z)) (sc : secs) (ue : Z -> uenv) (ents : Z -> option entry) (dline dmacro : option (list Z)) (se : Z -> strEnv).
Context (abbrevs : Z -> list (Z * abbrev)) (plan : Z -> list sdecl * dtree * sdecl).
Let info := sectionOf us.
Notation ready := (ready us str lineStr alt sx ents dline dmacro se abbrevs plan).
Notation shown := (shown us str lineStr alt sx ents dline dmacro se plan).
Lemma all_units l : forall hs, Forall2 (isUnit info) hs l -> Forall ready l -> exists N, forall nf0 fuel, (N <= nf0)%nat -> (N <= fuel)%nat ->
  exists vs xs, dumpAll (oneUnit info str lineStr alt sx sc ue ents nf0 abbrevs dline dmacro se fuel) hs = Ok vs /\ meanL vs xs /\ Forall2 shown l xs.
Proof.
  induction l as [|[off u] l IH]; intros hs H R; inversion H as [|h ? hs' ? IU H']; subst.
  - exists 0%nat. intros. exists [], []. split; [reflexivity|]. split; constructor.
  - inversion R as [|? ? R1 R2]; subst. destruct (IH hs' H' R2) as (N1 & HN). unfold DumpUnitSpec.ready, DumpUnitSpec.shown in *. cbn [fst snd] in *. destruct (plan off) as [[ds t] d] eqn:EP. destruct R1 as [EA UR].
    destruct (unit_ok info str lineStr alt sx sc (ue off) ents dline dmacro (se off) h off u ds t d (fun _ => None) IU UR) as (N2 & HU).
    { destruct UR as (_ & _ & UA & _). pose proof UA as [Uf _ _ _ _ _ _ _ _]. rewrite (dunit_ok info h off u IU Uf).
      assert (HR : uhEnd h = finOf off u /\ uhRoot h = rootOf off u) by (pose proof IU as (_ & Q & _ & _ & _ & _ & _ & _ & Q' & _); cbn [fst snd] in *; unfold rootOf, finOf; lia). destruct HR as [-> ->].
      exact (Inv0 _ _ _ (Wr _ _ _ _ _ _ _ UA (3 * List.length info)%nat (le_n _))). }
    exists (N1 + N2)%nat. intros nf0 fuel Hn Hf. destruct (HN nf0 fuel ltac:(lia) ltac:(lia)) as (vs & xs & E & M & F). destruct (HU nf0 fuel ltac:(lia) ltac:(lia)) as (v & x & Eu & Mu & Su).
    exists (v :: vs), (x :: xs). split; [|split; [now apply mlCons|constructor; [cbn [fst snd]; rewrite EP; exact Su|exact F]]].
    cbn [dumpAll]. unfold oneUnit at 1. pose proof IU as (Q1 & _ & _ & _ & _ & Q2 & _). cbn [fst snd] in *. rewrite Q1, Q2, EA. cbv zeta in Eu. rewrite Eu. cbn [snd bind]. rewrite E. reflexivity.
Qed.
End Whole.
