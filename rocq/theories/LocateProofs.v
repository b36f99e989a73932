From Coq Require Import Permutation.
From Verif Require Import Base Leb LebSpec LebProofs DwarfReader DwarfReaderProofs Regs Cfi CfiSpec CfiProofs CfiProofs2 Cursor Expr Unwind
  Frames FramesSpec FramesProofs FramesProofs2 FramesProofs3 ElfObj Core CoreSpec CoreProofs StackUsers StackUsersSpec StackUsersProofs Locate LocateSpec.

(** ** One section: what is remembered of it *)
Section One.
Context (data : list Z) (eh : bool) (sa : Z).
(** Every CIE remembered is what is read at its offset. *)
Definition ExactC (cs : cies) : Prop := forall o c, cieFind o cs = Some c -> exists next o2, decodeHdr data eh o = Ok (next, W64 - 1, o2) /\ readCIE data sa o2 next = Ok c.
Lemma exact_unique cs1 cs2 o c1 c2 : ExactC cs1 -> ExactC cs2 -> cieFind o cs1 = Some c1 -> cieFind o cs2 = Some c2 -> c1 = c2.
Proof. intros E1 E2 F1 F2. destruct (E1 _ _ F1) as (n1 & p1 & D1 & R1), (E2 _ _ F2) as (n2 & p2 & D2 & R2). rewrite D1 in D2. injection D2 as <- <-. congruence. Qed.
Lemma putEntry_exact : forall fuel cs off, ExactC cs -> ExactC (fst (putEntry data eh sa fuel cs off)).
Proof.
  induction fuel as [|fuel IH]; intros cs off E; cbn [putEntry]; [exact E|].
  destruct (decodeHdr data eh off) as [[[next co] o]| | |] eqn:D; try exact E.
  destruct (next =? 0); [exact E|]. destruct (Z.eqb_spec co (W64 - 1)) as [->|N].
  - destruct (readCIE data sa o next) as [c| | |] eqn:R; try exact E. cbn [fst]. destruct (cieFind off cs) eqn:CF; [exact E|].
    intros o1 c1 X. rewrite cieFind_snoc in X. destruct (cieFind o1 cs) as [c2|] eqn:E1; [injection X as <-; now apply E|]. destruct (Z.eqb_spec off o1) as [<-|]; [|discriminate]. injection X as <-. eauto.
  - destruct (cieFind co cs) as [c|] eqn:CF.
    + rewrite CF. exact E.
    + specialize (IH cs co E). destruct (putEntry data eh sa fuel cs co) as [cs' [[|n|f n]| | |]]; cbn [fst] in IH; try exact IH. destruct (cieFind co cs'); exact IH.
Qed.
Lemma allLoop_exact : forall fuel cs off cs' l, ExactC cs -> allLoop data eh sa fuel cs off = Ok (cs', l) -> ExactC cs'.
Proof.
  induction fuel as [|fuel IH]; intros cs off cs' l E A; cbn [allLoop] in A; [discriminate|]. destruct (off =? zlen data); [injection A as <- <-; exact E|].
  pose proof (putEntry_exact (S fuel) cs off E) as E1. remember (S fuel) as fl. clear Heqfl. destruct (putEntry data eh sa fl cs off) as [cs1 [[|n|f n]| | |]]; cbn [fst] in E1; try discriminate.
  - injection A as <- <-. exact E1.
  - eapply IH; eassumption.
  - destruct (allLoop data eh sa fuel cs1 n) as [[cs2 l2]| | |] eqn:A2; cbn [bind] in A; try discriminate. injection A as <- <-. eapply IH; eassumption.
Qed.
Lemma makeCfi_exact fuel hdr k : makeCfi data eh sa fuel hdr = Ok k -> ExactC (kCies k).
Proof.
  assert (NE : ExactC []) by (intros o c X; discriminate).
  assert (FULL : (let* (cs, l) := decodeAll data eh sa fuel in Ok (mkCfi cs (map Some l) None 0 0)) = Ok k -> ExactC (kCies k)).
  { unfold decodeAll. destruct (allLoop data eh sa fuel [] 0) as [[cs l]| | |] eqn:A; cbn [bind]; try discriminate. intros X. injection X as <-. eapply allLoop_exact; [exact NE|exact A]. }
  unfold makeCfi. destruct (if eh then hdr else None) as [[h ha]|]; [|exact FULL].
  destruct (getu8 h 0) as [[? o1]| | |]; cbn [bind]; try discriminate. destruct (getu8 h o1) as [[pe o2]| | |]; cbn [bind]; try discriminate. destruct (getu8 h o2) as [[ce o3]| | |]; cbn [bind]; try discriminate. destruct (getu8 h o3) as [[te o4]| | |]; cbn [bind]; try discriminate.
  destruct ((Z.land te 15 =? 255) || (Z.land ce 15 =? 255)); [exact FULL|]. destruct (encSize te =? 0); [exact FULL|].
  destruct (decodeAddress h o4 pe sa ha) as [[[? ?] o5]| | |]; cbn [bind]; try discriminate. destruct (decodeAddress h o5 ce sa 0) as [[[n ?] o6]| | |]; cbn [bind]; try discriminate. intros X. injection X as <-. exact NE.
Qed.
Lemma ensure_exact fuel k i : ExactC (kCies k) -> ExactC (kCies (fst (ensure data eh sa fuel k i))).
Proof.
  intros E. unfold ensure. destruct (znth i (kFdes k)) as [[f|]|]; try exact E. destruct (kTable k) as [t|]; try exact E.
  match goal with |- context [match ?x with Ok _ => _ | Throw => _ | UB => _ | OutOfFuel => _ end] => destruct x as [[a p]| | |] end; try exact E.
  pose proof (putEntry_exact fuel (kCies k) (u64 (p - sa)) E) as E1. destruct (putEntry data eh sa fuel (kCies k) (u64 (p - sa))) as [cs [[|n|f n]| | |]]; exact E1.
Qed.
Lemma findLoop_exact fuel addr : forall n k st en, ExactC (kCies k) -> ExactC (kCies (fst (findLoop data eh sa n fuel k addr st en))).
Proof.
  induction n as [|n IH]; intros k st en E; cbn [findLoop]; [exact E|]. destruct (st <? en); [|exact E]. cbv zeta.
  pose proof (ensure_exact fuel k (st + (en - st) / 2) E) as E1. destruct (ensure data eh sa fuel k (st + (en - st) / 2)) as [k' [e| | |]]; cbn [fst] in E1; try exact E1.
  destruct (fLoc e <=? addr); [|now apply IH]. destruct (addr <? u64 (fLoc e + fRange e)); [exact E1|now apply IH].
Qed.
Lemma isFde_unique es f g x : isFde data sa es f x -> isFde data sa es g x -> f = g.
Proof.
  intros (c & C1 & L1 & R1 & A1 & K1 & _ & E1 & I1) (c' & C2 & L2 & R2 & A2 & K2 & _ & E2 & I2). rewrite C1 in C2. injection C2 as <-.
  destruct f, g; cbn in *. subst. reflexivity.
Qed.

Context (es : list (Z * entry)) (Hsec : section eh data es) (fs : list (Z * sfde)) (Hfs : forall x, In x fs -> In (fst x, EFde (snd x)) es).
Definition Good (k : cfi) : Prop := Right data sa es fs k /\ ExactC (kCies k).
(** A lookup always answers, with the FDE that covers the address, and what is remembered stays good. *)
Lemma good_find fuel k a : Good k -> (1 < fuel)%nat -> 0 <= a ->
  exists k' r, find_fde data eh sa fuel k a = (k', Ok r) /\ Good k' /\
  match r with
  | None => forall x, In x fs -> ~ covers sa es x a
  | Some f => exists x c c', In x fs /\ covers sa es x a /\ isFde data sa es f x /\ cieOf es (sfCie (snd x)) = Some c /\ cieFind (fCie f) (kCies k') = Some c' /\ isCie data c' c
  end.
Proof.
  intros [(fs' & te & ha & tab & T & P & FIT & ORD & TE & TA & TI & HE) EX] Hf Ha.
  assert (Hfs' : forall x, In x fs' -> In (fst x, EFde (snd x)) es) by (intros z Iz; apply Hfs; now rewrite P).
  destruct (find_fde_spec data eh sa es Hsec fs' Hfs' FIT ORD te ha tab T TE TA fuel k a TI Hf Ha) as (k' & r & E & TI' & AN).
  pose proof (findLoop_exact fuel a (S (length (kFdes k))) k 0 (zlen (kFdes k)) EX) as EX'. fold (find_fde data eh sa fuel k a) in EX'. rewrite E in EX'. cbn [fst] in EX'.
  unfold find_fde in E. destruct (findLoop_held _ _ _ _ _ _ _ _ _ _ _ HE E) as [HE' CF]. fold (find_fde data eh sa fuel k a) in E.
  exists k', r. split; [exact E|]. split; [split; [exists fs', te, ha, tab, T; repeat (split; [assumption|]); exact HE'|exact EX']|].
  destruct r as [f|]; cbn [answer] in AN.
  - destruct AN as (x & I & C & Q). specialize (CF f eq_refl). destruct (cieFind (fCie f) (kCies k')) as [c'|] eqn:EC; [|now elim CF].
    pose proof Q as (c1 & CO1 & _ & _ & _ & FC & _). rewrite FC in EC. destruct TI' as (CI & _). destruct (CI _ _ EC) as (c2 & CO2 & Q2). exists x, c2, c'. split; [now rewrite P|]. auto.
  - intros x I. apply AN. now rewrite <- P.
Qed.
(** Two such sets of remembered things give the same answer. *)
Lemma good_same fuel k1 k2 a : Good k1 -> Good k2 -> (1 < fuel)%nat -> 0 <= a ->
  exists k1' k2' r, find_fde data eh sa fuel k1 a = (k1', Ok r) /\ find_fde data eh sa fuel k2 a = (k2', Ok r) /\ Good k1' /\ Good k2' /\
  forall f, r = Some f -> cieFind (fCie f) (kCies k1') = cieFind (fCie f) (kCies k2').
Proof.
  intros G1 G2 Hf Ha. destruct (good_find fuel k1 a G1 Hf Ha) as (k1' & r1 & E1 & G1' & A1). destruct (good_find fuel k2 a G2 Hf Ha) as (k2' & r2 & E2 & G2' & A2).
  assert (ER : r1 = r2).
  { destruct r1 as [f1|], r2 as [f2|].
    - destruct A1 as (x1 & c1 & d1 & I1 & C1 & Q1 & _), A2 as (x2 & c2 & d2 & I2 & C2 & Q2 & _). f_equal.
      assert (x1 = x2) as <-. { destruct G1 as [(fs' & te & ha & tab & T & P & FIT & ORD & _) _]. apply (ord_unique sa es fs' x1 x2 a); try assumption; now rewrite <- P. }
      now apply (isFde_unique es f1 f2 x1).
    - destruct A1 as (x1 & c1 & d1 & I1 & C1 & _). now elim (A2 x1 I1).
    - destruct A2 as (x2 & c2 & d2 & I2 & C2 & _). now elim (A1 x2 I2).
    - reflexivity. }
  subst r2. exists k1', k2', r1. split; [exact E1|]. split; [exact E2|]. split; [exact G1'|]. split; [exact G2'|]. intros f ->.
  destruct A1 as (x1 & c1 & d1 & _ & _ & _ & _ & F1 & _), A2 as (x2 & c2 & d2 & _ & _ & _ & _ & F2 & _). rewrite F1, F2. f_equal. eapply exact_unique; [apply G1'|apply G2'|exact F1|exact F2].
Qed.
End One.

Lemma layout_length eh all data : Forall (fun x => entryOk eh all (fst x) (snd x)) all -> forall es off, (forall x, In x es -> In x all) -> layout eh all data off es -> 0 <= off <= zlen data -> off + zlen es <= zlen data.
Proof.
  intros OK. induction es as [|[o e] es IH]; intros off SUB LY HO; cbn [layout] in LY; [change (zlen (@nil (Z * entry))) with 0; lia|].
  destruct LY as (-> & (rest & E) & LY). rewrite Forall_forall in OK. pose proof (OK _ (SUB _ (or_introl eq_refl))) as K. cbn [fst snd] in K.
  assert (NE : 1 <= zlen (entryBytes eh all off e)).
  { destruct e as [c|f]; cbn [entryBytes entryOk] in *; [unfold cieBytes|destruct K as (c & -> & _); unfold fdeBytes]; rewrite zlen_app; match goal with |- _ <= zlen (lenBytes ?b ?n) + zlen ?y => pose proof (zlen_nonneg y); pose proof (lenBytes_ge b n) end; lia. }
  pose proof (zlen_zdrop off data (proj1 HO)) as L. rewrite E, zlen_app in L. pose proof (zlen_nonneg rest). rewrite zlen_cons.
  assert (B : off + zlen (entryBytes eh all off e) <= zlen data) by lia.
  specialize (IH (off + zlen (entryBytes eh all off e)) (fun x I => SUB x (or_intror I)) LY ltac:(lia)). lia.
Qed.
Lemma section_length eh data es : section eh data es -> (length es <= length data)%nat.
Proof. intros (_ & _ & OK & LY). pose proof (zlen_nonneg data). pose proof (layout_length eh es data OK es 0 (fun x I => I) LY ltac:(lia)) as L. unfold zlen in L. lia. Qed.

(** ** The process *)
Section Process.
Context (fuel : nat) (objs : objmap) (ident : Z -> Z) (sects : Z -> sections) (isExec : phdr -> bool) (mem : memory) (F : Z -> option frames).
Context (HO : objsOk objs) (HF : forall i, imageFrames (sects i) (F i)) (HL : forall i m, F i = Some m -> (2 * length (fmData m) + 2 < fuel)%nat).
Notation GoodM m := (Good (fmData m) (fmEh m) (fmAddr m) (fmEntries m) (fmFdes m)).

Lemma frameOf_F i : frameOf (sects i) = match F i with None => None | Some m => Some (fmData m, fmEh m, fmAddr m) end.
Proof. clear -HF.
  unfold frameOf. destruct (HF i) as [E1 E2|d a es E1 E2 OK|d a es fs H ha h rest E1 E2 OK _ _ _ _ _|d a es E1 E2 OK]; rewrite E1; [now rewrite E2|reflexivity|reflexivity|now rewrite E2].
Qed.
Lemma F_ok i m : F i = Some m -> framesOk m.
Proof. clear -HF. intros E. pose proof (HF i) as X. rewrite E in X. inversion X; assumption. Qed.
Lemma make_good i m : F i = Some m -> exists k, makeCfi (fmData m) (fmEh m) (fmAddr m) fuel (sHdr (sects i)) = Ok k /\ GoodM m k.
Proof. clear -HF HL.
  intros E. pose proof (HL i m E) as L. pose proof (F_ok i m E) as (SEC & SA & SUB & DJ). pose proof (section_length _ _ _ SEC) as SL. pose proof (HF i) as X. rewrite E in X.
  assert (G : exists k, makeCfi (fmData m) (fmEh m) (fmAddr m) fuel (sHdr (sects i)) = Ok k /\ Right (fmData m) (fmAddr m) (fmEntries m) (fmFdes m) k).
  { inversion X as [|d a es E1 E2 OK EM|d a es fs H ha h rest E1 E2 OK EH HB HW HA HD EM|d a es E1 E2 OK EM]; subst m; cbn [fmData fmEh fmAddr fmEntries fmFdes] in *.
    - apply full_Right; auto; lia.
    - rewrite E2. eapply hdr_Right; try eassumption; lia.
    - apply full_Right; auto; lia. }
  destruct G as (k & Ek & R). exists k. split; [exact Ek|]. split; [exact R|]. eapply makeCfi_exact. exact Ek.
Qed.

(** What is associated with an address of an image when nothing has been read. *)
Definition fresh (i oa k : Z) : option codeInfo :=
  match frameOf (sects i) with
  | None => None
  | Some (d, eh, sa) =>
      match makeCfi d eh sa fuel (sHdr (sects i)) with
      | Ok c => match find_fde d eh sa fuel c oa with
                | (c', Ok (Some f)) => match cieFind (fCie f) (kCies c') with
                                       | Some e => Some (mkCI d (mkCie (cCode e) (cData e)) (cInsns e) (cEnd e) (fInsns f) (fEnd f) (fLoc f) (cRar e) (cSignal e) k)
                                       | None => None
                                       end
                | _ => None
                end
      | _ => None
      end
  end.
Definition pureInfo (a : Z) : option codeInfo :=
  match findSegment objs a with Ok (Some (k, _, _)) => fresh (ident k) (u64 (a - k)) k | _ => None end.
Definition pureProc : process := mkProc mem pureInfo (execAt objs isExec).
Definition execOf (ci : codeInfo) (oa : Z) : res frame :=
  fdeExec fuel (ciData ci) (ciParams ci) (ciCieInsns ci) (ciCieEnd ci) (ciFdeInsns ci) (ciFdeEnd ci) (ciIloc ci) oa.
Definition SInv (s : state) : Prop := forall i,
  (forall k, diCfi (s i) = Some k -> exists m, F i = Some m /\ GoodM m k) /\
  (forall o r, In (o, r) (diRows (s i)) -> forall k ci, fresh i o k = Some ci -> execOf ci o = Ok r).
Lemma SInv0 : SInv state0.
Proof. intros i. split; [discriminate|intros o r []]. Qed.
Lemma put_same s i d : put s i d i = d. Proof. unfold put. now rewrite Z.eqb_refl. Qed.
Lemma SInv_put s i d : SInv s -> (forall k, diCfi d = Some k -> exists m, F i = Some m /\ GoodM m k) ->
  (forall o r, In (o, r) (diRows d) -> forall k ci, fresh i o k = Some ci -> execOf ci o = Ok r) -> SInv (put s i d).
Proof. intros I C R j. unfold put. destruct (Z.eqb_spec j i) as [->|]; [split; assumption|apply I]. Qed.
Lemma findSegment_ok a : match findSegment objs a with Ok _ => True | _ => False end.
Proof.
  unfold findSegment. assert (G : forall l best, (forall k o, best = Some (k, Some o) -> imLoads o <> []) -> Forall objOk l -> match lastBelow l a best with Some (k, Some o) => imLoads o <> [] | _ => True end).
  { induction l as [|[k o] l IH]; intros best B FO; cbn [lastBelow].
    - destruct best as [[k [o|]]|]; try exact I. now apply (B k).
    - apply Forall_cons_iff in FO as [[_ K] FO]. cbn [fst snd] in K. destruct (k <? a); [|destruct best as [[k' [o'|]]|]; try exact I; now apply (B k')]. apply IH; [|exact FO]. intros k' o' E. injection E as <- ->. now apply (K o'). }
  specialize (G objs None ltac:(discriminate) (proj1 HO)). destruct (lastBelow objs a None) as [[k [o|]]|]; try exact I. unfold endVA. destruct (imLoads o) as [|h r]; [now elim G|]. cbn [bind]. destruct (_ >=? a); [|exact I]. destruct (segFor o (u64 (a - k))); exact I.
Qed.
Lemma u64_pos x : 0 <= u64 x. Proof. unfold u64. apply Z.mod_pos_bound. unfold W64. lia. Qed.
Lemma lookup_pure s a : SInv s -> exists s', lookup fuel objs ident sects s a =
  (s', Ok (match findSegment objs a with Ok (Some (k, _, _)) => option_map (pair (ident k)) (fresh (ident k) (u64 (a - k)) k) | _ => None end)) /\ SInv s'.
Proof.
  intros I. unfold lookup. pose proof (findSegment_ok a) as OKF. destruct (findSegment objs a) as [[[[k o] h]|]| | |]; try contradiction; [|exists s; split; [reflexivity|exact I]]. clear OKF.
  cbv zeta. set (i := ident k). unfold fresh. rewrite frameOf_F. destruct (F i) as [m|] eqn:EF; [|exists s; split; [reflexivity|exact I]].
  destruct (make_good i m EF) as (k0 & E0 & G0). rewrite E0.
  assert (G : exists s1 c, getCfi fuel sects s i (fmData m) (fmEh m) (fmAddr m) = (s1, Ok c) /\ GoodM m c /\ SInv s1 /\ diRows (s1 i) = diRows (s i)).
  { unfold getCfi. destruct (diCfi (s i)) as [c|] eqn:EC.
    - exists s, c. split; [reflexivity|]. destruct (proj1 (I i) c EC) as (m' & EM & GM). assert (m' = m) as -> by congruence. auto.
    - rewrite E0. eexists _, k0. split; [reflexivity|]. split; [exact G0|]. split; [|now rewrite put_same]. apply SInv_put; [exact I| |apply I]. intros k1 X. injection X as <-. eauto. }
  destruct G as (s1 & c & -> & GC & I1 & ER).
  pose proof (F_ok i m EF) as (SEC & SA & SUB & DJ). pose proof (HL i m EF) as L.
  destruct (good_same (fmData m) (fmEh m) (fmAddr m) (fmEntries m) SEC (fmFdes m) SUB fuel c k0 (u64 (a - k)) GC G0 ltac:(lia) (u64_pos _)) as (c1 & c2 & r & F1 & F2 & GC1 & _ & SAME). rewrite F1, F2. cbn [bind].
  exists (put s1 i (mkDI (Some c1) (diRows (s1 i)))). split.
  - f_equal. destruct r as [f|]; [|reflexivity]. rewrite (SAME f eq_refl).
    pose proof (good_find (fmData m) (fmEh m) (fmAddr m) (fmEntries m) SEC (fmFdes m) SUB fuel k0 (u64 (a - k)) G0 ltac:(lia) (u64_pos _)) as (kk & rr & F3 & _ & A). rewrite F2 in F3. injection F3 as <- <-. destruct A as (x & cc & c' & _ & _ & _ & _ & FC & _). rewrite FC. reflexivity.
  - apply SInv_put; [exact I1| |apply I1]. intros k1 X. injection X as <-. eauto.
Qed.
Lemma lookup_info s a : SInv s -> exists s' x, lookup fuel objs ident sects s a = (s', Ok x) /\ SInv s' /\ option_map snd x = pureInfo a /\ (forall i ci, x = Some (i, ci) -> fresh i (u64 (a - ciReloc ci)) (ciReloc ci) = Some ci).
Proof.
  intros I. destruct (lookup_pure s a I) as (s' & E & I'). eexists s', _. split; [exact E|]. split; [exact I'|]. unfold pureInfo. destruct (findSegment objs a) as [[[[k o] h]|]| | |]; try (split; [reflexivity|intros i ci X; discriminate]).
  destruct (fresh (ident k) (u64 (a - k)) k) as [ci|] eqn:EF; cbn [option_map snd]; (split; [reflexivity|]); intros i ci' X; [|discriminate]. injection X as <- <-.
  assert (RE : ciReloc ci = k). { revert EF. unfold fresh. repeat match goal with |- context [match ?x with _ => _ end] => destruct x; try discriminate end. intros X. injection X as <-. reflexivity. }
  rewrite RE. exact EF.
Qed.
Lemma fresh_reloc i oa k k' ci : fresh i oa k = Some ci -> exists ci', fresh i oa k' = Some ci' /\ forall o, execOf ci' o = execOf ci o.
Proof.
  unfold fresh. repeat match goal with |- context [match ?x with _ => _ end] => destruct x; try discriminate end. intros X. injection X as <-. eexists. split; [reflexivity|]. intros o. reflexivity.
Qed.
Lemma rowFor_pure s i ci oa k : SInv s -> fresh i oa k = Some ci -> exists s', rowFor fuel s i ci oa = (s', execOf ci oa) /\ SInv s'.
Proof.
  intros I FR. unfold rowFor. destruct (find (fun e => fst e =? oa) (diRows (s i))) as [[o r]|] eqn:EF.
  - apply find_some in EF as [IN EO]. cbn [fst] in EO. apply Z.eqb_eq in EO as ->. exists s. split; [|exact I]. f_equal. symmetry. now apply (proj2 (I i) oa r IN k).
  - fold (execOf ci oa). destruct (execOf ci oa) as [r| | |] eqn:EX; eexists; (split; [reflexivity|]); try exact I. apply SInv_put; [exact I|apply I|]. cbn [diRows]. intros o r' IN k' ci' FR'. apply in_app_iff in IN as [IN|[IN|[]]]; [now apply (proj2 (I i) o r' IN k')|].
    injection IN as <- <-. destruct (fresh_reloc i oa k k' ci FR) as (ci2 & F2 & X2). rewrite FR' in F2. injection F2 as <-. now rewrite X2.
Qed.
Lemma scope_pure s f : SInv s -> exists s', scope fuel objs ident sects s f = (s', Ok (scopeIP pureProc f)) /\ SInv s'.
Proof.
  intros I. unfold scope, scopeIP. destruct (rawIP f =? 0); [eauto|].
  assert (G : exists s', (if fSigTramp f then (s, Ok (rawIP f)) else if fFromTramp f then (s, Ok (rawIP f)) else
      let (s', r) := lookup fuel objs ident sects s (rawIP f) in (s', let* o := r in match o with Some (_, ci) => if ciSignal ci then Ok (rawIP f) else Ok (u64 (rawIP f - 1)) | None => Ok (u64 (rawIP f - 1)) end)) =
      (s', Ok (if fSigTramp f then rawIP f else if fFromTramp f then rawIP f else match pInfo pureProc (rawIP f) with Some ci => if ciSignal ci then rawIP f else u64 (rawIP f - 1) | None => u64 (rawIP f - 1) end)) /\ SInv s').
  { destruct (fSigTramp f); [eauto|]. destruct (fFromTramp f); [eauto|]. destruct (lookup_info s (rawIP f) I) as (s' & x & E & I' & P & _). rewrite E. cbn [bind]. exists s'. split; [|exact I']. cbn [pInfo pureProc]. rewrite <- P.
    destruct x as [[i ci]|]; cbn [option_map snd]; [|reflexivity]. destruct (ciSignal ci); reflexivity. }
  destruct (fMech f); eauto.
Qed.
Lemma unwindS_pure s f : SInv s -> exists s', unwindS fuel objs ident sects mem s f = (s', fst (unwindFrame fuel pureProc f), snd (unwindFrame fuel pureProc f)) /\ SInv s'.
Proof.
  intros I. unfold unwindS, unwindFrame. destruct (scope_pure s f I) as (s1 & -> & I1). cbv zeta. set (ip := scopeIP pureProc f).
  destruct (lookup_info s1 ip I1) as (s2 & x & -> & I2 & P & Q). cbn [pInfo pureProc pMem]. rewrite <- P. destruct x as [[i ci]|]; cbn [option_map snd]; [|exists s2; split; [reflexivity|exact I2]].
  destruct (rowFor_pure s2 i ci (u64 (ip - ciReloc ci)) (ciReloc ci) I2 (Q i ci eq_refl)) as (s3 & -> & I3). exists s3. split; [|exact I3]. unfold execOf.
  destruct (let* dcf := fdeExec fuel (ciData ci) (ciParams ci) (ciCieInsns ci) (ciCieEnd ci) (ciFdeInsns ci) (ciFdeEnd ci) (ciIloc ci) (u64 (ip - ciReloc ci)) in unwindRegs fuel (ciData ci) dcf (ciRar ci) (mkEnv (fRegs f) (fCfa f) mem (ciReloc ci) None)) as [[cfa o]| | |]; reflexivity.
Qed.
Lemma fallback_pure f : fallbackStep (bare objs isExec mem) f = fallbackStep pureProc f.
Proof. reflexivity. Qed.
Lemma walkS_pure : forall n s done prev, SInv s -> exists s', walkS fuel objs ident sects isExec mem n s done prev = (s', walk n fuel pureProc done prev) /\ SInv s'.
Proof.
  induction n as [|n IH]; intros s done prev I; cbn [walkS walk]; [eauto|]. destruct (unwindS_pure s prev I) as (s1 & -> & I1). destruct (unwindFrame fuel pureProc prev) as [prev' [[regs|]| | |]]; cbn [fst snd]; try (exists s1; split; [reflexivity|exact I1]).
  - now apply IH.
  - rewrite fallback_pure. destruct (fallbackStep pureProc prev') as [g p2| |]; [now apply IH| |]; exists s1; (split; [reflexivity|exact I1]).
Qed.
Lemma unwindStackS_pure s mf regs : SInv s -> exists s', unwindStackS fuel objs ident sects isExec mem s mf regs = (s', unwindStack fuel pureProc mf regs) /\ SInv s'.
Proof. apply walkS_pure. Qed.
Lemma stacksS_pure mf : forall l s, SInv s -> exists s', stacksS fuel objs ident sects isExec mem s mf l = (s', map (unwindStack fuel pureProc mf) l) /\ SInv s'.
Proof.
  induction l as [|r l IH]; intros s I; cbn [stacksS map]; [eauto|]. destruct (unwindStackS_pure s mf r I) as (s1 & -> & I1). destruct (IH s1 I1) as (s2 & -> & I2). eauto.
Qed.

(** ** What the unwinder is told *)
Lemma pure_told a : 0 <= a < 2 ^ 64 -> toldAbout objs ident F a (pureInfo a).
Proof. clear isExec mem.
  intros Ha. unfold pureInfo. pose proof (findSegment_spec objs a HO Ha) as FS. destruct (findSegment objs a) as [[[[k o] h]|]| | |]; try contradiction.
  - destruct FS as (IO & IH & M & LT). destruct (objs_in objs HO k o IO) as (K0 & LO & ET).
    assert (UA : u64 (a - k) = a - k) by (apply u64_id; unfold isU64, W64; lia). rewrite UA.
    assert (UN : forall k' h', loadedAt objs a k' h' -> k' = k). { intros k' h' (o' & IO' & IH' & M' & _). now destruct (objs_unique objs HO k' o' h' k o h a IO' IO IH' IH M' M) as (-> & _). }
    unfold fresh. rewrite frameOf_F. destruct (F (ident k)) as [m|] eqn:EF; [|intros k' m' x c ((h' & LA) & EM & _); rewrite (UN _ _ LA) in EM; congruence].
    destruct (make_good _ m EF) as (k0 & E0 & G0). rewrite E0. pose proof (F_ok _ m EF) as (SEC & SA & SUB & DJ). pose proof (HL _ m EF) as L.
    destruct (good_find (fmData m) (fmEh m) (fmAddr m) (fmEntries m) SEC (fmFdes m) SUB fuel k0 (a - k) G0 ltac:(lia) ltac:(lia)) as (k1 & r & F1 & _ & A). rewrite F1. destruct r as [f|].
    + destruct A as (x & c & c' & I & C & Q & CO & FC & QC). rewrite FC. cbn [toldAbout]. exists k, m, x, c. split.
      { split; [exists h, o; repeat (split; [assumption|]); lia|]. auto. }
      cbn [ciReloc ciData ciParams ciRar ciSignal ciIloc ciCieInsns ciCieEnd ciFdeInsns ciFdeEnd]. destruct QC as (_ & _ & _ & -> & -> & -> & -> & _ & L1 & L2). destruct (isFde_start _ _ _ _ _ Q) as [Q1 _]. destruct Q as (c1 & _ & _ & _ & _ & _ & L3 & L4 & _). repeat (split; [first [assumption|reflexivity]|]). assumption.
    + intros k' m' x c ((h' & LA) & EM & I & C & _). rewrite (UN _ _ LA) in EM, C. rewrite EF in EM. injection EM as <-. now apply (A x I).
  - intros k m x c ((h & o & IO & IH & M & NE) & _). apply NE. symmetry. eapply FS; eassumption.
Qed.
Lemma exec_told a : 0 <= a < 2 ^ 64 -> (execAt objs isExec a = true <-> exists k h, loadedAt objs a k h /\ isExec h = true).
Proof. clear -HO.
  intros Ha. unfold execAt. pose proof (findSegment_spec objs a HO Ha) as FS. destruct (findSegment objs a) as [[[[k o] h]|]| | |]; try contradiction.
  - destruct FS as (IO & IH & M & LT). split.
    + intros E. exists k, h. split; [exists o; repeat (split; [assumption|]); lia|exact E].
    + intros (k' & h' & (o' & IO' & IH' & M' & _) & E). destruct (objs_unique objs HO k' o' h' k o h a IO' IO IH' IH M' M) as (_ & _ & ->). exact E.
  - split; [discriminate|]. intros (k & h & (o & IO & IH & M & NE) & _). elim NE. symmetry. eapply FS; eassumption.
Qed.
End Process.

Section Scope.
Context (fuel : nat) (objs : objmap) (ident : Z -> Z) (sects : Z -> sections) (isExec : phdr -> bool) (mem : memory) (F : Z -> option frames).
Context (HO : objsOk objs) (HF : forall i, imageFrames (sects i) (F i)) (HL : forall i m, F i = Some m -> (2 * length (fmData m) + 2 < fuel)%nat).
Lemma pairs_unique sa es fs x y a : ForallOrdPairs (fun x y => startOf sa es x + sfRange (snd x) <= startOf sa es y \/ startOf sa es y + sfRange (snd y) <= startOf sa es x) fs ->
  In x fs -> In y fs -> covers sa es x a -> covers sa es y a -> x = y.
Proof.
  intros O. induction O as [|z l F1 F2 IH]; intros Ix Iy Cx Cy; [destruct Ix|]. rewrite Forall_forall in F1. unfold covers in *.
  destruct Ix as [->|Ix], Iy as [->|Iy]; [reflexivity| | |now apply IH]; [specialize (F1 y Iy)|specialize (F1 x Ix)]; lia.
Qed.
Lemma described_unique a k m x c k' m' x' c' : describedBy objs ident F a k m x c -> describedBy objs ident F a k' m' x' c' -> k = k' /\ m = m' /\ x = x' /\ c = c'.
Proof.
  intros ((h & o & IO & IH & M & _) & EM & I & C & CO) ((h' & o' & IO' & IH' & M' & _) & EM' & I' & C' & CO').
  destruct (objs_unique objs HO k o h k' o' h' a IO IO' IH IH' M M') as (<- & _ & _). rewrite EM in EM'. injection EM' as <-.
  pose proof (F_ok sects F HF _ m EM) as (_ & _ & _ & (_ & DJ)). pose proof (pairs_unique _ _ _ _ _ _ DJ I I' C C') as <-. rewrite CO in CO'. injection CO' as <-. auto.
Qed.
Lemma told_described a ci : 0 <= a < 2 ^ 64 -> pureInfo fuel objs ident sects a = Some ci -> forall k m x c, describedBy objs ident F a k m x c ->
  ciReloc ci = k /\ ciData ci = fmData m /\
      ciParams ci = mkCie (scCode c) (scData c) /\ ciRar ci = scRar c /\ ciSignal ci = scSignal c /\ ciIloc ci = startOf (fmAddr m) (fmEntries m) x /\
      lies (fmData m) (ciCieInsns ci) (scInsns c) /\ ciCieEnd ci = ciCieInsns ci + zlen (scInsns c) /\
      lies (fmData m) (ciFdeInsns ci) (sfInsns (snd x)) /\ ciFdeEnd ci = ciFdeInsns ci + zlen (sfInsns (snd x)).
Proof.
  intros Ha E k m x c D. pose proof (pure_told fuel objs ident sects F HO HF HL a Ha) as T. rewrite E in T. destruct T as (k' & m' & x' & c' & D' & R). destruct (described_unique a k' m' x' c' k m x c D' D) as (<- & <- & <- & <-). exact R.
Qed.
Lemma described_told a k m x c : 0 <= a < 2 ^ 64 -> describedBy objs ident F a k m x c -> exists ci, pureInfo fuel objs ident sects a = Some ci.
Proof.
  intros Ha D. pose proof (pure_told fuel objs ident sects F HO HF HL a Ha) as T. destruct (pureInfo fuel objs ident sects a) as [ci|]; [eauto|]. now elim (T k m x c).
Qed.
Lemma scope_told f ip : 0 <= fRegs f U_rip < 2 ^ 64 -> scopeAddr objs ident F f ip -> scopeIP (pureProc fuel objs ident sects isExec mem) f = ip.
Proof.
  intros Hr S. unfold scopeIP, rawIP in *. set (raw := fRegs f U_rip) in *.
  assert (G : match pInfo (pureProc fuel objs ident sects isExec mem) raw with Some ci => ciSignal ci | None => false end = true <-> inSignalCode objs ident F raw).
  { cbn [pInfo pureProc]. pose proof (pure_told fuel objs ident sects F HO HF HL raw Hr) as T. destruct (pureInfo fuel objs ident sects raw) as [ci|] eqn:EP.
    - destruct T as (k & m & x & c & D & _ & _ & _ & _ & SI & _). rewrite SI. split; [intros X; now exists k, m, x, c|]. intros (k' & m' & x' & c' & D' & SI'). destruct (described_unique _ _ _ _ _ _ _ _ _ D D') as (_ & _ & _ & <-). exact SI'.
    - split; [discriminate|]. intros (k' & m' & x' & c' & D' & _). now elim (T k' m' x' c'). }
  assert (R0 : forall X : Z, X = (if raw =? 0 then raw else match fMech f with MachineRegs | Trampoline => raw | _ => if fSigTramp f then raw else if fFromTramp f then raw else if match pInfo (pureProc fuel objs ident sects isExec mem) raw with Some ci => ciSignal ci | None => false end then raw else u64 (raw - 1) end) ->
     (exactFrame objs ident F f -> X = raw) /\ (~ exactFrame objs ident F f -> X = u64 (raw - 1))).
  { intros X ->. unfold exactFrame. fold raw. split.
    - intros E. destruct (Z.eqb_spec raw 0); [reflexivity|]. destruct (fMech f); try reflexivity; (destruct (fSigTramp f); [reflexivity|]; destruct (fFromTramp f); [reflexivity|]); (destruct E as [E|[E|[E|[E|[E|E]]]]]; try discriminate; [contradiction|apply G in E; now rewrite E]).
    - intros E. destruct (Z.eqb_spec raw 0); [elim E; tauto|]. destruct (match pInfo (pureProc fuel objs ident sects isExec mem) raw with Some ci => ciSignal ci | None => false end) eqn:Q; [elim E; do 5 right; now apply G|].
      destruct (fMech f) eqn:M; try (elim E; tauto); (destruct (fSigTramp f); [elim E; tauto|]; destruct (fFromTramp f); [elim E; tauto|]); reflexivity. }
  match goal with |- ?X = _ => destruct (R0 X) as [R1 R2] end.
  { destruct (raw =? 0); [reflexivity|]. destruct (pInfo (pureProc fuel objs ident sects isExec mem) raw); reflexivity. }
  destruct S as [[E ->]|[E ->]]; [now apply R1|]. rewrite (R2 E). reflexivity.
Qed.
End Scope.
