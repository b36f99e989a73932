(** Proofs about the dump of a frame section. *)
From Coq Require Import Ascii String.
From Verif Require Import Base LebSpec DwarfReader Cfi CfiSpec CfiProofs Frames FramesSpec FramesProofs FramesProofs2 FramesProofs3 Json JsonSpec MapsSpec Args ArgsSpec ArgsProofs HdmpSpec HdmpProofs FrameText FrameTextSpec JsonDoc JsonDocSpec JsonDocProofs Dump DumpSpec DumpProofs Props_Dump DumpCfi DumpCfiSpec.

(** ** The map of CIEs *)
Inductive ascends {X} : list (Z * X) -> Prop :=
| as0 : ascends []
| as1 o c m : Forall (fun e => o < fst e) m -> ascends m -> ascends ((o, c) :: m).
Lemma mapIn_in o c m : forall x, In x (map fst (mapIn o c m)) <-> x = o \/ In x (map fst m).
Proof.
  induction m as [|[o' c'] m IH]; intros x; cbn [mapIn map In fst]; [intuition congruence|]. destruct (Z.ltb_spec o o'); [cbn; intuition congruence|]. destruct (Z.eqb_spec o o'); cbn [map In fst]; [subst; intuition congruence|]. rewrite IH. intuition congruence.
Qed.
Lemma mapIn_ascends o c m : ascends m -> ascends (mapIn o c m).
Proof.
  induction 1 as [|o' c' m F A IH]; cbn [mapIn]; [repeat constructor|]. destruct (Z.ltb_spec o o').
  - constructor; [|now constructor]. constructor; [exact H|]. eapply Forall_impl; [|exact F]. intros e B. cbv beta in B. lia.
  - destruct (Z.eqb_spec o o'); [now constructor|]. constructor; [|exact IH]. apply Forall_forall. intros e I. apply (in_map fst) in I. apply mapIn_in in I as [I|I]; [lia|]. apply in_map_iff in I as (e' & I & J). rewrite Forall_forall in F. specialize (F e' J). lia.
Qed.
Lemma find_above {X} o (m : list (Z * X)) : Forall (fun e => o < fst e) m -> find (fun e => fst e =? o) m = None.
Proof. induction 1 as [|e m B F IH]; [reflexivity|]. cbn [find]. now replace (fst e =? o) with false by lia. Qed.
Lemma mapIn_find o c m x : ascends m -> cieFind x (mapIn o c m) = match cieFind x m with Some v => Some v | None => if o =? x then Some c else None end.
Proof.
  unfold cieFind. induction 1 as [|o' c' m F A IH]; cbn [mapIn find fst].
  - destruct (o =? x); reflexivity.
  - destruct (Z.ltb_spec o o').
    + cbn [find fst]. destruct (Z.eqb_spec o x).
      * subst. replace (o' =? x) with false by lia. rewrite find_above; [reflexivity|]. eapply Forall_impl; [|exact F]. intros e B. cbv beta in B. lia.
      * destruct (o' =? x); [reflexivity|]. now destruct (find _ m).
    + destruct (Z.eqb_spec o o').
      * subst. cbn [find fst]. destruct (o' =? x) eqn:E; [reflexivity|]. now destruct (find _ m).
      * cbn [find fst]. destruct (o' =? x) eqn:E; [reflexivity|exact IH].
Qed.
Lemma asMap_gen cs : forall m, ascends m -> ascends (fold_left (fun m e => mapIn (fst e) (snd e) m) cs m) /\
  forall x, cieFind x (fold_left (fun m e => mapIn (fst e) (snd e) m) cs m) = match cieFind x m with Some v => Some v | None => cieFind x cs end.
Proof.
  induction cs as [|[o c] cs IH]; intros m A; cbn [fold_left].
  - split; [exact A|]. intros x. destruct (cieFind x m); reflexivity.
  - cbn [fst snd]. destruct (IH (mapIn o c m) (mapIn_ascends o c m A)) as [A' E]. split; [exact A'|]. intros x. rewrite E, mapIn_find by exact A. destruct (cieFind x m); [reflexivity|]. unfold cieFind at 2. cbn [find fst]. destruct (o =? x); reflexivity.
Qed.
Lemma asMap_spec cs : ascends (asMap cs) /\ forall x, cieFind x (asMap cs) = cieFind x cs.
Proof. destruct (asMap_gen cs [] as0) as [A E]. split; [exact A|]. intros x. exact (E x). Qed.

Lemma find_asc {X} o (c : X) m : ascends m -> In (o, c) m <-> option_map snd (find (fun e => fst e =? o) m) = Some c.
Proof.
  induction 1 as [|o' c' m F A IH]; cbn [find In fst]; [split; [easy|discriminate]|]. destruct (Z.eqb_spec o' o) as [->|N].
  - cbn. split; [|intros [= ->]; now left]. intros [[= ->]|I]; [reflexivity|]. rewrite Forall_forall in F. specialize (F _ I). cbn in F. lia.
  - rewrite <- IH. intuition congruence.
Qed.
(** two ascending lists with the same keys run in parallel *)
Lemma asc_parallel {X Y} (P : Z -> X -> Y -> Prop) : forall l m, ascends l -> ascends m ->
  (forall o x, In (o, x) l -> exists y, In (o, y) m) -> (forall o y, In (o, y) m -> exists x, In (o, x) l /\ P o x y) ->
  Forall2 (fun a b => fst a = fst b /\ P (fst a) (snd a) (snd b)) l m.
Proof.
  induction l as [|[o x] l IH]; intros m A B F G.
  - destruct m as [|[o y] m]; [constructor|]. destruct (G o y (or_introl eq_refl)) as (? & [] & _).
  - assert (AL : Forall (fun e => o < fst e) l /\ ascends l) by (inversion A; now split). destruct AL as [Fl Al]. destruct m as [|[o' y] m]; [destruct (F o x (or_introl eq_refl)) as (? & [])|]. assert (BM : Forall (fun e => o' < fst e) m /\ ascends m) by (inversion B; now split). destruct BM as [Fm Bm].
    rewrite Forall_forall in Fl, Fm.
    assert (E : o = o').
    { destruct (F o x (or_introl eq_refl)) as (y1 & [[= <- <-]|I]); [reflexivity|]. specialize (Fm _ I). cbn in Fm. destruct (G o' y (or_introl eq_refl)) as (x1 & [[= <- <-]|J] & _); [reflexivity|]. specialize (Fl _ J). cbn in Fl. lia. }
    subst o'. constructor.
    + cbn. split; [reflexivity|]. destruct (G o y (or_introl eq_refl)) as (x1 & [[= <-]|J] & R); [exact R|]. specialize (Fl _ J). cbn in Fl. lia.
    + apply IH; try assumption.
      * intros o1 x1 I. destruct (F o1 x1 (or_intror I)) as (y1 & [[= <- <-]|J]); [specialize (Fl _ I); cbn in Fl; lia|now exists y1].
      * intros o1 y1 I. destruct (G o1 y1 (or_intror I)) as (x1 & [[= <- <-]|J] & R); [specialize (Fm _ I); cbn in Fm; lia|]. exists x1. split; assumption.
Qed.
Lemma layout_asc eh all data : forall l off, layout eh all data off l -> (forall o e, In (o, e) l -> 4 <= zlen (entryBytes eh all o e)) -> ascends l /\ Forall (fun e => off <= fst e) l.
Proof.
  induction l as [|[o e] l IH]; intros off LY SZ; [split; constructor|]. cbn [layout] in LY. destruct LY as (-> & _ & LY). pose proof (SZ off e (or_introl eq_refl)) as S1. destruct (IH _ LY ltac:(intros; apply SZ; now right)) as [A F]. split.
  - constructor; [|exact A]. eapply Forall_impl; [|exact F]. intros a B. cbv beta in B. lia.
  - constructor; [cbn; lia|]. eapply Forall_impl; [|exact F]. intros a B. cbv beta in B. lia.
Qed.
Lemma entry_size eh data es : section eh data es -> forall o e, In (o, e) es -> 4 <= zlen (entryBytes eh es o e).
Proof.
  intros (_ & _ & OK & _) o e I. rewrite Forall_forall in OK. specialize (OK _ I). cbn [fst snd] in OK. destruct e as [c|f]; cbn [entryBytes entryOk] in *.
  - unfold cieBytes. rewrite zlen_app. pose proof (lenBytes_ge (scBig c) (zlen (cieBody eh c))). pose proof (zlen_nonneg (cieBody eh c)). lia.
  - destruct OK as (c & E & _). rewrite E. unfold fdeBytes. rewrite zlen_app. pose proof (lenBytes_ge (sfBig f) (zlen (fdeBody eh o c f))). pose proof (zlen_nonneg (fdeBody eh o c f)). lia.
Qed.
Lemma ciesOf_asc (l : list (Z * entry)) : ascends l -> ascends (ciesOf l).
Proof.
  induction 1 as [|o e l F A IH]; [constructor|]. unfold ciesOf. cbn [flat_map fst snd]. fold (ciesOf l). destruct e as [c|f]; [|exact IH]. cbn [app]. constructor; [|exact IH].
  apply Forall_forall. intros x I. unfold ciesOf in I. apply in_flat_map in I as ([o' e'] & J & K). rewrite Forall_forall in F. specialize (F _ J). cbn [fst snd] in *. destruct e'; [|destruct K]. destruct K as [<-|[]]. exact F.
Qed.
Lemma in_ciesOf es o c : In (o, c) (ciesOf es) <-> In (o, ECie c) es.
Proof.
  unfold ciesOf. rewrite in_flat_map. split.
  - intros ([o' e] & I & J). cbn in J. destruct e; [|destruct J]. destruct J as [[= <- <-]|[]]. exact I.
  - intros I. exists (o, ECie c). split; [exact I|now left].
Qed.

(** ** Documents *)
Lemma dec_plain n : 0 <= n < 2 ^ 64 -> plainText (decText 20 n) (decText 20 n) /\ canonical 10 (decText 20 n) n.
Proof.
  intros B. assert (C : canonical 10 (decText 20 n) n) by (apply decText_canon; unfold isWord; lia). split; [|exact C]. apply ascii_plain. destruct C as [C _]. apply numeral_digits in C as [_ F]. eapply Forall_impl; [|exact F]. intros c D. unfold isDigit in D. lia.
Qed.
Section C.
Context (data : list Z) (eh : bool) (sa : Z) (es : list (Z * entry)) (prog : Z -> list xinsn) (SEC : section eh data es) (PR : programs es prog).
Lemma W : Forall isByte data /\ zlen data + 32 < W64.
Proof using SEC. destruct SEC as (A & B & _). split; [exact A|]. unfold W64. change (2 ^ 63) with 9223372036854775808 in B. lia. Qed.
Lemma cie_doc o c c' : In (o, ECie c) es -> isCie data c' c -> exists v m, dumpCie data c' = Ok v /\ means v (snd m) /\ fst m = decText 20 o /\ cieDoc data prog (o, c) m.
Proof using SEC PR.
  intros I (E1 & E2 & E3 & E4 & E5 & E6 & E7 & E8 & L & E9). destruct W as [Hd Hw]. unfold programs in PR. rewrite Forall_forall in PR. destruct (PR _ I) as (EP & [Ho Hs] & PT). cbn [fst snd insnsOf printable] in *. destruct SEC as (_ & HL & OK & _). rewrite Forall_forall in OK. specialize (OK _ I). cbn [fst snd entryOk] in OK. destruct OK as (V & C & D & R & LB & AU).
  rewrite EP in L, E9. destruct (insns_means data (cInsns c') (prog o) Hd Hw Ho Hs L) as (v & Ev & M). unfold dumpCie. rewrite E9, Ev. cbn [bind].
  assert (PL := section_placed eh data es SEC o (ECie c) I). 
  eexists. exists (decText 20 o, XObj [(lit "version", XNum (scVersion c)); (lit "augmentation", XStr (augText c)); (lit "codeAlign", XNum (scCode c)); (lit "dataAlign", XNum (scData c));
     (lit "return address reg", XNum (scRar c)); (lit "instruction length", XNum (zlen (scInsns c))); (lit "LSDA encoding", XNum (scLsda c)); (lit "instructions", XArr (insnDocs (cInsns c') (prog o)))]).
  split; [reflexivity|]. cbn [fst snd].
  assert (LN : 0 <= zlen (scInsns c) < 2 ^ 63). { split; [apply zlen_nonneg|]. rewrite EP. pose proof (at_zlen_le _ _ _ L). lia. }
  assert (LS : isByte (scLsda c)).
  { unfold scLsda. destruct (scAugs c) as [[[l letters] bs]|]; [|unfold isByte; lia]. destruct AU as (F & _ & _). assert (G : forall k, isByte k -> isByte (fold_left (fun k a => match a with AugL k' => k' | _ => k end) l k)); [|apply G; unfold isByte; lia].
    induction F as [|a l Fa F IH]; intros k K; [exact K|]. cbn [fold_left]. apply IH. destruct a; try exact K. exact Fa. }
  split; [|split; [reflexivity|]].
  - unfold nf. apply mObj. rewrite E1, E2, E4, E5, E6, E8. replace (u64 (cInsns c' + zlen (encodeXs (prog o)) - cInsns c')) with (zlen (scInsns c)) by (rewrite EP in *; rewrite u64_id; [lia|unfold isU64, W64; lia]).
    repeat first [apply mmNil | apply mmCons; [ascii| |]]; try apply mInt; try (change (2 ^ 63) with 9223372036854775808 in *; change (2 ^ 64) with 18446744073709551616; unfold isByte in *; lia); [apply mStr; now apply ascii_plain|exact M].
  - cbn [cieDoc fst snd]. split.
    + apply dec_plain. destruct PL as (_ & _ & PL). pose proof (proj1 PL). pose proof (entry_size eh data es SEC o _ I) as SZ. pose proof (at_len _ _ _ PL) as AL. assert (NE : entryBytes eh es o (ECie c) <> []) by (intros X; rewrite X in SZ; change (zlen (@nil Z)) with 0 in SZ; lia). specialize (AL NE). lia.
    + exists (XArr (insnDocs (cInsns c') (prog o))). split; [|reflexivity]. exists (cInsns c'). split; [exact L|reflexivity].
Qed.
Lemma fde_doc x f' : In (fst x, EFde (snd x)) es -> isFde data sa es f' x -> exists v d, dumpFde data (Some f') = Ok v /\ means v d /\ fdeDoc data sa es prog x d.
Proof using SEC PR.
  intros I (c & CO & E1 & E2 & E3 & E4 & L & E9 & _). destruct x as [o f]. cbn [fst snd] in *. destruct W as [Hd Hw]. unfold programs in PR. rewrite Forall_forall in PR. destruct (PR _ I) as (EP & [Ho Hs] & _). cbn [fst snd insnsOf] in *. destruct SEC as (_ & HL & OK & _). rewrite Forall_forall in OK. specialize (OK _ I). cbn [fst snd entryOk] in OK. destruct OK as (c2 & CO2 & OK). assert (c2 = c) as -> by congruence. destruct OK as (_ & RG & R0 & _).
  rewrite EP in L, E9. destruct (insns_means data (fInsns f') (prog o) Hd Hw Ho Hs L) as (v & Ev & M). unfold dumpFde. rewrite E9, Ev. cbn [bind].
  eexists. exists (XObj [(lit "loc", XNum (startOf sa es (o, f))); (lit "range", XNum (sfRange f)); (lit "instructions", XArr (insnDocs (fInsns f') (prog o)))]).
  split; [reflexivity|]. split.
  - unfold nf. apply mObj. assert (SO : startOf sa es (o, f) = fLoc f') by (unfold startOf; cbn [fst snd]; now rewrite CO, E1). rewrite SO, E2.
    repeat first [apply mmNil | apply mmCons; [ascii| |]]; [| |exact M].
    + apply mInt. rewrite E1. unfold fdeStart, target. pose proof (Z.mod_pos_bound (sfLoc f + match snd (scEnc c) with AAbs => 0 | APcrel => sa + (o + headLen (sfBig f)) | ATextrel | ADatarel => sa end) (2 ^ 64) ltac:(lia)). lia.
    + apply mInt. destruct RG as [_ RG]. destruct (fst (scEnc c)); cbn [fmtRange] in RG; unfold W64, W32, W16 in *; change (2 ^ 63) with 9223372036854775808 in *; change (2 ^ 64) with 18446744073709551616 in *; lia.
  - exists (XArr (insnDocs (fInsns f') (prog o))). split; [|reflexivity]. exists (fInsns f'). split; [exact L|reflexivity].
Qed.

Lemma cies_docs cs : (forall o c', In (o, c') cs -> exists c, In (o, ECie c) es /\ isCie data c' c) -> forall cl, Forall2 (fun a b => fst a = fst b /\ In (fst a, ECie (snd b)) es /\ isCie data (snd a) (snd b)) cs cl ->
  exists l ms, dumpAll (fun e => let* d := dumpCie data (snd e) in Ok (decText 20 (fst e), d)) cs = Ok l /\ meanM l ms /\ Forall2 (cieDoc data prog) cl ms.
Proof using SEC PR.
  intros _ cl F. induction F as [|[o c'] [o2 c] cs cl (E & I & Q) F IH]; [exists [], []; repeat split; constructor|]. cbn [fst snd] in *. subst o2. destruct IH as (l & ms & El & M & D). destruct (cie_doc o c c' I Q) as (v & m & Ev & Mv & K & Dm). cbn [dumpAll fst snd]. rewrite Ev. cbn [bind]. rewrite El. cbn [bind].
  exists ((decText 20 o, v) :: l), (m :: ms). split; [reflexivity|]. split; [|constructor; assumption]. destruct m as [mk mv]. cbn [fst snd] in *. subst mk. constructor; [|exact Mv|exact M].
  apply dec_plain. pose proof (section_placed eh data es SEC o (ECie c) I) as (_ & _ & PL). pose proof (proj1 PL). pose proof (entry_size eh data es SEC o _ I) as SZ. pose proof (at_len _ _ _ PL) as AL. assert (NE : entryBytes eh es o (ECie c) <> []) by (intros X; rewrite X in SZ; change (zlen (@nil Z)) with 0 in SZ; lia). specialize (AL NE). destruct SEC as (_ & HL & _). change (2 ^ 63) with 9223372036854775808 in HL. lia.
Qed.
Lemma fdes_docs l fs : (forall x, In x fs -> In (fst x, EFde (snd x)) es) -> Forall2 (fun s x => exists f', s = Some f' /\ isFde data sa es f' x) l fs ->
  exists vs ds, dumpAll (dumpFde data) l = Ok vs /\ meanL vs ds /\ Forall2 (fdeDoc data sa es prog) fs ds.
Proof using SEC PR.
  intros S F. induction F as [|s x l fs (f' & -> & Q) F IH]; [exists [], []; repeat split; constructor|]. destruct IH as (vs & ds & E & M & D); [intros; apply S; now right|]. destruct (fde_doc x f' (S _ (or_introl eq_refl)) Q) as (v & d & Ev & Mv & Dd). cbn [dumpAll]. rewrite Ev. cbn [bind]. rewrite E. cbn [bind]. exists (v :: vs), (d :: ds). repeat split; constructor; assumption.
Qed.
(** the whole, from what is known of the CIEs and of the answer to getFDEs *)
Lemma cfi_doc fuel k cl fs : ascends cl -> (forall o c, In (o, c) cl -> In (o, ECie c) es) ->
  (forall o c', cieFind o (kCies k) = Some c' -> exists c, In (o, c) cl /\ isCie data c' c) -> (forall o c, In (o, c) cl -> exists c', cieFind o (kCies k) = Some c') ->
  (forall x, In x fs -> In (fst x, EFde (snd x)) es) -> rightReply data sa es fs ListAll (RList (snd (get_fdes data eh sa fuel k))) ->
  exists v d, dumpCfi data eh sa fuel k = Ok v /\ means v d /\ cfiDoc data sa es prog cl fs d.
Proof using SEC PR.
  intros AC CS CI ALL FS RR. destruct (asMap_spec (kCies k)) as [AM EM].
  assert (IN : forall o c', In (o, c') (asMap (kCies k)) <-> cieFind o (kCies k) = Some c') by (intros o c'; rewrite (find_asc o c' _ AM); fold (cieFind o (asMap (kCies k))); now rewrite EM).
  assert (F2 : Forall2 (fun a b => fst a = fst b /\ In (fst a, ECie (snd b)) es /\ isCie data (snd a) (snd b)) (asMap (kCies k)) cl).
  { apply (asc_parallel (fun o c' c => In (o, ECie c) es /\ isCie data c' c)); try assumption.
    - intros o c' I. apply IN in I. destruct (CI o c' I) as (c & J & _). now exists c.
    - intros o c I. destruct (ALL o c I) as (c' & E). exists c'. split; [now apply IN|]. split; [now apply CS|]. destruct (CI o c' E) as (c2 & J & Q). rewrite (find_asc o c2 _ AC) in J. rewrite (find_asc o c _ AC) in I. assert (c2 = c) as -> by congruence. exact Q. }
  destruct (cies_docs (asMap (kCies k)) ltac:(intros o c' I; apply IN in I; destruct (CI o c' I) as (c & J & Q); exists c; split; [now apply CS|exact Q]) cl F2) as (l & ms & El & M & D).
  unfold dumpCfi. rewrite El. cbn [bind]. destruct (snd (get_fdes data eh sa fuel k)) as [fl| | |]; cbn [rightReply] in RR; try contradiction. destruct RR as (fs' & P1 & P2 & P3 & P4). cbn [bind].
  destruct (fdes_docs fl fs' ltac:(intros x I; apply FS; now apply P1) P4) as (vs & ds & E & MV & DV). rewrite E. cbn [bind].
  eexists. exists (XObj [(lit "cielist", XObj ms); (lit "fdelist", XArr ds)]). split; [reflexivity|]. split.
  - apply mObj. repeat first [apply mmNil | apply mmCons; [ascii| |]]; [now apply mMap|now apply mList].
  - exists ms, ds, fs'. repeat split; try assumption; apply P1.
Qed.
End C.
