(** Proofs about address-to-unit lookup. *)
From Verif Require Import Base Leb LebSpec DwarfReader DwarfReaderProofs CfiSpec CfiProofs ExprProofs Cursor LinesSpec LinesProofs Aranges ArangesSpec.

(** ** The map *)
Definition exactOf (i : ival) : Z * (Z * Z) := (iEnd i, (iEnd i - iStart i, iUnit i)).
Definition looseOf (i : ival) : Z * (Z * Z) := (iEnd i, (iStart i, iUnit i)).
Definition Inv (m : amap) (E R : list ival) : Prop :=
  (forall e, In e m -> (exists u, e = (0, (0, u))) \/ (exists i, In i E /\ e = exactOf i) \/ (exists i, In i R /\ e = looseOf i)) /\
  (forall i, In i E \/ In i R -> exists e, In e m /\ fst e = iEnd i).

Lemma amInsert_in k l u m e : In e (amInsert k l u m) <-> e = (k, (l, u)) \/ (In e m /\ fst e <> k).
Proof.
  unfold amInsert. cbn [In]. rewrite filter_In. split; intros [H|H]; auto.
  - right. destruct H as [H1 H2]. split; [exact H1|]. destruct (fst e =? k) eqn:X; [discriminate|lia].
  - right. destruct H as [H1 H2]. split; [exact H1|]. destruct (fst e =? k) eqn:X; [lia|reflexivity].
Qed.
Lemma Inv_nil : Inv [] [] [].
Proof. split; [intros e []|intros i [[]|[]]]. Qed.
Lemma Inv_end m E R u : Inv m E R -> Forall ivOk E -> Forall ivOk R -> Inv (amInsert 0 0 u m) E R.
Proof.
  rewrite !Forall_forall.
  intros [A B] HE HR. split.
  - intros e H. apply amInsert_in in H as [->|[H _]]; [left; eauto|auto].
  - intros i H. destruct (B i H) as (e & H1 & H2). exists e. split; [|exact H2]. apply amInsert_in. right. split; [exact H1|].
    assert (ivOk i) as [? ?] by (destruct H; auto). lia.
Qed.
Lemma Inv_exact m E R i : Inv m E R -> Inv (amInsert (iEnd i) (iEnd i - iStart i) (iUnit i) m) (E ++ [i]) R.
Proof.
  intros [A B]. split.
  - intros e H. apply amInsert_in in H as [->|[H _]].
    + right. left. exists i. split; [apply in_or_app; right; now left|reflexivity].
    + destruct (A e H) as [?|[(j & H1 & H2)|?]]; auto. right. left. exists j. split; [apply in_or_app; now left|exact H2].
  - intros j H. destruct (Z.eq_dec (iEnd j) (iEnd i)) as [Ej|Nj].
    + exists (iEnd i, (iEnd i - iStart i, iUnit i)). split; [apply amInsert_in; now left|cbn; lia].
    + destruct (B j) as (e & H1 & H2).
      { destruct H as [H|H]; [|now right]. apply in_app_or in H as [H|[<-|[]]]; [now left|congruence]. }
      exists e. split; [apply amInsert_in; right; split; [exact H1|lia]|exact H2].
Qed.
Lemma Inv_loose m E R i : Inv m E R -> Inv (amInsert (iEnd i) (iStart i) (iUnit i) m) E (R ++ [i]).
Proof.
  intros [A B]. split.
  - intros e H. apply amInsert_in in H as [->|[H _]].
    + right. right. exists i. split; [apply in_or_app; right; now left|reflexivity].
    + destruct (A e H) as [?|[?|(j & H1 & H2)]]; auto. right. right. exists j. split; [apply in_or_app; now left|exact H2].
  - intros j H. destruct (Z.eq_dec (iEnd j) (iEnd i)) as [Ej|Nj].
    + exists (iEnd i, (iStart i, iUnit i)). split; [apply amInsert_in; now left|cbn; lia].
    + destruct (B j) as (e & H1 & H2).
      { destruct H as [H|H]; [now left|]. apply in_app_or in H as [H|[<-|[]]]; [now right|congruence]. }
      exists e. split; [apply amInsert_in; right; split; [exact H1|lia]|exact H2].
Qed.

Lemma amUpper_some m a e : amUpper m a = Some e -> In e m /\ fst e > a /\ (forall e', In e' m -> fst e' > a -> fst e <= fst e').
Proof.
  revert e; induction m as [|x m IH]; intros e H; [discriminate|]. cbn [amUpper] in H.
  destruct (fst x >? a) eqn:X.
  - destruct (amUpper m a) as [y|] eqn:Y.
    + destruct (IH y eq_refl) as (I1 & I2 & I3). destruct (fst y <? fst x) eqn:L; inversion H; subst.
      * split; [now right|]. split; [lia|]. intros e' [<-|H'] G; [lia|auto].
      * split; [now left|]. split; [lia|]. intros e' [<-|H'] G; [lia|]. specialize (I3 e' H' G). lia.
    + inversion H; subst. split; [now left|]. split; [lia|]. intros e' [<-|H'] G; [lia|]. exfalso.
      clear -Y H' G. induction m as [|z m IH]; [easy|]. cbn [amUpper] in Y. destruct H' as [->|H'].
      * replace (fst e' >? a) with true in Y by lia. destruct (amUpper m a) as [w|]; [destruct (fst w <? fst e')|]; discriminate.
      * destruct (fst z >? a); [destruct (amUpper m a) as [w|]; [destruct (fst w <? fst z)|]; discriminate|auto].
  - destruct (IH e H) as (I1 & I2 & I3). split; [now right|]. split; [lia|]. intros e' [<-|H'] G; [lia|auto].
Qed.
Lemma amUpper_none m a e : amUpper m a = None -> In e m -> fst e <= a.
Proof.
  induction m as [|z m IH]; [easy|]. intros Y H'. cbn [amUpper] in Y. destruct (fst z >? a) eqn:X.
  - destruct (amUpper m a) as [w|]; [destruct (fst w <? fst z)|]; discriminate.
  - destruct H' as [->|H']; [lia|auto].
Qed.

Lemma hit_found m E R a i : Inv m E R -> consistent (E ++ R) ->
  Forall (fun r => iEnd r - iStart r <= iStart r) R -> In i (E ++ R) -> ivCovers i a -> amHit m a = Some (iUnit i).
Proof.
  intros [A B] [Ok Dj] HR Hi Hc. rewrite Forall_forall in Ok, HR. unfold ivCovers in Hc.
  destruct (B i) as (e & He & Ke). { apply in_app_or in Hi; tauto. }
  unfold amHit. destruct (amUpper m a) as [[k [l u]]|] eqn:U; [|pose proof (amUpper_none _ _ e U He); lia].
  apply amUpper_some in U as (U1 & U2 & U3). cbn [fst] in *. specialize (U3 e He ltac:(lia)).
  pose proof (Ok i Hi) as [? ?].
  destruct (A _ U1) as [(w & X)|[(j & Hj & X)|(j & Hj & X)]]; inversion X; subst; [lia| |].
  - assert (Ij : In j (E ++ R)) by (apply in_or_app; now left). destruct (Ok j Ij) as [? ?]. destruct (Dj i j Hi Ij) as [<-|D]; [|unfold ivDisjoint in D; lia].
    rewrite u64_id by (unfold isU64; lia). replace (_ <=? a) with true by lia. reflexivity.
  - assert (Ij : In j (E ++ R)) by (apply in_or_app; now right). destruct (Ok j Ij) as [? ?]. destruct (Dj i j Hi Ij) as [<-|D]; [|unfold ivDisjoint in D; lia].
    specialize (HR i Hj). rewrite u64_id by (unfold isU64; lia). replace (_ <=? a) with true by lia. reflexivity.
Qed.
Lemma hit_none m E a : Inv m E [] -> Forall ivOk E -> 0 <= a -> (forall i, In i E -> ~ ivCovers i a) -> amHit m a = None.
Proof.
  intros [A B] Ok Ha N. rewrite Forall_forall in Ok.
  unfold amHit. destruct (amUpper m a) as [[k [l u]]|] eqn:U; [|reflexivity].
  apply amUpper_some in U as (U1 & U2 & U3). cbn [fst] in *.
  destruct (A _ U1) as [(w & X)|[(j & Hj & X)|(j & [] & X)]]; inversion X; subst; [lia|].
  destruct (Ok j Hj) as [? ?]. specialize (N j Hj). unfold ivCovers in N. rewrite u64_id by (unfold isU64; lia).
  replace (_ <=? a) with false by lia. reflexivity.
Qed.

Lemma hit_none_loose m E R a : Inv m E R -> Forall ivOk E -> Forall ivOk R -> 0 <= a -> (forall i, In i E -> ~ ivCovers i a) ->
  (forall i, In i R -> ~ (iEnd i - iStart i <= a < iEnd i)) -> amHit m a = None.
Proof.
  intros [A B] Ok OkR Ha N NR. rewrite Forall_forall in Ok, OkR.
  unfold amHit. destruct (amUpper m a) as [[k [l u]]|] eqn:U; [|reflexivity].
  apply amUpper_some in U as (U1 & U2 & U3). cbn [fst] in *.
  destruct (A _ U1) as [(w & X)|[(j & Hj & X)|(j & Hj & X)]]; inversion X; subst; [lia| |].
  - destruct (Ok j Hj) as [? ?]. specialize (N j Hj). unfold ivCovers in N. rewrite u64_id by (unfold isU64; lia).
    replace (_ <=? a) with false by lia. reflexivity.
  - destruct (OkR j Hj) as [? ?]. specialize (NR j Hj). rewrite u64_id by (unfold isU64; lia). replace (_ <=? a) with false by lia. reflexivity.
Qed.

(** ** Parsing *)
Section Parse.
Context (data : list Z) (Hd : Forall isByte data) (Hw : zlen data + 32 < W64).
Lemma pow256 n : (n <= 8)%nat -> 256 ^ Z.of_nat n <= W64.
Proof. intros H. change W64 with (256 ^ 8). apply Z.pow_le_mono_r; lia. Qed.

Lemma tuples_ok n ts : (0 < n <= 8)%nat -> forall fuel m E R off next unit rest,
  Forall (fun t => 0 <= fst t /\ 0 < snd t /\ fst t + snd t < 256 ^ Z.of_nat n) ts ->
  Forall ivOk E -> Forall ivOk R ->
  Inv m E R -> at_ data off (flat_map (encodeTuple n) (ts ++ [(0, 0)]) ++ rest) -> next = off + zlen (flat_map (encodeTuple n) (ts ++ [(0, 0)])) ->
  (length ts + 1 < fuel)%nat ->
  exists m', arTuples fuel data m off next (Z.of_nat n) unit = (m', Ok next) /\ at_ data next rest /\
    Inv m' (E ++ map (fun t => mkIv (fst t) (fst t + snd t) unit) ts) R.
Proof.
  intros Hn. induction ts as [|[s l] ts IH]; intros fuel m E R off next unit rest Ht HE HR I H Hnext Hf.
  - destruct fuel as [|fuel]; [lia|]. cbn [app flat_map] in *. unfold encodeTuple at 1 in H. cbn [fst snd] in H.
    rewrite app_nil_r in *. rewrite <- !app_assoc in H.
    assert (L : zlen (encodeTuple n (0, 0)) = 2 * Z.of_nat n) by (unfold encodeTuple; rewrite zlen_app, !leBytes_len; lia).
    cbn [arTuples]. replace (off <? next) with true by lia.
    assert (P : 0 <= 0 < 256 ^ Z.of_nat n) by (split; [lia|apply Z.pow_pos_nonneg; lia]).
    apply (rd_uint data Hd Hw) in H as [E1 H]; [|lia|exact P]. apply (rd_uint data Hd Hw) in H as [E2 H]; [|lia|exact P].
    rewrite E1. cbn [bind]. rewrite E2. cbn [bind].
    destruct fuel as [|fuel]; [cbn in Hf; lia|]. cbn [arTuples]. replace (_ <? next) with false by lia.
    replace (off + Z.of_nat n + Z.of_nat n) with next in * by lia.
    eexists. split; [reflexivity|]. split; [exact H|]. cbn [map]. rewrite ?app_nil_r. change (u64 (0 + 0)) with 0. now apply Inv_end.
  - destruct fuel as [|fuel]; [lia|]. cbn [app flat_map] in *. unfold encodeTuple at 1 in H. cbn [fst snd] in H.
    rewrite <- !app_assoc in H. inversion Ht as [|? ? [Hs [Hl Hsl]] Ht']; subst. cbn [fst snd] in *.
    pose proof (pow256 n ltac:(lia)) as P.
    assert (L : zlen (encodeTuple n (s, l)) = Z.of_nat n + Z.of_nat n) by (unfold encodeTuple; rewrite zlen_app, !leBytes_len; lia).
    rewrite zlen_app, !L.
    set (k := zlen (flat_map (encodeTuple n) (ts ++ [(0, 0)]))) in *. assert (0 <= k) by apply zlen_nonneg.
    cbn [arTuples]. replace (off <? _) with true by lia.
    apply (rd_uint data Hd Hw) in H as [E1 H]; [|lia|lia]. apply (rd_uint data Hd Hw) in H as [E2 H]; [|lia|lia].
    rewrite E1. cbn [bind]. rewrite E2. cbn [bind].
    rewrite u64_id by (unfold isU64; lia).
    pose (i := mkIv s (s + l) unit).
    destruct (IH fuel (amInsert (s + l) l unit m) (E ++ [i]) R (off + Z.of_nat n + Z.of_nat n) (off + (Z.of_nat n + Z.of_nat n + k)) unit rest) as (m' & F1 & F2 & F3); auto.
    + apply Forall_app. split; [exact HE|]. constructor; [|constructor]. unfold ivOk, i; cbn. lia.
    + pose proof (Inv_exact m E R i I) as X. unfold i in X at 1 2 3 4. cbn [iEnd iStart iUnit] in X. replace (s + l - s) with l in X by lia. exact X.
    + lia.
    + cbn [length] in Hf. lia.
    + exists m'. split; [exact F1|]. split; [exact F2|]. cbn [map fst snd]. rewrite <- app_assoc in F3. exact F3.
Qed.

Lemma tuples_len n ts : zlen (flat_map (encodeTuple n) ts) = 2 * Z.of_nat n * zlen ts.
Proof.
  induction ts as [|t ts IH]; [cbn; lia|]. cbn [flat_map]. rewrite zlen_app, zlen_cons, IH. unfold encodeTuple. rewrite zlen_app, !leBytes_len. lia.
Qed.
Lemma encodeSet_len s : zlen (encodeSet s) = 16 + 2 * Z.of_nat (asSize s) * (zlen (asTuples s) + 1).
Proof.
  unfold encodeSet, unitLength. rewrite !zlen_app, !leBytes_len, tuples_len, zlen_app.
  change (zlen [(0, 0)]) with 1. change (zlen [0; 0; 0; 0]) with 4. change (zlen [Z.of_nat (asSize s); 0]) with 2. lia.
Qed.
Lemma set_ok s fuel m E R off rest : wfSet s -> Forall ivOk E -> Forall ivOk R -> Inv m E R -> at_ data off (encodeSet s ++ rest) ->
  (length (asTuples s) + 1 < fuel)%nat ->
  exists m', arSet fuel data m off = (m', Ok (off + zlen (encodeSet s))) /\ at_ data (off + zlen (encodeSet s)) rest /\
    Inv m' (E ++ setIvals s) R.
Proof.
  intros (Hu & Hn & Ht & Hl) HE HR I H Hf. rewrite encodeSet_len in *. unfold encodeSet in H. cbv zeta in H.
  pose proof (at_len _ _ _ H) as HL. pose proof H as [H0 _].
  match type of HL with ?l <> [] -> _ => assert (Hne : l <> []) by (unfold unitLength; cbn [leBytes app]; discriminate) end. specialize (HL Hne). clear Hne.
  set (body := leBytes 2 2 ++ _) in *.
  assert (Lb : zlen body = 12 + 2 * Z.of_nat (asSize s) * (zlen (asTuples s) + 1)).
  { unfold body. rewrite !zlen_app, !leBytes_len, tuples_len, zlen_app.
    change (zlen [(0, 0)]) with 1. change (zlen [0; 0; 0; 0]) with 4. change (zlen [Z.of_nat (asSize s); 0]) with 2. lia. }
  pose proof (zlen_nonneg (asTuples s)).
  rewrite <- app_assoc in H. unfold arSet.
  apply (getlength_at data off false (zlen body)) in H as [E1 H]; [|assumption|assumption|nia].
  cbn zeta in *. rewrite E1. cbn [bind]. unfold body in H. rewrite <- !app_assoc in H.
  apply (rd_u16 data Hw) in H as [E2 H]; [|unfold W16; lia]. rewrite E2. cbn [bind].
  apply (rd_u32 data Hd Hw) in H as [E3 H]; [|lia]. rewrite E3. cbn [bind]. cbn [app] in H.
  apply (rd_u8 data Hw) in H as [E4 H]. rewrite E4. cbn [bind].
  apply (rd_u8 data Hw) in H as [E5 H]. rewrite E5. cbn [bind].
  change (0 =? 0) with true. cbn [negb].
  replace (Z.of_nat (asSize s) =? 0) with false by lia.
  repeat (apply at_cons in H as [_ H]).
  assert (Al : Z.of_nat (asSize s) * 2 - (off + 4 + 2 + 4 + 1 + 1 - off) mod (Z.of_nat (asSize s) * 2) = 4).
  { replace (off + 4 + 2 + 4 + 1 + 1 - off) with 12 by lia. destruct Hn as [->| ->]; reflexivity. }
  rewrite Al.
  rewrite zlen_app in HL. unfold unitLength in HL. cbv iota in HL. rewrite zlen_app in HL. rewrite leBytes_len in HL. pose proof (zlen_nonneg rest).
  rewrite u64_id by (unfold isU64; lia).
  destruct (tuples_ok (asSize s) (asTuples s) ltac:(lia) fuel m E R (off + 4 + 2 + 4 + 1 + 1 + 4) (off + 4 + zlen body) (asUnit s) rest) as (m' & F1 & F2 & F3); auto.
  - replace (off + 4 + 2 + 4 + 1 + 1 + 4) with (off + 4 + 2 + 4 + 1 + 1 + 1 + 1 + 1 + 1) by lia. exact H.
  - rewrite tuples_len, zlen_app. change (zlen [(0, 0)]) with 1. lia.
  - replace (off + (16 + 2 * Z.of_nat (asSize s) * (zlen (asTuples s) + 1))) with (off + 4 + zlen body) by lia.
    exists m'. split; [exact F1|]. split; [exact F2|]. exact F3.
Qed.
End Parse.

Lemma setIvals_ok s : wfSet s -> Forall ivOk (setIvals s).
Proof.
  intros (_ & Hn & Ht & _). unfold setIvals. rewrite Forall_map. eapply Forall_impl; [|exact Ht]. cbn. intros t (A & B & C).
  unfold ivOk; cbn. pose proof (pow256 (asSize s) ltac:(lia)). lia.
Qed.

Lemma section_ok sets data : Forall isByte data -> zlen data + 32 < W64 -> forall fuel m E off,
  Forall wfSet sets -> Forall ivOk E -> Inv m E [] -> at_ data off (flat_map encodeSet sets) -> zlen data = off + zlen (flat_map encodeSet sets) ->
  zlen (flat_map encodeSet sets) < Z.of_nat fuel ->
  exists m', arSection fuel data m off = (m', Ok tt) /\ Inv m' (E ++ flat_map setIvals sets) [].
Proof.
  intros Hd Hw. induction sets as [|s sets IH]; intros fuel m E off Hs HE I H He Hf.
  - destruct fuel as [|fuel]; [cbn in Hf; lia|]. cbn [arSection flat_map] in *. change (zlen (@nil Z)) with 0 in He.
    replace (off =? zlen data) with true by lia. exists m. rewrite app_nil_r. auto.
  - destruct fuel as [|fuel]; [pose proof (zlen_nonneg (flat_map encodeSet (s :: sets))); lia|]. cbn [arSection flat_map] in *.
    inversion Hs as [|? ? W Hs']; subst. rewrite zlen_app in *. pose proof (encodeSet_len s) as L.
    pose proof (zlen_nonneg (asTuples s)). pose proof (zlen_nonneg (flat_map encodeSet sets)). pose proof W as (_ & Wn & _).
    replace (off =? zlen data) with false by nia.
    destruct (set_ok data Hd Hw s (S fuel) m E [] off (flat_map encodeSet sets)) as (m' & F1 & F2 & F3); auto.
    { unfold zlen in *. nia. }
    rewrite F1. destruct (IH fuel m' (E ++ setIvals s) (off + zlen (encodeSet s))) as (m'' & G1 & G2); auto.
    + apply Forall_app. split; [exact HE|now apply setIvals_ok].
    + lia.
    + nia.
    + exists m''. rewrite G1. split; [reflexivity|]. now rewrite app_assoc.
Qed.

(** ** The fallback and histories *)
(** DWARF forms of class address (DW_FORM_addr, addrx, addrx1-4) and of class constant. *)
Definition addrxForms : list Z := [27; 41; 42; 43; 44].
Definition constForms : list Z := [11; 5; 6; 7; 13; 15].
Inductive highRel : Z * Z -> high -> Prop :=
| HR_addr a : highRel (1, a) (HighAddr a)
| HR_const f n : In f constForms -> highRel (f, n) (HighSize n).
Inductive unitRel : rootUnit -> sunit -> Prop :=
| UR o l h sh rs : highRel h sh -> unitRel (mkRoot o (Some l) (Some h) (Some rs)) (mkSU o (Some (l, sh)) rs)
| UR_noranges o l h sh : highRel h sh -> unitRel (mkRoot o (Some l) (Some h) None) (mkSU o (Some (l, sh)) [])
| UR_nohigh o l rs : unitRel (mkRoot o l None (Some rs)) (mkSU o None rs)
| UR_nothing o l : unitRel (mkRoot o l None None) (mkSU o None []).

Lemma ranges_ok o rs : forall m E R, Inv m E R ->
  Inv (fold_left (fun m r => amInsert (snd r) (fst r) o m) rs m) E (R ++ map (fun r => mkIv (fst r) (snd r) o) rs).
Proof.
  induction rs as [|r rs IH]; intros m E R I; cbn [fold_left map]; [now rewrite app_nil_r|].
  replace (R ++ _ :: _) with ((R ++ [mkIv (fst r) (snd r) o]) ++ map (fun r => mkIv (fst r) (snd r) o) rs) by (rewrite <- app_assoc; reflexivity).
  apply IH. exact (Inv_loose m E R (mkIv (fst r) (snd r) o) I).
Qed.
Lemma pc_ok o l h sh m E R : highRel h sh -> Forall ivOk (pcIval (mkSU o (Some (l, sh)) [])) -> Inv m E R ->
  Inv (let '(form, h0) := h in let high := if form =? DW_FORM_addr then h0 else u64 (h0 + l) in amInsert high (u64 (high - l)) o m)
      (E ++ pcIval (mkSU o (Some (l, sh)) [])) R.
Proof.
  intros Hh Ok I. inversion Hh as [a X Y|f n Hf X Y]; subst; cbn [pcIval suPc suOff] in *; apply Forall_inv in Ok; destruct Ok as [A B]; cbn [iStart iEnd] in *.
  - change (1 =? DW_FORM_addr) with true. cbv zeta iota. rewrite u64_id by (unfold isU64; lia). exact (Inv_exact m E R (mkIv l a o) I).
  - replace (f =? DW_FORM_addr) with false.
    2: { unfold DW_FORM_addr. cbn [In constForms] in Hf. destruct Hf as [<-|[<-|[<-|[<-|[<-|[<-|[]]]]]]]; reflexivity. }
    cbv zeta. replace (n + l) with (l + n) by lia. rewrite (u64_id (l + n)) by (unfold isU64; lia). rewrite u64_id by (unfold isU64; lia).
    exact (Inv_exact m E R (mkIv l (l + n) o) I).
Qed.
Lemma unit_ok u su m E R : unitRel u su -> Forall ivOk (pcIval su) -> Inv m E R -> Inv (arUnit m u) (E ++ pcIval su) (R ++ rangeIvals su).
Proof.
  intros Hu Ok I. unfold arUnit. inversion Hu as [o l h sh rs Hh X Y|o l h sh Hh X Y|o l rs X Y|o l X Y]; subst; cbn [uLow uHigh uRanges uOff] in *; unfold rangeIvals; cbn [suRanges suOff].
  - destruct h as [f h]. apply ranges_ok. exact (pc_ok o l (f, h) sh m E R Hh Ok I).
  - destruct h as [f h]. cbn [map]. rewrite app_nil_r. exact (pc_ok o l (f, h) sh m E R Hh Ok I).
  - destruct l; cbn [pcIval suPc]; rewrite app_nil_r; now apply ranges_ok.
  - destruct l; cbn [pcIval suPc map]; now rewrite !app_nil_r.
Qed.
Lemma units_ok us sus : Forall2 unitRel us sus -> forall m E R, Forall ivOk (flat_map pcIval sus) -> Inv m E R ->
  Inv (fold_left arUnit us m) (E ++ flat_map pcIval sus) (R ++ flat_map rangeIvals sus).
Proof.
  induction 1 as [|u su us sus Hu _ IH]; intros m E R Ok I; cbn [fold_left flat_map]; [now rewrite !app_nil_r|].
  cbn [flat_map] in Ok. apply Forall_app in Ok as [O1 O2]. rewrite !app_assoc. apply IH; [exact O2|]. now apply unit_ok.
Qed.

(** Reachable states: not loaded, loaded, loaded and extended by the units. *)
Section Hist.
Context (fuel : nat) (sec : option (list Z)) (units : list rootUnit) (sets : list aset) (sus : list sunit).
Context (Hsec : match sec with Some d => d = flat_map encodeSet sets /\ Forall isByte d /\ zlen d + 32 < W64 /\ (length d < fuel)%nat | None => sets = [] end).
Context (Hsets : Forall wfSet sets) (Hus : Forall2 unitRel units sus).
Let T := flat_map setIvals sets.
Let P := flat_map pcIval sus.
Let G := flat_map rangeIvals sus.
Context (Hcon : consistent (T ++ P ++ G)).

Definition stOk (st : arState) : Prop :=
  match arMap st with
  | None => arCached st = false
  | Some m => if arCached st then Inv m (T ++ P) G else Inv m T []
  end.
Lemma load : exists m, (match sec with Some data => arSection fuel data [] 0 | None => ([], Ok tt) end) = (m, Ok tt) /\ Inv m T [].
Proof.
  destruct sec as [d|].
  - destruct Hsec as (-> & Hb & Hl & Hf). destruct (section_ok sets _ Hb Hl fuel [] [] 0) as (m' & A & B); auto.
    + apply Inv_nil.
    + split; [lia|]. exists []. rewrite app_nil_r. rewrite zdrop_neg by lia. reflexivity.
    + unfold zlen. lia.
    + exists m'. split; [exact A|exact B].
  - exists []. split; [reflexivity|]. unfold T. rewrite Hsec. apply Inv_nil.
Qed.
Lemma okT : Forall ivOk T /\ Forall ivOk P /\ Forall ivOk G.
Proof. destruct Hcon as [O _]. apply Forall_app in O as [O1 O2]. apply Forall_app in O2. tauto. Qed.
Lemma step_ok st a : stOk st -> stOk (fst (lookupUnit fuel sec units st a)).
Proof.
  intros S. destruct load as (m0 & L1 & L2). unfold lookupUnit. unfold stOk in S. destruct st as [[m|] c]; cbn [arMap arCached] in *.
  - destruct (amHit m a); cbn [fst]; unfold stOk; cbn [arMap arCached]; [exact S|]. destruct c; [exact S|].
    rewrite <- (app_nil_l G). apply units_ok; [exact Hus|apply okT|exact S].
  - subst c. rewrite L1. destruct (amHit m0 a); cbn [fst]; unfold stOk; cbn [arMap arCached]; [exact L2|].
    rewrite <- (app_nil_l G). apply units_ok; [exact Hus|apply okT|exact L2].
Qed.
Lemma hist_ok h : forall st, stOk st -> stOk (arHistory fuel sec units st h).
Proof. induction h as [|a h IH]; intros st S; [exact S|]. cbn [arHistory]. apply IH, step_ok, S. Qed.

Definition looseOk : Prop := Forall (fun r => iEnd r - iStart r <= iStart r) G.
Lemma conT : consistent (T ++ []).
Proof.
  destruct Hcon as [O D]. rewrite app_nil_r. split; [apply okT|]. intros i j Hi Hj. apply D; apply in_or_app; now left.
Qed.
Lemma lookup_found h a i : looseOk -> In i (T ++ P ++ G) -> ivCovers i a ->
  snd (lookupUnit fuel sec units (arHistory fuel sec units arState0 h) a) = Ok (Some (iUnit i)).
Proof.
  intros HL Hi Hc. pose proof (hist_ok h arState0 eq_refl) as S. set (st := arHistory _ _ _ _ _) in *. clearbody st.
  assert (AP : consistent ((T ++ P) ++ G)) by (rewrite <- app_assoc; exact Hcon).
  assert (Pcase : forall m, Inv m (T ++ P) G -> amHit m a = Some (iUnit i)).
  { intros m I. apply (hit_found m _ _ a i I AP); auto. rewrite <- app_assoc. exact Hi. }
  assert (Tcase : forall m c, Inv m T [] -> c = false ->
     snd (match amHit m a with Some u => (mkAR (Some m) c, Ok (Some u))
          | None => (mkAR (Some (if c then m else fold_left arUnit units m)) true, Ok (amHit (if c then m else fold_left arUnit units m) a)) end) = Ok (Some (iUnit i))).
  { intros m c I ->. destruct (amHit m a) as [u|] eqn:Hh; cbn [snd].
    - f_equal. unfold amHit in Hh. destruct (amUpper m a) as [[k [l w]]|] eqn:U; [|discriminate].
      destruct (u64 (k - l) <=? a) eqn:Le; [|discriminate]. apply Some_inj in Hh. subst w.
      apply amUpper_some in U as (U1 & U2 & _). cbn [fst] in U2.
      destruct I as [A B]. destruct (A _ U1) as [(w' & X)|[(j & Hj & X)|(j & [] & X)]]; inversion X; subst.
      + unfold ivCovers in Hc. pose proof Hcon as [O _]. rewrite Forall_forall in O. specialize (O i Hi). destruct O. lia.
      + destruct okT as (O & _). rewrite Forall_forall in O. pose proof (O j Hj) as [? ?].
        rewrite u64_id in Le by (unfold isU64; lia). unfold ivCovers in Hc.
        destruct (proj2 Hcon i j Hi ltac:(apply in_or_app; now left)) as [->|D]; [reflexivity|]. unfold ivDisjoint in D. lia.
    - f_equal. apply Pcase. rewrite <- (app_nil_l G). apply units_ok; [exact Hus|apply okT|exact I]. }
  unfold lookupUnit, stOk in *. destruct load as (m0 & L1 & L2). destruct st as [[m|] c]; cbn [arMap arCached] in *.
  - destruct c.
    + rewrite (Pcase m S). reflexivity.
    + exact (Tcase m false S eq_refl).
  - subst c. rewrite L1. exact (Tcase m0 false L2 eq_refl).
Qed.
Lemma lookup_none h a : G = [] -> 0 <= a -> (forall i, In i (T ++ P) -> ~ ivCovers i a) ->
  snd (lookupUnit fuel sec units (arHistory fuel sec units arState0 h) a) = Ok None.
Proof.
  intros HG Ha N. pose proof (hist_ok h arState0 eq_refl) as S. set (st := arHistory _ _ _ _ _) in *. clearbody st.
  pose proof okT as (OT & OP & _).
  assert (Pcase : forall m, Inv m (T ++ P) G -> amHit m a = None).
  { intros m I. rewrite HG in I. apply (hit_none m (T ++ P) a I); auto. apply Forall_app. auto. }
  assert (Tcase : forall m, Inv m T [] -> amHit m a = None).
  { intros m I. apply (hit_none m T a I); auto. intros i Hi. apply N, in_or_app. now left. }
  assert (X : forall m, Inv m T [] -> amHit (fold_left arUnit units m) a = None).
  { intros m I. apply Pcase. rewrite <- (app_nil_l G). apply units_ok; [exact Hus|exact OP|exact I]. }
  unfold lookupUnit, stOk in *. destruct load as (m0 & L1 & L2). destruct st as [[m|] c]; cbn [arMap arCached] in *.
  - destruct c.
    + rewrite (Pcase m S). reflexivity.
    + rewrite (Tcase m S). cbn [snd]. now rewrite X.
  - subst c. rewrite L1. rewrite (Tcase m0 L2). cbn [snd]. now rewrite X.
Qed.
Lemma lookup_none_loose h a : (forall i, In i G -> ~ (iEnd i - iStart i <= a < iEnd i)) -> 0 <= a -> (forall i, In i (T ++ P) -> ~ ivCovers i a) ->
  snd (lookupUnit fuel sec units (arHistory fuel sec units arState0 h) a) = Ok None.
Proof.
  intros HG Ha N. pose proof (hist_ok h arState0 eq_refl) as S. set (st := arHistory _ _ _ _ _) in *. clearbody st.
  pose proof okT as (OT & OP & OG).
  assert (Pcase : forall m, Inv m (T ++ P) G -> amHit m a = None).
  { intros m I. apply (hit_none_loose m (T ++ P) G a I); auto. apply Forall_app. auto. }
  assert (Tcase : forall m, Inv m T [] -> amHit m a = None).
  { intros m I. apply (hit_none m T a I); auto. intros i Hi. apply N, in_or_app. now left. }
  assert (X : forall m, Inv m T [] -> amHit (fold_left arUnit units m) a = None).
  { intros m I. apply Pcase. rewrite <- (app_nil_l G). apply units_ok; [exact Hus|exact OP|exact I]. }
  unfold lookupUnit, stOk in *. destruct load as (m0 & L1 & L2). destruct st as [[m|] c]; cbn [arMap arCached] in *.
  - destruct c.
    + rewrite (Pcase m S). reflexivity.
    + rewrite (Tcase m S). cbn [snd]. now rewrite X.
  - subst c. rewrite L1. rewrite (Tcase m0 L2). cbn [snd]. now rewrite X.
Qed.
End Hist.
