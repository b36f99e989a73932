(** Decoding of attribute values, abbreviations and entries. *)
From Verif Require Import Base Leb LebSpec DwarfReader DwarfReaderProofs ReaderSpec CfiSpec CfiProofs CfiProofs2 ExprProofs Cursor LinesSpec LinesProofs Die DieSpec.

(** The unit as the code sees it. *)
Definition unitOf (f : fmt) (base fin root : Z) : dunit :=
  mkUnit (fVer f) (if fVer f <=? 2 then 8 else Z.of_nat (fOff f)) (Z.of_nat (fAddr f)) base fin root.
(** What the code stores for a value encoded at [off]. *)
Definition valueOf (off : Z) (v : aval) : dval :=
  match v with
  | AFixed _ _ x | ALeb _ x | AAddr x | AOffset _ x | ARefAddr _ x => VWord x
  | ASdata x | AImplicit x => VWord (x mod W64)
  | AString _ => VWord off
  | ABlock form b => VBlock (off + zlen (blockLen form (zlen b))) (zlen b)
  | AFlag b => VFlag (negb (b =? 0))
  | APresent => VFlag true
  end.
Definition implOf (v : aval) : Z := match v with AImplicit x => x | _ => 0 end.

Lemma uleb_ne v : uleb v <> [].
Proof. unfold uleb. cbn [encodeU]. destruct (v <? 128); discriminate. Qed.
Section Forms.
Context (data : list Z) (Hd : Forall isByte data) (Hw : zlen data + 32 < W64).
Context (f : fmt) (base fin root : Z) (Hf : wfFmt f).
Let u := unitOf f base fin root.

Lemma rd_sint n off v rest : (0 < n <= 8)%nat -> 0 <= v -> 2 * v < 256 ^ Z.of_nat n -> at_ data off (leBytes n v ++ rest) ->
  getint data off (Z.of_nat n) = Ok (v, off + Z.of_nat n) /\ at_ data (off + Z.of_nat n) rest.
Proof.
  intros Hn Hv Hv2 H. apply at_app in H as [H1 H2]. rewrite leBytes_len in H2. split; [|exact H2].
  assert (Ev : 256 ^ Z.of_nat n mod 2 = 0).
  { replace (Z.of_nat n) with (Z.of_nat (n - 1) + 1) by lia. rewrite Z.pow_add_r by lia.
    replace (256 ^ Z.of_nat (n - 1) * 256 ^ 1) with (256 ^ Z.of_nat (n - 1) * 128 * 2) by lia. apply Z.mod_mul. lia. }
  apply getint_at; try assumption; [rewrite Z.mod_small by lia; exact H1|lia].
Qed.
Lemma readForm_at v off rest impl : wfA f v -> offsetSmall f v -> (forall x, v = AImplicit x -> impl = x) -> at_ data off (encodeA f v ++ rest) ->
  readForm data u off (formOfA v) impl = Ok (valueOf off v, off + zlen (encodeA f v)) /\ at_ data (off + zlen (encodeA f v)) rest.
Proof.
  intros W S I H. pose proof H as [H0 _].
  destruct Hf as (Hver & Hoff & Haddr & H2).
  destruct v as [form n x|form x|x|x|form x|form x|s|form b|b| |x]; cbn [formOfA encodeA valueOf wfA] in *.
  - destruct W as [W X].
    assert (Q : forall g, g = 0 -> 256 ^ Z.of_nat n <= W64 -> u64 x = x) by (intros; apply u64_id; unfold isU64; lia).
    rewrite leBytes_len.
    cbn [In fixedForms] in W.
    repeat (destruct W as [W|W]; [apply pair_equal_spec in W as [<- <-]|]); try contradiction; cbn [Z.of_nat Pos.of_succ_nat Pos.succ] in *;
    (assert (Ux : u64 x = x) by (apply Q with 0; [reflexivity|vm_compute; discriminate]));
    unfold readForm; cbn [Z.eqb Pos.eqb orb]; unfold word;
    first [ change (leBytes 1 x ++ rest) with (x mod 256 :: rest) in H; apply (rd_u8 data Hw) in H as [E H]; rewrite Z.mod_small in E by lia
          | apply (rd_u16 data Hw) in H as [E H]; [|unfold W16; lia]
          | apply (rd_u32 data Hd Hw) in H as [E H]; [|unfold W32; lia]
          | apply (rd_u64 data Hd Hw) in H as [E H]; [|unfold W64; lia]
          | apply (rd_uint data Hd Hw 3) in H as [E H]; [|lia|lia] ];
    cbn [Z.of_nat Pos.of_succ_nat Pos.succ] in *; rewrite E; cbn [bind]; rewrite Ux; auto.
  - destruct W as [W X]. change (2 ^ 64) with W64 in X. assert (Ux : u64 x = x) by (apply u64_id; exact X).
    apply (rd_uleb data) in H as [E H]; [|exact X]. cbn [In lebForms] in W.
    repeat (destruct W as [<-|W]); try contradiction; unfold readForm; cbn [Z.eqb Pos.eqb orb]; unfold word; rewrite E; cbn [bind]; rewrite Ux; auto.
  - apply (rd_sleb data) in H as [E H]; [|exact W]. unfold readForm; cbn [Z.eqb Pos.eqb orb]; unfold word; rewrite E; cbn [bind]. auto.
  - rewrite leBytes_len. apply (rd_uint data Hd Hw) in H as [E H]; [|lia|exact W].
    assert (256 ^ Z.of_nat (fAddr f) <= W64) by (change W64 with (256 ^ 8); apply Z.pow_le_mono_r; lia).
    unfold readForm; cbn [Z.eqb Pos.eqb orb]; unfold word. unfold u, unitOf; cbn [dAddrLen]. rewrite E; cbn [bind]. rewrite u64_id by (unfold isU64; lia). auto.
  - destruct W as (W & X & V). cbn [offsetSmall] in S. rewrite leBytes_len. apply (rd_sint (fOff f)) in H as [E H]; [|lia|lia|exact S].
    assert (256 ^ Z.of_nat (fOff f) <= W64) by (change W64 with (256 ^ 8); apply Z.pow_le_mono_r; lia).
    assert (L1 : (if dVersion u <=? 2 then 4 else dDwarfLen u) = Z.of_nat (fOff f)).
    { unfold u, unitOf; cbn [dVersion dDwarfLen]. destruct (fVer f <=? 2) eqn:V2; [|reflexivity]. destruct H2 as [-> _]; [lia|reflexivity]. }
    assert (L2 : ~ In form [0x0e; 0x1f] -> dDwarfLen u = Z.of_nat (fOff f)).
    { intros N. unfold u, unitOf; cbn [dDwarfLen]. destruct (fVer f <=? 2) eqn:V2; [|reflexivity]. exfalso. apply N, V. lia. }
    cbn [In offsetForms] in W. unfold readForm.
    destruct W as [<-|[<-|[<-|[<-|[]]]]]; cbn [Z.eqb Pos.eqb orb]; unfold word; rewrite ?L1, ?L2 by (cbn; lia); rewrite E; cbn [bind]; rewrite u64_id by (unfold isU64; lia); auto.
  - destruct W as (W & X). rewrite leBytes_len.
    assert (R8 : (0 < refSize f <= 8)%nat) by (unfold refSize; destruct (fVer f <=? 2); lia).
    assert (256 ^ Z.of_nat (refSize f) <= W64) by (change W64 with (256 ^ 8); apply Z.pow_le_mono_r; lia).
    apply (rd_uint data Hd Hw) in H as [E H]; [|exact R8|exact X].
    assert (L : dDwarfLen u = Z.of_nat (refSize f)).
    { unfold u, unitOf, refSize; cbn [dDwarfLen]. destruct (fVer f <=? 2) eqn:V2; [|reflexivity]. destruct H2 as [_ ->]; [lia|reflexivity]. }
    unfold readForm. destruct W as [->|[-> _]]; cbn [Z.eqb Pos.eqb orb]; unfold word; rewrite L, E; cbn [bind]; rewrite u64_id by (unfold isU64; lia); auto.
  - unfold cstr in *. rewrite <- app_assoc in H. cbn [app] in H. apply (rd_str data) in H as [E H]; [|exact W].
    unfold readForm; cbn [Z.eqb Pos.eqb orb]. rewrite E. cbn [snd]. rewrite zlen_app. change (zlen [0]) with 1. rewrite Z.add_assoc. auto.
  - rewrite zlen_app. rewrite <- app_assoc in H. set (n := zlen b) in *. assert (Hn : 0 <= n) by apply zlen_nonneg.
    assert (HL : off + zlen (blockLen form n) + n <= zlen data).
    { pose proof H as Hx. rewrite app_assoc in Hx. apply at_app in Hx as [Hx _]. apply at_len in Hx; [rewrite zlen_app in Hx; fold n in Hx; lia|].
      intros E0. apply app_eq_nil in E0 as [E0 _]. revert E0. unfold blockLen. destruct (find _ blockForms) as [[g k]|] eqn:F.
      - apply find_some in F as [F _]. cbn [In blockForms] in F. destruct F as [F|[F|[F|[]]]]; apply pair_equal_spec in F as [<- <-]; discriminate.
      - apply uleb_ne. }
    assert (K : forall k, k = zlen (blockLen form n) -> u64 (off + k + n) = off + k + n) by (intros k ->; apply u64_id; unfold isU64; pose proof (zlen_nonneg (blockLen form n)); lia).
    assert (R : readForm data u off form impl = blk (match find (fun p => fst p =? form) blockForms with
                  | Some (_, 1%nat) => getu8 data off | Some (_, 2%nat) => getu16 data off | Some (_, 4%nat) => getu32 data off | _ => getuleb data off end)).
    { destruct W as [W|(k & W & _)].
      - cbn [In lebBlockForms] in W. destruct W as [<-|[<-|[]]]; reflexivity.
      - cbn [In blockForms] in W. destruct W as [W|[W|[W|[]]]]; apply pair_equal_spec in W as [<- <-]; reflexivity. }
    rewrite R. clear R. unfold blockLen in *.
    destruct W as [W|(k & W & X)].
    + assert (Fn : find (fun p => fst p =? form) blockForms = None) by (cbn [In lebBlockForms] in W; destruct W as [<-|[<-|[]]]; reflexivity).
      rewrite Fn in *. pose proof (zlen_nonneg (uleb n)). apply (rd_uleb data) in H as [E H]; [|lia]. unfold blk. rewrite E. cbn [bind]. rewrite K by reflexivity.
      apply at_app in H as [_ H]. fold n in H. rewrite Z.add_assoc. auto.
    + cbn [In blockForms] in W. destruct W as [W|[W|[W|[]]]]; apply pair_equal_spec in W as [<- <-]; cbn [find blockForms fst Z.eqb Pos.eqb] in *;
      rewrite leBytes_len in *; cbn [Z.of_nat Pos.of_succ_nat Pos.succ] in *;
      first [ change (leBytes 1 n ++ b ++ rest) with (n mod 256 :: b ++ rest) in H; apply (rd_u8 data Hw) in H as [E H]; rewrite Z.mod_small in E by lia
            | apply (rd_u16 data Hw) in H as [E H]; [|unfold W16; lia]
            | apply (rd_u32 data Hd Hw) in H as [E H]; [|unfold W32; lia] ];
      unfold blk; rewrite E; cbn [bind]; rewrite K by reflexivity; apply at_app in H as [_ H]; fold n in H; rewrite Z.add_assoc; auto.
  - apply (rd_u8 data Hw) in H as [E H]. unfold readForm; cbn [Z.eqb Pos.eqb orb]. rewrite E. cbn [bind]. change (zlen [b]) with 1. auto.
  - cbn [app] in H. change (zlen (@nil Z)) with 0. rewrite Z.add_0_r. unfold readForm; cbn [Z.eqb Pos.eqb orb]. auto.
  - cbn [app] in H. change (zlen (@nil Z)) with 0. rewrite Z.add_0_r. unfold readForm; cbn [Z.eqb Pos.eqb orb]. rewrite (I x eq_refl). auto.
Qed.
End Forms.
