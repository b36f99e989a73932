From Coq Require Import String.
From Verif Require Import Base ElfHash ElfHashProofs Cache CacheProofs CfiSpec CfiProofs Python PythonSpec PythonProofs PythonProofs2.

(** ** memory *)
Lemma le_leBytes n : forall v, 0 <= v < 256 ^ Z.of_nat n -> le (leBytes n v) = v.
Proof.
  induction n as [|n IH]; intros v Hv; [cbn in Hv |- *; lia|]. cbn [leBytes le]. rewrite IH; [lia|]. replace (Z.of_nat (S n)) with (1 + Z.of_nat n) in Hv by lia. rewrite Z.pow_add_r in Hv by lia. change (256 ^ 1) with 256 in Hv. nia.
Qed.
Lemma memread_nth m : forall n a l, memread m a n = Some l -> length l = n /\ forall i b, nth_error l i = Some b -> m (a + Z.of_nat i) = Some b.
Proof.
  induction n as [|n IH]; intros a l; cbn [memread]; [intros [= <-]; split; [reflexivity|intros [|]; discriminate]|].
  destruct (m a) as [b0|] eqn:E; [|discriminate]. destruct (memread m (a + 1) n) eqn:F; [|discriminate]. intros [= <-]. destruct (IH _ _ F) as (L & H). split; [cbn; lia|].
  intros [|i] b; cbn [nth_error]; [intros [= <-]; now replace (a + Z.of_nat 0) with a by lia|]. intros X. replace (a + Z.of_nat (S i)) with (a + 1 + Z.of_nat i) by lia. auto.
Qed.
Lemma ext_nth {A} (l k : list A) : length l = length k -> (forall i x y, nth_error l i = Some x -> nth_error k i = Some y -> x = y) -> l = k.
Proof.
  revert k. induction l as [|x l IH]; intros [|y k] L H; try discriminate; [reflexivity|]. f_equal; [exact (H 0%nat x y eq_refl eq_refl)|]. apply IH; [cbn in L; lia|]. intros i u v Hu Hv. exact (H (S i) u v Hu Hv).
Qed.
Lemma sub_at m a n l off k bs : memread m a n = Some l -> 0 <= off -> zlen bs = k -> off + k <= Z.of_nat n ->
  (forall i b, nth_error bs i = Some b -> m (a + off + Z.of_nat i) = Some b) -> ztake k (zdrop off l) = bs.
Proof.
  intros R Ho Hk L H. destruct (memread_nth m n a l R) as (Ln & Hn). pose proof (zlen_nonneg bs). rewrite ztake_firstn, zdrop_skipn by lia. apply ext_nth.
  - rewrite firstn_length, skipn_length. unfold zlen in *. lia.
  - intros i x y Hx Hy. assert (Li : (i < length bs)%nat) by (apply nth_error_Some; congruence). unfold zlen in *. rewrite nth_error_firstn' in Hx by lia. rewrite nth_error_skipn' in Hx.
    apply Hn in Hx. apply H in Hy. replace (a + Z.of_nat (Z.to_nat off + i)) with (a + off + Z.of_nat i) in Hx by lia. congruence.
Qed.
Lemma skipn_S {A} i (l : list A) : skipn (S i) l = tl (skipn i l).
Proof. revert l. induction i as [|i IH]; intros [|x l]; try reflexivity. cbn [skipn]. apply IH. Qed.
Definition pureAt {A} (x : M A) (a : A) : Prop := forall s, x s = ([], s, Ok a).
Lemma pure_bind {A B} (x : M A) a (f : A -> M B) s : pureAt x a -> bindM x f s = f a s.
Proof. intros H. unfold bindM. rewrite H. destruct (f a s) as ((o & s1) & r). reflexivity. Qed.
Lemma emit_bind {B} t (f : unit -> M B) s : bindM (emit t) f s = match f tt s with (o, s1, r) => (Tok t :: o, s1, r) end.
Proof. reflexivity. Qed.
(** the bytes of a readable object, and its fields *)
Definition image (m : memory) (a n : Z) (buf : list Z) : Prop := zlen buf = n /\ memread m a (Z.to_nat n) = Some buf.
Lemma rd_image m a n : readable m a n -> 0 < n -> exists buf, pureAt (rd m a n) buf /\ image m a n buf.
Proof.
  intros (Ha & Hn & Hw & H) Hp. destruct (memread_all m a (Z.to_nat n)) as (buf & E); [intros k Hk; apply H; lia|]. exists buf. split.
  - intros s. unfold rd, lift. rewrite u64_id by (unfold isU64; lia). now rewrite E.
  - split; [|exact E]. destruct (memread_nth m _ _ _ E) as (L & _). unfold zlen. lia.
Qed.
Lemma fld_image m a n buf off k v : image m a n buf -> field m (a + off) k v -> 0 <= off -> off + Z.of_nat k <= n -> fld buf off (Z.of_nat k) = Ok v.
Proof.
  intros (L & R) (Hv & Hf) Ho Hk. unfold fld. pose proof (leBytes_len k v) as Lb. rewrite (sub_at m a (Z.to_nat n) buf off (Z.of_nat k) (leBytes k v) R Ho Lb) by (auto; lia).
  rewrite Lb, Z.eqb_refl. replace (0 <=? off) with true by lia. cbn [andb]. now rewrite le_leBytes.
Qed.
Lemma fldM_image m a n buf off k v : image m a n buf -> field m (a + off) k v -> 0 <= off -> off + Z.of_nat k <= n -> pureAt (fldM buf off (Z.of_nat k)) v.
Proof. intros. intros s. unfold fldM, lift. now rewrite (fld_image m a n buf off k v). Qed.
Lemma rd_bytes m a l : bytesAt m a l -> a < W64 -> pureAt (rd m a (zlen l)) l.
Proof.
  intros (Ha & Hw & H) Hlt s. unfold rd, lift. rewrite u64_id by (unfold isU64; lia).
  assert (R : forall k, a <= k < a + zlen l -> m k <> None). { intros k Hk. destruct (nth_error l (Z.to_nat (k - a))) as [b|] eqn:E; [|apply nth_error_None in E; unfold zlen in *; lia]. apply H in E. replace (a + Z.of_nat (Z.to_nat (k - a))) with k in E by lia. congruence. }
  destruct (memread_all m a (Z.to_nat (zlen l))) as (buf & E); [intros k Hk; apply R; lia|]. rewrite E. repeat f_equal. destruct (memread_nth m _ _ _ E) as (L & N1). apply ext_nth; [unfold zlen in L; lia|]. intros i x y Hx Hy. apply N1 in Hx. apply H in Hy. congruence.
Qed.
Lemma words_image m a l : forall buf, image m a (8 * zlen l) buf -> (forall i p, nth_error l i = Some p -> field m (a + 8 * Z.of_nat i) 8 p) -> words (length l) buf = l.
Proof.
  revert a. induction l as [|p l IH]; intros a buf (L & R) H; [reflexivity|]. cbn [length words]. rewrite zlen_cons in *. pose proof (zlen_nonneg l). f_equal.
  - destruct (H 0%nat p eq_refl) as (Hv & Hf). rewrite <- (zdrop_neg 0 buf) by lia. rewrite (sub_at m a _ buf 0 8 (leBytes 8 p) R); [apply le_leBytes; exact Hv|lia|apply (leBytes_len 8)|lia|]. intros i b Hb. replace (a + 0 + Z.of_nat i) with (a + 8 * Z.of_nat 0 + Z.of_nat i) by lia. now apply Hf.
  - apply (IH (a + 8)).
    + split; [rewrite zlen_zdrop by lia; lia|]. destruct (memread_nth m _ _ _ R) as (Ln & Hn).
      destruct (memread_all m (a + 8) (Z.to_nat (8 * zlen l))) as (b2 & E2). { intros k Hk. destruct (nth_error buf (Z.to_nat (k - a))) as [b|] eqn:E; [|apply nth_error_None in E; lia]. apply Hn in E. replace (a + Z.of_nat (Z.to_nat (k - a))) with k in E by lia. congruence. }
      rewrite E2. f_equal. destruct (memread_nth m _ _ _ E2) as (L2 & N2). apply ext_nth; [rewrite zdrop_skipn, skipn_length by lia; lia|]. intros i x y Hx Hy. apply N2 in Hx. rewrite zdrop_skipn, nth_error_skipn' in Hy by lia. apply Hn in Hy. replace (a + Z.of_nat (Z.to_nat 8 + i)) with (a + 8 + Z.of_nat i) in Hy by lia. congruence.
    + intros i q Hq. replace (a + 8 + 8 * Z.of_nat i) with (a + 8 * Z.of_nat (S i)) by lia. now apply H.
Qed.
Lemma ptrs_at m a l : pointersAt m a l -> l <> [] -> pureAt (ptrs m a (zlen l)) l.
Proof.
  intros (R & H) Hl. assert (0 < zlen l) by (destruct l; [congruence|rewrite zlen_cons; pose proof (zlen_nonneg l); lia]).
  destruct (rd_image m a (8 * zlen l) R ltac:(lia)) as (buf & P & Im). intros s. unfold ptrs. rewrite (pure_bind _ _ _ _ P). unfold ret. replace (Z.to_nat (zlen l)) with (length l) by (unfold zlen; lia). now rewrite (words_image m a l buf Im H).
Qed.

(** ** types *)
Lemma typeFind_find l t : typeFind l t = match find (fun e => fst e =? t) l with None => None | Some e => Some (snd e) end.
Proof. induction l as [|(k & v) l IH]; [reflexivity|]. cbn [typeFind find fst]. destruct (k =? t); [reflexivity|exact IH]. Qed.
Definition addType (s : pst) (t : Z) (ty : ptype) : pst :=
  match find (fun e => fst e =? t) (pTypes s) with Some _ => s | None => mkPS (pDepth s) (pVisited s) ((t, Some ty) :: (t, None) :: pTypes s) end.
Lemma getType_ok m lay s t name basic item flags dictoff : typeAt m lay t name basic item flags dictoff -> typeKnown s t name basic item flags dictoff ->
  getType lay m t s = ([], addType s t (mkPT name basic item flags (s64 dictoff)), Ok (mkPT name basic item flags (s64 dictoff))).
Proof.
  intros (Hsz & R & F1 & F2 & F3 & F4 & F5) K. unfold getType, addType, typeKnown in *. rewrite typeFind_find. destruct (find _ (pTypes s)) as [e|]; [rewrite K; reflexivity|].
  unfold bindM at 1, setType. cbn [app]. destruct (rd_image m t (lTypeSize lay) R ltac:(lia)) as (b & P & Im). rewrite (pure_bind _ _ _ _ P).
  rewrite (pure_bind _ name _ _ (fldM_image m t _ b 24 8 name Im F1 ltac:(lia) ltac:(lia))).
  rewrite (pure_bind _ basic _ _ (fldM_image m t _ b 32 8 basic Im F2 ltac:(lia) ltac:(lia))).
  rewrite (pure_bind _ item _ _ (fldM_image m t _ b 40 8 item Im F3 ltac:(lia) ltac:(lia))).
  rewrite (pure_bind _ flags _ _ (fldM_image m t _ b 168 8 flags Im F4 ltac:(lia) ltac:(lia))).
  rewrite (pure_bind _ dictoff _ _ (fldM_image m t _ b 288 8 dictoff Im F5 ltac:(lia) ltac:(lia))). reflexivity.
Qed.
Lemma addType_known s t name basic item flags dictoff : typeKnown s t name basic item flags dictoff -> typeKnown (addType s t (mkPT name basic item flags (s64 dictoff))) t name basic item flags dictoff.
Proof. intros K. unfold addType. unfold typeKnown in *. destruct (find _ (pTypes s)) as [e|] eqn:E; [now rewrite E|]. cbn [pTypes find fst]. now rewrite Z.eqb_refl. Qed.
Lemma addType_eq s t ty : pDepth (addType s t ty) = pDepth s /\ pVisited (addType s t ty) = pVisited s.
Proof. unfold addType. destruct (find _ _); auto. Qed.
Lemma s64_u64 n : - 2 ^ 63 <= n < 2 ^ 63 -> s64 (u64 n) = n.
Proof. unfold s64, sgn, u64, W64. intros H. rewrite Z.mod_mod by lia. change (18446744073709551616 / 2) with (2 ^ 63). destruct (_ <? _) eqn:E; lia. Qed.
Lemma s64_small n : 0 <= n < 2 ^ 63 -> s64 n = n.
Proof. intros H. pose proof (s64_u64 n ltac:(lia)) as E. unfold u64 in E. rewrite Z.mod_small in E by (unfold W64; lia). exact E. Qed.
Lemma s32_mod n : - 2 ^ 31 <= n < 2 ^ 31 -> s32 (n mod 2 ^ 32) = n.
Proof. unfold s32, sgn, W32. change (2 ^ 32) with 4294967296. intros H. rewrite Z.mod_mod by lia. change (4294967296 / 2) with (2 ^ 31). destruct (_ <? _) eqn:E; lia. Qed.

Section One.
Context (v3 : bool) (lay : layout) (m : memory) (str : Z -> res (list Z)) (kindOf : Z -> option kind) (maxdepth : Z) (doargs dolocals : bool).
Notation print' := (print v3 lay m str kindOf maxdepth doargs dolocals).
Notation one' := (one v3 lay m str kindOf maxdepth doargs dolocals).
Notation contents' := (contents v3 lay m str maxdepth doargs dolocals).
Notation digitsAt := (PythonSpec.digitsAt m).
Notation dict2At := (PythonSpec.dict2At m).
Notation dict3At := (PythonSpec.dict3At m).
Notation runPrinter' := (runPrinter v3 lay m str maxdepth doargs dolocals).
Definition marked (k : kind) (a : Z) (s : pst) : pst := if dupdetect k then mkPS (pDepth s) (a :: pVisited s) (pTypes s) else s.
(** a live object of a known kind that is not marked yet goes to its printer *)
Lemma one_at fuel pr a t k name basic item flags dictoff n s : 0 <= basic -> 0 <= item -> item = 0 \/ Z.abs n <= 65536 ->
  objectAt m a (basic + item * Z.abs n) t n -> typeAt m lay t name basic item flags dictoff -> typeKnown s t name basic item flags dictoff ->
  kindOf t = Some k -> (dupdetect k = true -> ~ In a (pVisited s)) ->
  let ty := mkPT name basic item flags (s64 dictoff) in
  exists buf, image m a (basic + item * Z.abs n) buf /\ one' fuel pr a s = runPrinter' fuel pr k ty buf a (marked k a (addType s t ty)).
Proof.
  intros Hb Hi Hsmall (Ha & (Hs1 & Hs2) & R & (refs & Hr & F0) & F1 & F2 & Hn) HT K Hk Hv ty.
  assert (R24 : readable m a 24). { destruct R as (X1 & X2 & X3 & X4). repeat split; try lia. intros j Hj. apply X4. lia. }
  destruct (rd_image m a 24 R24 ltac:(lia)) as (b & P & Im). destruct (rd_image m a _ R ltac:(lia)) as (buf & P2 & Im2). exists buf. split; [exact Im2|].
  unfold one. rewrite (pure_bind _ _ _ _ P). replace a with (a + 0) in F0 by lia.
  rewrite (pure_bind _ refs _ _ (fldM_image m a _ b 0 8 refs Im F0 ltac:(lia) ltac:(lia))).
  rewrite (pure_bind _ t _ _ (fldM_image m a _ b 8 8 t Im F1 ltac:(lia) ltac:(lia))).
  rewrite (pure_bind _ (u64 n) _ _ (fldM_image m a _ b 16 8 (u64 n) Im F2 ltac:(lia) ltac:(lia))).
  replace (refs =? 0) with false by lia. rewrite (pure_bind (ret tt) tt _ _ (fun _ => eq_refl)).
  unfold bindM at 1. rewrite (getType_ok m lay s t name basic item flags dictoff HT K). fold ty. cbn [app].
  unfold choose. rewrite Hk. rewrite (pure_bind (ret (Some k)) (Some k) _ _ (fun _ => eq_refl)).
  unfold bindM at 1, isVisited. cbn [app]. destruct (addType_eq s t ty) as (_ & Ev). rewrite Ev. set (s1 := addType s t ty) in *.
  assert (Hseen : dupdetect k && existsb (Z.eqb a) (pVisited s) = false). { destruct (dupdetect k) eqn:Ed; [|reflexivity]. cbn [andb]. destruct (existsb _ _) eqn:Ex; [|reflexivity]. apply existsb_exists in Ex as (x & X1 & X2). apply Z.eqb_eq in X2. subst x. now destruct (Hv eq_refl). }
  rewrite Hseen. assert (Hc : forall st, contents' fuel pr k ty (s64 (u64 n)) a st = runPrinter' fuel pr k ty buf a st).
  { intros st. unfold contents. rewrite s64_u64 by lia. cbn [ty tItem tBasic]. replace (negb (item =? 0) && (Z.abs n >? 65536)) with false by (symmetry; apply andb_false_iff; destruct Hsmall; [left; subst; reflexivity|right; lia]). cbv zeta.
    assert (Ef : s64 (basic + (if item =? 0 then 0 else item * Z.abs n)) = basic + item * Z.abs n). { destruct (item =? 0) eqn:Ei; [replace item with 0 by lia|]; rewrite s64_small; unfold stackMax in Hs2; lia. }
    rewrite Ef. rewrite (pure_bind (vla _) tt); [|intros st'; unfold vla, lift; replace ((0 <=? basic + item * Z.abs n) && (basic + item * Z.abs n <=? stackMax)) with true; [reflexivity|symmetry; apply andb_true_iff; split; lia]].
    now rewrite (pure_bind _ _ _ _ P2). }
  unfold marked. destruct (dupdetect k).
  - unfold bindM, visit. rewrite Hc. cbn [app]. destruct (runPrinter' _ _ _ _ _ _ _) as ((? & ?) & ?). reflexivity.
  - rewrite (pure_bind (ret tt) tt _ _ (fun _ => eq_refl)). rewrite Hc. now destruct (runPrinter' _ _ _ _ _ _ _) as ((? & ?) & ?).
Qed.
(** print around a loop of one object *)
Definition deeper (s : pst) (d : Z) : pst := mkPS (pDepth s + d) (pVisited s) (pTypes s).
Lemma depth_bind {B} d (f : unit -> M B) s : bindM (addDepth d) f s = f tt (deeper s d).
Proof. unfold bindM, addDepth. fold (deeper s d). now destruct (f tt (deeper s d)) as ((? & ?) & ?). Qed.
Lemma getDepth_bind {B} (f : Z -> M B) s : bindM getDepth f s = f (pDepth s) s.
Proof. unfold bindM, getDepth. now destruct (f (pDepth s) s) as ((? & ?) & ?). Qed.
Lemma print_loop fuel a s o s1 : pDepth s <= 10000 -> loop v3 lay m str kindOf maxdepth doargs dolocals fuel (print' fuel) fuel a (deeper s 1) = (o, s1, Ok tt) ->
  print' (S fuel) a s = ([Call a o], deeper s1 (-1), Ok tt).
Proof.
  intros Hd E. cbn [print]. unfold group. rewrite getDepth_bind. replace (pDepth s >? 10000) with false by lia. rewrite depth_bind. unfold bindM, caught. rewrite E. cbn. now rewrite app_nil_r.
Qed.
Lemma loop_one fuel pr n a s o s1 : (2 <= n)%nat -> a <> 0 -> one' fuel pr a s = (o, s1, Ok 0) -> loop v3 lay m str kindOf maxdepth doargs dolocals fuel pr n a s = ([Obj a o], s1, Ok tt).
Proof. intros L Ha E. destruct n as [|[|n]]; try lia. cbn [loop]. replace (a =? 0) with false by lia. unfold bindM, group. rewrite E. reflexivity. Qed.
Lemma print_one fuel a s o s1 : (2 <= fuel)%nat -> a <> 0 -> pDepth s <= 10000 -> one' fuel (print' fuel) a (deeper s 1) = (o, s1, Ok 0) ->
  print' (S fuel) a s = ([Call a [Obj a o]], deeper s1 (-1), Ok tt).
Proof. intros L Ha Hd E. apply print_loop; [exact Hd|]. now apply loop_one. Qed.

(** ** integers *)
Lemma digits_nonneg ds : Forall (fun d => 0 <= d < 2 ^ 30) ds -> 0 <= digitsValue ds.
Proof. induction 1; cbn [digitsValue]; lia. Qed.
Lemma longLoop_ok a buf all : image m a (24 + 4 * zlen all) buf -> digitsAt a all -> forall fuel rest i acc, (length rest < fuel)%nat -> skipn i all = rest -> (i + length rest = length all)%nat -> (i + length rest <= 3)%nat ->
  0 <= acc -> acc + 2 ^ (30 * Z.of_nat i) * digitsValue rest < 2 ^ 63 -> longLoop fuel buf (Z.of_nat i) (zlen all) acc = Ok (acc + 2 ^ (30 * Z.of_nat i) * digitsValue rest).
Proof.
  intros Im Hd. induction fuel as [|f IH]; intros rest i acc Lf Hs Li L3 Ha Hv; [lia|]. cbn [longLoop]. destruct rest as [|d rest].
  - cbn [length] in Li. replace (Z.of_nat i <? zlen all) with false by (unfold zlen; lia). cbn [digitsValue]. f_equal. lia.
  - cbn [length] in *. replace (Z.of_nat i <? zlen all) with true by (unfold zlen; lia).
    assert (Hn : nth_error all i = Some d). { replace i with (i + 0)%nat by lia. rewrite <- nth_error_skipn'. now rewrite Hs. }
    destruct (Hd i d Hn) as (Hf & Rd). replace (a + 24 + 4 * Z.of_nat i) with (a + (24 + 4 * Z.of_nat i)) in Hf by lia.
    assert (Efd : fld buf (24 + 4 * Z.of_nat i) 4 = Ok d) by (apply (fld_image m a _ buf (24 + 4 * Z.of_nat i) 4 d Im Hf); unfold zlen; lia). rewrite Efd. cbn [bind]. replace (30 * Z.of_nat i >=? 64) with false by lia.
    assert (Hr : Forall (fun d => 0 <= d < 2 ^ 30) rest). { apply Forall_forall. intros x Hx. apply In_nth_error in Hx as (j & Hj). assert (nth_error all (i + S j) = Some x) by (rewrite <- nth_error_skipn', Hs; exact Hj). now apply Hd in H as (_ & H). }
    apply digits_nonneg in Hr. cbn [digitsValue] in Hv. assert (P : 0 < 2 ^ (30 * Z.of_nat i)) by (apply Z.pow_pos_nonneg; lia).
    assert (E30 : 2 ^ (30 * Z.of_nat (S i)) = 2 ^ (30 * Z.of_nat i) * 2 ^ 30) by (rewrite <- Z.pow_add_r by lia; f_equal; lia).
    rewrite s64_small by nia. unfold chk64. replace ((-9223372036854775808 <=? acc + d * 2 ^ (30 * Z.of_nat i)) && (acc + d * 2 ^ (30 * Z.of_nat i) <=? 9223372036854775807)) with true by (symmetry; apply andb_true_iff; split; apply Z.leb_le; nia). cbn [bind].
    replace (Z.of_nat i + 1) with (Z.of_nat (S i)) by lia. rewrite (IH rest (S i)); try lia.
    + rewrite E30. cbn [digitsValue]. f_equal. nia.
    + rewrite skipn_S. now rewrite Hs.
Qed.
Lemma longLoop_range buf fuel : forall i n acc v, -9223372036854775808 <= acc <= 9223372036854775807 -> longLoop fuel buf i n acc = Ok v -> -9223372036854775808 <= v <= 9223372036854775807.
Proof.
  induction fuel as [|f IH]; intros i n acc v Ha; cbn [longLoop]; [discriminate|]. destruct (_ <? _); [|intros [= <-]; exact Ha].
  destruct (fld _ _ _); cbn [bind]; try discriminate. destruct (_ >=? _); [discriminate|]. unfold chk64. destruct (_ && _) eqn:E; cbn [bind]; [|discriminate]. apply IH. apply andb_true_iff in E. lia.
Qed.
Lemma normal_big ds : Forall (fun d => 0 <= d < 2 ^ 30) ds -> (ds = [] \/ 0 < last ds 0) -> digitsValue ds < 2 ^ 63 -> (length ds <= 3)%nat.
Proof.
  intros F N H. destruct N as [->|N]; [cbn; lia|]. destruct ds as [|d0 [|d1 [|d2 [|d3 ds]]]]; cbn [length]; try lia. exfalso.
  assert (X : forall l, Forall (fun d => 0 <= d < 2 ^ 30) l -> 0 < last l 0 -> 1 <= digitsValue l).
  { clear. induction l as [|x l IH]; intros F N; [cbn in N; lia|]. inversion F; subst. cbn [digitsValue]. destruct l as [|y l]; [cbn in *; lia|]. specialize (IH H2 N). nia. }
  inversion F as [|? ? A0 F1]; subst. inversion F1 as [|? ? A1 F2]; subst. inversion F2 as [|? ? A2 F3]; subst. specialize (X (d3 :: ds) F3 N). change (digitsValue (d0 :: d1 :: d2 :: d3 :: ds)) with (d0 + 2 ^ 30 * (d1 + 2 ^ 30 * (d2 + 2 ^ 30 * digitsValue (d3 :: ds)))) in H. nia.
Qed.
Lemma longPrinter_ok a buf n ds s : image m a (24 + 4 * Z.abs n) buf -> field m (a + 16) 8 (u64 n) -> Z.abs n <= 65536 -> zlen ds = Z.abs n -> digitsAt a ds ->
  (ds = [] \/ 0 < last ds 0) -> digitsValue ds < 2 ^ 63 -> longPrinter buf s = ([Tok (TNum (intValue n ds))], s, Ok 0).
Proof.
  intros Im F Hn L Hd Nm Hv. assert (Hds : Forall (fun d => 0 <= d < 2 ^ 30) ds). { apply Forall_forall. intros x Hx. apply In_nth_error in Hx as (j & Hj). now apply Hd in Hj as (_ & Hj). }
  pose proof (digits_nonneg ds Hds). pose proof (normal_big ds Hds Nm Hv). unfold longPrinter. rewrite (pure_bind _ (u64 n) _ _ (fldM_image m a _ buf 16 8 (u64 n) Im F ltac:(lia) ltac:(lia))). rewrite s64_u64 by lia.
  rewrite <- L. rewrite (pure_bind _ (digitsValue ds)).
  2:{ intros st. unfold lift. rewrite <- L in Im. pose proof (longLoop_ok a buf ds Im Hd (S (Z.to_nat (zlen ds))) ds 0 0) as X. cbn [Z.of_nat Z.mul Nat.add] in X. rewrite Z.pow_0_r, Z.mul_1_l, Z.add_0_l in X. rewrite X; try reflexivity; try lia. unfold zlen; lia. }
  rewrite (pure_bind _ (intValue n ds)); [reflexivity|]. intros st. unfold lift, chk64, intValue. destruct (n <? 0); (replace (_ && _) with true; [reflexivity|symmetry; apply andb_true_iff; split; apply Z.leb_le; lia]).
Qed.
Lemma longPrinter_never buf s o s' r n v : fld buf 16 8 = Ok (u64 n) -> - 2 ^ 63 <= n < 2 ^ 63 -> longPrinter buf s = (o, s', r) -> In (Tok (TNum v)) o -> v < 2 ^ 63 /\ (n < 0 -> - 2 ^ 63 < v).
Proof.
  intros Hf Hn. unfold longPrinter. rewrite (pure_bind _ (u64 n)) by (intros st; unfold fldM, lift; now rewrite Hf). rewrite s64_u64 by lia. unfold bindM at 1, lift at 1.
  destruct (longLoop _ _ _ _ _) as [w| | |] eqn:E; try (intros [= <- <- <-] []). apply longLoop_range in E; [|lia]. unfold bindM at 1, lift. unfold chk64. destruct (_ && _) eqn:Ec; [|intros [= <- <- <-] []]. apply andb_true_iff in Ec.
  cbn. intros [= <- <- <-] [[= <-]|[]]. destruct (n <? 0) eqn:En; lia.
Qed.

(** ** line tables *)
Lemma starts_late lasti es : Forall (fun e => 0 <= fst e < 256) es -> forall a, lasti < a -> filter (fun e => fst e <=? lasti) (starts a es) = [].
Proof. induction 1 as [|(d & i) es H _ IH]; intros a Ha; cbn [starts filter fst]; [reflexivity|]. cbn [fst] in H. replace (a + d <=? lasti) with false by lia. apply IH. lia. Qed.
Lemma lineTable_len es : zlen (lineTable es) = 2 * zlen es.
Proof. induction es as [|e es IH]; [reflexivity|]. unfold lineTable in *. cbn [flat_map app]. rewrite !zlen_cons, IH. lia. Qed.
Lemma lineLoop_ok lasti es : Forall (fun e => 0 <= fst e < 256 /\ (if v3 then -128 <= snd e < 128 else 0 <= snd e < 256)) es ->
  forall fuel a line, (length (lineTable es) < fuel)%nat -> 0 <= a -> a + 255 * zlen es < 2 ^ 31 -> - 2 ^ 31 <= line - 128 * zlen es -> line + 255 * zlen es < 2 ^ 31 ->
  lineLoop v3 lasti fuel (lineTable es) a line = Ok (line + total (map snd (filter (fun e => fst e <=? lasti) (starts a es)))).
Proof.
  induction 1 as [|(d & i) es (H1 & H2) Hes IH]; intros fuel a line Lf Ha B1 B2 B3; (destruct fuel as [|fuel]; [lia|]).
  - cbn. now rewrite Z.add_0_r.
  - cbn [fst snd] in *. rewrite zlen_cons in *. pose proof (zlen_nonneg es). cbn [lineTable flat_map app fst snd lineLoop]. unfold chk32 at 1. replace ((-2147483648 <=? a + d) && (a + d <=? 2147483647)) with true by (symmetry; apply andb_true_iff; split; apply Z.leb_le; lia). cbn [bind starts filter fst].
    destruct (a + d >? lasti) eqn:E.
    + replace (a + d <=? lasti) with false by lia. rewrite starts_late; [cbn; f_equal; lia| |lia]. eapply Forall_impl; [|exact Hes]. cbn. tauto.
    + replace (a + d <=? lasti) with true by lia. cbn [map snd total].
      assert (Ei : (if v3 then s8 (i mod 256) else i mod 256) = i). { destruct v3; [|rewrite Z.mod_small by lia; reflexivity]. unfold s8, sgn, W8. rewrite Z.mod_mod by lia. change (256 / 2) with 128. destruct (_ <? _) eqn:?; lia. }
      rewrite Ei. unfold chk32. replace ((-2147483648 <=? line + i) && (line + i <=? 2147483647)) with true by (symmetry; apply andb_true_iff; split; apply Z.leb_le; destruct v3; lia). cbn [bind].
      change (flat_map (fun e => [fst e; snd e mod 256]) es) with (lineTable es). cbn [lineTable flat_map app length] in Lf. rewrite IH; try lia; try (destruct v3; lia). all: try (f_equal; lia). change (flat_map (fun e => [fst e; snd e mod 256]) es) with (lineTable es) in Lf. lia.
Qed.
Lemma pyString_ok p t : stringAt v3 m str p t -> pureAt (pyString v3 m str p) t.
Proof.
  intros (H0 & Hw & H) s. unfold pyString. destruct v3.
  - destruct H as (R & Hs & st & F & C1 & C2 & C3). destruct (rd_image m p 48 R ltac:(lia)) as (b & P & Im). rewrite (pure_bind _ _ _ _ P). rewrite (pure_bind _ st _ _ (fldM_image m p _ b 32 4 st Im F ltac:(lia) ltac:(lia))). cbv zeta. rewrite C1, C2, C3. cbn [Z.eqb Pos.eqb andb]. unfold strM, lift. rewrite u64_id by (unfold isU64; lia). now rewrite Hs.
  - unfold strM, lift. rewrite u64_id by (unfold isU64; lia). now rewrite H.
Qed.
Lemma readable_lt a n : readable m a n -> 0 < n -> a < W64. Proof. intros (? & ? & ? & _) ?. lia. Qed.
Lemma getLine_ok c code f lasti : codeAt v3 m lay str c f -> okLayout lay -> image m c (lCodeSize lay) code -> pureAt (getLine v3 lay m code lasti) (lineOf (fFirst f) lasti (fTable f)).
Proof.
  intros (R & _ & _ & (p & Fp & HT) & Ff & Hf) (O1 & O2 & O3) Im s. destruct HT as (Rt & Fs & Bt & Lt & Fe). inversion O3 as [|? ? P1 O4]; subst. inversion O4 as [|? ? P2 O5]; subst. inversion O5 as [|? ? P3 O6]; subst. inversion O6 as [|? ? P4 _]; subst.
  unfold getLine. rewrite (pure_bind _ p _ _ (fldM_image m c _ code (lLnotab lay) 8 p Im Fp ltac:(lia) ltac:(lia))).
  destruct (rd_image m p 24 Rt ltac:(lia)) as (b & P & Ib). rewrite (pure_bind _ _ _ _ P). rewrite (pure_bind _ (zlen (lineTable (fTable f))) _ _ (fldM_image m p _ b 16 8 _ Ib Fs ltac:(lia) ltac:(lia))).
  pose proof (zlen_nonneg (lineTable (fTable f))) as Ln. unfold stackMax in *.
  rewrite (pure_bind (vla _) tt). 2:{ intros st. unfold vla, lift. rewrite s64_small by lia. unfold stackMax. now replace ((0 <=? zlen (lineTable (fTable f))) && (zlen (lineTable (fTable f)) <=? 8388608)) with true by (symmetry; apply andb_true_iff; split; apply Z.leb_le; lia). }
  assert (Hd : pureAt (rd m (p + (if v3 then 32 else 36)) (zlen (lineTable (fTable f)))) (lineTable (fTable f))).
  { destruct (Z.eq_dec (zlen (lineTable (fTable f))) 0) as [E0|E0]; [|apply rd_bytes; [exact Bt|destruct Bt as (B1 & B2 & _); lia]]. rewrite E0. apply zlen_0 in E0. rewrite E0. intros st. reflexivity. }
  rewrite (pure_bind _ _ _ _ Hd). rewrite (pure_bind _ (fFirst f mod 2 ^ 32) _ _ (fldM_image m c _ code (lFirstline lay) 4 _ Im Ff ltac:(lia) ltac:(lia))).
  unfold lift. rewrite s32_mod by lia. rewrite lineTable_len in *. pose proof (zlen_nonneg (fTable f)). rewrite lineLoop_ok; try lia; [reflexivity|exact Fe].
Qed.

(** ** frames *)
Lemma frame_ok fuel pr t name basic item flags dictoff f back s : doargs = false -> dolocals = false -> okLayout lay -> frameAt v3 m lay str t basic item f back ->
  typeAt m lay t name basic item flags dictoff -> typeKnown s t name basic item flags dictoff -> kindOf t = Some KFrame -> ~ In (fAddr f) (pVisited s) ->
  exists s', one' fuel pr (fAddr f) s = (frameText (u64 (pDepth s * 4) mod 301) f, s', Ok back) /\ pDepth s' = pDepth s /\ pVisited s' = fAddr f :: pVisited s /\ typeKnown s' t name basic item flags dictoff.
Proof.
  intros Hda Hdl OL (n & c & loc & HO & Hi & Hnn & Hb & F24 & F32 & F56 & Hc & Fl & Hl & HC) HT K Hk Hv.
  destruct (one_at fuel pr (fAddr f) t KFrame name basic item flags dictoff n s ltac:(unfold okLayout in OL; lia) ltac:(lia) (or_intror Hnn) HO HT K Hk (fun _ => Hv)) as (buf & Im & E).
  destruct (addType_eq s t (mkPT name basic item flags (s64 dictoff))) as (Ed & Ev). set (s1 := marked KFrame (fAddr f) (addType s t (mkPT name basic item flags (s64 dictoff)))) in *.
  assert (D1 : pDepth s1 = pDepth s) by exact Ed. assert (V1 : pVisited s1 = fAddr f :: pVisited s) by (unfold s1, marked; cbn [dupdetect pVisited]; now rewrite Ev).
  assert (K1 : typeKnown s1 t name basic item flags dictoff) by (apply addType_known in K; exact K). clearbody s1. exists s1. split; [rewrite E; cbn [runPrinter]|now repeat split].
  - unfold framePrinter. rewrite Hda, Hdl. assert (Sz : 68 <= basic + item * Z.abs n) by (unfold okLayout in OL; nia). assert (Sz2 : lFrameLasti lay + 4 <= basic + item * Z.abs n) by (unfold okLayout in OL; nia).
    rewrite (pure_bind _ c _ _ (fldM_image m _ _ buf 32 8 c Im F32 ltac:(lia) ltac:(lia))). rewrite (pure_bind _ loc _ _ (fldM_image m _ _ buf 56 8 loc Im F56 ltac:(lia) ltac:(lia))). rewrite (pure_bind _ back _ _ (fldM_image m _ _ buf 24 8 back Im F24 ltac:(lia) ltac:(lia))).
    replace (c =? 0) with false by lia. cbn [negb andb]. unfold bindM at 1. pose proof HC as (Rc & (pn & Fn & Sn) & (pf & Ff & Sf) & _). pose proof OL as (O1 & O2 & O3). inversion O3 as [|? ? P1 O4]; subst. inversion O4 as [|? ? P2 O5]; subst.
    destruct (rd_image m c (lCodeSize lay) Rc ltac:(lia)) as (code & Pc & Ic). rewrite (pure_bind _ _ _ _ Pc).
    rewrite (pure_bind _ (fLasti f mod 2 ^ 32) _ _ (fldM_image m _ _ buf (lFrameLasti lay) 4 _ Im Fl ltac:(lia) ltac:(lia))). rewrite s32_mod by lia.
    rewrite (pure_bind _ _ _ _ (getLine_ok c code f (fLasti f) HC OL Ic)).
    rewrite (pure_bind _ pn _ _ (fldM_image m _ _ code (lName lay) 8 _ Ic Fn ltac:(lia) ltac:(lia))). rewrite (pure_bind _ _ _ _ (pyString_ok pn _ Sn)).
    rewrite (pure_bind _ pf _ _ (fldM_image m _ _ code (lFilename lay) 8 _ Ic Ff ltac:(lia) ltac:(lia))). rewrite (pure_bind _ _ _ _ (pyString_ok pf _ Sf)).
    unfold prefix. cbn. rewrite D1. reflexivity.
Qed.
Lemma stack_loop fuel pr t name basic item flags dictoff : doargs = false -> dolocals = false -> okLayout lay -> typeAt m lay t name basic item flags dictoff -> kindOf t = Some KFrame ->
  forall fs a s n, stackAt v3 m lay str t basic item fs a -> typeKnown s t name basic item flags dictoff -> NoDup (map fAddr fs) -> (forall f, In f fs -> ~ In (fAddr f) (pVisited s)) -> (length fs < n)%nat ->
  exists s', loop v3 lay m str kindOf maxdepth doargs dolocals fuel pr n a s = (map (fun f => Obj (fAddr f) (frameText (u64 (pDepth s * 4) mod 301) f)) fs, s', Ok tt) /\ pDepth s' = pDepth s.
Proof.
  intros Hda Hdl OL HT Hk. induction fs as [|f fs IH]; intros a s n Hst K Nd Hv Ln; (destruct n as [|n]; [cbn in Ln; lia|]); cbn [stackAt] in Hst; cbn [loop].
  - subst a. exists s. now split.
  - destruct Hst as (<- & back & HF & Hr). assert (Ha : fAddr f <> 0) by (destruct HF as (? & ? & ? & (X & _) & _); exact X). replace (fAddr f =? 0) with false by lia.
    destruct (frame_ok fuel pr t name basic item flags dictoff f back s Hda Hdl OL HF HT K Hk (Hv f (or_introl eq_refl))) as (s1 & E1 & D1 & V1 & K1). cbn [map] in Nd. inversion Nd as [|? ? N1 N2]; subst.
    destruct (IH back s1 n Hr K1 N2) as (s2 & E2 & D2); [intros g Hg; rewrite V1; intros [X|X]; [apply N1; rewrite X; now apply in_map|exact (Hv g (or_intror Hg) X)]|cbn in Ln; lia|].
    exists s2. split; [|lia]. unfold bindM, group. rewrite E1. cbn [map]. rewrite E2. rewrite D1. reflexivity.
Qed.

(** ** what is requested below an object *)
Definition CT {A} (x : M A) (cs : list Z) (Q : A -> Prop) : Prop := forall s, match x s with (o, _, Ok a) => calls o = cs /\ Q a | (_, _, Throw) => False | _ => True end.
Lemma CT_bind {A B} (x : M A) (f : A -> M B) c1 c2 P Q : CT x c1 P -> (forall a, P a -> CT (f a) c2 Q) -> CT (bindM x f) (c1 ++ c2) Q.
Proof.
  intros Hx Hf s. unfold bindM. specialize (Hx s). destruct (x s) as ((o1 & s1) & [a| | |]); auto. destruct Hx as (H1 & H2). specialize (Hf a H2 s1). destruct (f a s1) as ((o2 & s2) & [b| | |]); auto.
  destruct Hf as (F1 & F2). split; [now rewrite calls_app, H1, F1|exact F2].
Qed.
Lemma CT_0 {A B} (x : M A) (f : A -> M B) cs Q : CT x [] (fun _ => True) -> (forall a, CT (f a) cs Q) -> CT (bindM x f) cs Q.
Proof. intros Hx Hf. apply (CT_bind x f [] cs (fun _ => True) Q Hx). auto. Qed.
Lemma CT_pure {A B} (x : M A) a (f : A -> M B) cs Q : pureAt x a -> CT (f a) cs Q -> CT (bindM x f) cs Q.
Proof. intros Hp Hf s. rewrite (pure_bind _ _ _ _ Hp). apply Hf. Qed.
Lemma CT_emit t : CT (emit t) [] (fun _ => True). Proof. intros s. now split. Qed.
Lemma CT_lit t : CT (lit t) [] (fun _ => True). Proof. intros s. now split. Qed.
Lemma CT_addDepth d : CT (addDepth d) [] (fun _ => True). Proof. intros s. now split. Qed.
Lemma CT_prefix : CT prefix [] (fun _ => True). Proof. intros s. now split. Qed.
Lemma CT_ret {A} (a : A) (Q : A -> Prop) : Q a -> CT (ret a) [] Q. Proof. intros H s. now split. Qed.
Lemma CT_vla n : 0 <= n <= stackMax -> CT (vla n) [] (fun _ => True). Proof. intros H s. unfold vla, lift. now replace ((0 <=? n) && (n <=? stackMax)) with true by (symmetry; apply andb_true_iff; split; apply Z.leb_le; lia). Qed.
Lemma CT_print f k : CT (print' f k) [k] (fun _ => True).
Proof.
  intros s. destruct f as [|f]; [exact I|]. cbn [print]. unfold group. rewrite getDepth_bind. destruct (_ >? _); [now split|]. rewrite depth_bind. unfold bindM, caught.
  destruct (loop _ _ _ _ _ _ _ _ _ _ _ _ _) as ((o & s1) & [[]| | |]); cbn; auto.
Qed.
Lemma CT_each pr (Hpr : forall a, CT (pr a) [a] (fun _ => True)) l : CT (elements pr l) l (fun _ => True).
Proof.
  induction l as [|a l IH]; [now apply CT_ret|]. unfold elements in *. cbn [each]. change (a :: l) with ([a] ++ l). eapply CT_bind; [|intros _ _; exact IH].
  apply CT_0; [apply CT_prefix|intros _]. change [a] with ([a] ++ []). eapply CT_bind; [apply Hpr|intros _ _]. apply CT_lit.
Qed.
Lemma print_calls f a s o s' cs : a <> 0 -> pDepth s <= 10000 ->
  match one' f (print' f) a (deeper s 1) with (ob, _, Ok b) => calls ob = cs /\ b = 0 | (_, _, Throw) => False | _ => True end ->
  print' (S f) a s = (o, s', Ok tt) -> exists body, o = [Call a [Obj a body]] /\ calls body = cs.
Proof.
  intros Ha Hd Ho. cbn [print]. unfold group. rewrite getDepth_bind. replace (pDepth s >? 10000) with false by lia. rewrite depth_bind. unfold bindM at 1, caught.
  assert (X : match loop v3 lay m str kindOf maxdepth doargs dolocals f (print' f) f a (deeper s 1) with (ol, _, Ok _) => exists body, ol = [Obj a body] /\ calls body = cs | (_, _, Throw) => False | _ => True end).
  { generalize f at 3 as n. intros n. destruct n as [|n]; [exact I|]. cbn [loop]. replace (a =? 0) with false by lia. unfold bindM, group. destruct (one' f (print' f) a (deeper s 1)) as ((ob & s1) & [b| | |]); auto. destruct Ho as (H1 & ->).
    destruct n as [|n]; [exact I|]. cbn. eauto. }
  destruct (loop _ _ _ _ _ _ _ _ _ _ _ _ _) as ((ol & s1) & [[]| | |]); cbn; try discriminate; [|destruct X]. destruct X as (body & -> & Hc). intros [= <- <-]. exists body. now split.
Qed.
Lemma CT_forN body l (Hb : forall i x, nth_error l i = Some x -> CT (body (Z.of_nat i)) x (fun _ => True)) : forall fuel i n, (i + n <= length l)%nat -> CT (forN fuel (Z.of_nat i) (Z.of_nat (i + n)) body) (concat (firstn n (skipn i l))) (fun _ => True).
Proof.
  induction fuel as [|f IH]; intros i n L; cbn [forN]; [intros s; exact I|]. destruct n as [|n].
  - replace (Z.of_nat i <? Z.of_nat (i + 0)) with false by lia. now apply CT_ret.
  - replace (Z.of_nat i <? Z.of_nat (i + S n)) with true by lia. destruct (nth_error l i) as [x|] eqn:E; [|apply nth_error_None in E; lia].
    assert (Hs : skipn i l = x :: skipn (S i) l). { rewrite skipn_S. assert (E0 : nth_error (skipn i l) 0 = Some x) by (rewrite nth_error_skipn'; now replace (i + 0)%nat with i by lia). destruct (skipn i l); [discriminate|]. cbn in E0. now injection E0 as ->. }
    rewrite Hs. cbn [firstn concat]. eapply CT_bind; [exact (Hb i x E)|intros _ _]. specialize (IH (S i) n ltac:(lia)). replace (Z.of_nat i + 1) with (Z.of_nat (S i)) by lia. replace (i + S n)%nat with (S i + n)%nat by lia. exact IH.
Qed.
Lemma readable_sub a n off k : readable m a n -> 0 <= off -> 0 <= k -> off + k <= n -> readable m (a + off) k.
Proof. intros (H1 & H2 & H3 & H4) Ho Hk L. repeat split; try lia. intros j Hj. apply H4. lia. Qed.
Lemma concat_flat l : concat (map (fun e => if inUse e then [fst e; snd e] else []) l) = flat2 (filter inUse l).
Proof. induction l as [|e l IH]; [reflexivity|]. cbn [map concat filter]. destruct (inUse e); cbn [flat2 flat_map app]; now rewrite IH. Qed.
Lemma slot2_at f table l i e : slots2At m table l -> nth_error l i = Some e -> CT (dict2Slot m (print' f) table (Z.of_nat i)) (if inUse e then [fst e; snd e] else []) (fun _ => True).
Proof.
  intros (R & H) Hi. destruct e as (k & v). destruct (H i k v Hi) as (Fk & Fv). assert (Li : (i < length l)%nat) by (apply nth_error_Some; congruence).
  assert (Re : readable m (table + 24 * Z.of_nat i) 24) by (apply (readable_sub table _ _ _ R); unfold zlen; lia). destruct (rd_image m _ 24 Re ltac:(lia)) as (b & P & Im). unfold dict2Slot. apply (CT_pure _ _ _ _ _ P).
  apply (CT_pure _ k _ _ _ (fldM_image m _ _ b 8 8 k Im Fk ltac:(lia) ltac:(lia))). apply (CT_pure _ v _ _ _ (fldM_image m _ _ b 16 8 v Im Fv ltac:(lia) ltac:(lia))). unfold inUse. cbn [fst snd].
  destruct (v =? 0) eqn:Ev; cbn [negb]; [rewrite andb_false_r; now apply CT_ret|]. rewrite andb_true_r. destruct (negb (k =? 0)); [|now apply CT_ret].
  apply CT_0; [apply CT_prefix|intros _]. change [k; v] with ([k] ++ [v]). eapply CT_bind; [apply CT_print|intros _ _]. apply CT_0; [apply CT_lit|intros _]. change [v] with ([v] ++ []). eapply CT_bind; [apply CT_print|intros _ _]. apply CT_lit.
Qed.
Lemma dict2_ct f buf a size used mask table l s : image m a size buf -> 48 <= size -> dict2At a used mask table l -> pDepth s <= maxdepth ->
  match dict2Printer m maxdepth f (print' f) buf s with (o, _, Ok b) => calls o = flat2 (filter inUse (firstn (Z.to_nat mask) l)) /\ b = 0 | (_, _, Throw) => False | _ => True end.
Proof.
  intros Im Sz (Fu & Hu & Fm & Ft & Ll & Lm & HS) Hd. unfold dict2Printer. pose proof (proj1 Fm) as Rm. rewrite (pure_bind _ used _ _ (fldM_image m a _ buf 24 8 used Im Fu ltac:(lia) ltac:(lia))). rewrite getDepth_bind.
  replace (used =? 0) with false by lia. replace (pDepth s >? maxdepth) with false by lia. revert s Hd. intros s _. revert s.
  match goal with |- forall s, match ?x s with _ => _ end => change (CT x (flat2 (filter inUse (firstn (Z.to_nat mask) l))) (fun b => b = 0)) end.
  apply CT_0; [apply CT_lit|intros _]. apply CT_0; [apply CT_addDepth|intros _].
  apply (CT_pure _ mask _ _ _ (fldM_image m a _ buf 32 8 mask Im Fm ltac:(lia) ltac:(lia))). apply (CT_pure _ table _ _ _ (fldM_image m a _ buf 40 8 table Im Ft ltac:(lia) ltac:(lia))).
  rewrite <- (app_nil_r (flat2 _)). eapply CT_bind.
  - rewrite <- concat_flat, <- firstn_map. rewrite s64_small by lia. replace mask with (Z.of_nat (0 + Z.to_nat mask)) at 1 by lia.
    apply (CT_forN _ (map (fun e => if inUse e then [fst e; snd e] else []) l)) with (i := 0%nat); [|rewrite map_length; unfold zlen in Ll; lia].
    intros i x Hx. rewrite nth_error_map in Hx. destruct (nth_error l i) as [e|] eqn:Ei; [|discriminate]. cbn in Hx. injection Hx as <-. now apply (slot2_at f table l).
  - intros _ _. apply CT_0; [apply CT_addDepth|intros _]. apply CT_0; [apply CT_prefix|intros _]. apply CT_0; [apply CT_lit|intros _]. now apply CT_ret.
Qed.

(** ** python 3 dictionaries *)
Lemma ixSize_width size : ixSize size = width size.
Proof. unfold ixSize, width. replace (size <? 256) with (size <=? 255) by lia. replace (size <? 65536) with (size <=? 65535) by lia. now replace (size <? 4294967296) with (size <=? 4294967295) by lia. Qed.
Lemma width_cases size : width size = 1 \/ width size = 2 \/ width size = 4 \/ width size = 8.
Proof. unfold width. repeat (destruct (_ <? _); auto). Qed.
Lemma sgn_mod w x : (w = 1 \/ w = 2 \/ w = 4 \/ w = 8) -> - 256 ^ w / 2 <= x < 256 ^ w / 2 -> sgn (2 ^ (8 * w)) (x mod 256 ^ w) = x.
Proof.
  intros Hw H. assert (E : 2 ^ (8 * w) = 256 ^ w) by (destruct Hw as [->|[->|[->| ->]]]; reflexivity). rewrite E. unfold sgn. 
  destruct Hw as [->|[->|[->| ->]]]; match goal with |- context [256 ^ ?k] => change (256 ^ k) with ltac:(let v := eval vm_compute in (256 ^ k) in exact v) in * end; rewrite Z.mod_mod by lia; match goal with |- context [?n / 2] => change (n / 2) with ltac:(let v := eval vm_compute in (n / 2) in exact v) in * end; destruct (_ <? _) eqn:Ex; lia.
Qed.
Lemma slot3_at f keys values ix es vs i x : keysAt m keys ix es -> (values <> 0 -> pointersAt m values vs /\ length vs = length es) -> nth_error ix i = Some x ->
  CT (dict3Slot m (print' f) keys (width (zlen ix)) (zlen ix) values (Z.of_nat i)) (if negb (x =? -1) && negb (x =? -2) then item3 values vs es x else []) (fun _ => True).
Proof.
  intros (Hsz & R & Fs & Hix & Hes) Hvs Hi. destruct (Hix i x Hi) as (Fx & Rx & Cx). set (w := width (zlen ix)) in *. pose proof (width_cases (zlen ix)) as Cw. fold w in Cw. assert (Pw : 0 < w) by lia.
  assert (Li : (i < length ix)%nat) by (apply nth_error_Some; congruence). pose proof (zlen_nonneg es) as Le.
  assert (Ri : readable m (keys + (40 + w * Z.of_nat i)) w) by (apply (readable_sub keys _ _ _ R); unfold zlen in *; nia).
  destruct (rd_image m _ w Ri Pw) as (b & P & Im). unfold dict3Slot. replace (keys + 40 + Z.of_nat i * w) with (keys + (40 + w * Z.of_nat i)) by lia. apply (CT_pure _ _ _ _ _ P). cbv zeta.
  assert (El : le b = x mod 256 ^ w). { replace (keys + 40 + w * Z.of_nat i) with (keys + (40 + w * Z.of_nat i) + 0) in Fx by lia. pose proof (fld_image m _ w b 0 (Z.to_nat w) _ Im Fx ltac:(lia) ltac:(lia)) as X. unfold fld in X. rewrite zdrop_neg in X by lia. rewrite Z2Nat.id in X by lia. rewrite ztake_all in X by (destruct Im as (<- & _); lia). destruct (_ && _); [|discriminate]. now injection X. }
  rewrite El, sgn_mod by assumption. destruct (x =? -1) eqn:E1; cbn [orb negb andb]; [now apply CT_ret|]. destruct (x =? -2) eqn:E2; cbn [negb]; [now apply CT_ret|].
  assert (Hx : 0 <= x < zlen es) by (destruct Cx as [X|[X|X]]; lia). destruct (nth_error es (Z.to_nat x)) as [(k & v)|] eqn:Ee; [|apply nth_error_None in Ee; unfold zlen in Hx; lia].
  destruct (Hes _ _ _ Ee) as (Fk & Fv). rewrite Z2Nat.id in Fk, Fv by lia. assert (Re : readable m (keys + (40 + w * zlen ix + 24 * x)) 24) by (apply (readable_sub keys _ _ _ R); unfold zlen in *; nia).
  destruct (rd_image m _ 24 Re ltac:(lia)) as (be & Pe & Ie). replace (keys + 40 + zlen ix * w + 24 * x) with (keys + (40 + w * zlen ix + 24 * x)) by lia. apply (CT_pure _ _ _ _ _ Pe).
  replace (keys + 40 + w * zlen ix + 24 * x + 8) with (keys + (40 + w * zlen ix + 24 * x) + 8) in Fk by lia. replace (keys + 40 + w * zlen ix + 24 * x + 16) with (keys + (40 + w * zlen ix + 24 * x) + 16) in Fv by lia.
  apply (CT_pure _ k _ _ _ (fldM_image m _ _ be 8 8 k Ie Fk ltac:(lia) ltac:(lia))). apply (CT_pure _ v _ _ _ (fldM_image m _ _ be 16 8 v Ie Fv ltac:(lia) ltac:(lia))).
  apply (CT_pure _ (value3 values vs (Z.to_nat x) v)).
  { unfold value3. destruct (values =? 0) eqn:E0; cbn [negb]; [intros st; reflexivity|]. destruct (Hvs ltac:(lia)) as ((Rv & Hv) & Lv). destruct (nth_error vs (Z.to_nat x)) as [p|] eqn:Ep; [|apply nth_error_None in Ep; unfold zlen in Hx; lia].
    rewrite (nth_error_nth vs _ 0 Ep). apply Hv in Ep. rewrite Z2Nat.id in Ep by lia. assert (Rp : readable m (values + 8 * x) 8) by (apply (readable_sub values _ _ _ Rv); unfold zlen in *; lia).
    destruct (rd_image m _ 8 Rp ltac:(lia)) as (bp & Pp & Ip). intros st. rewrite (pure_bind _ _ _ _ Pp). replace (values + 8 * x) with (values + 8 * x + 0) in Ep by lia. exact (fldM_image m _ _ bp 0 8 p Ip Ep ltac:(lia) ltac:(lia) st). }
  unfold item3. rewrite Ee. apply CT_0; [apply CT_prefix|intros _]. change [k; value3 values vs (Z.to_nat x) v] with ([k] ++ [value3 values vs (Z.to_nat x) v]). eapply CT_bind; [apply CT_print|intros _ _]. apply CT_0; [apply CT_lit|intros _].
  rewrite <- (app_nil_r [value3 _ _ _ _]). eapply CT_bind; [apply CT_print|intros _ _]. apply CT_lit.
Qed.
Lemma concat_used3 (g : Z -> list Z) (ix : list Z) : concat (map (fun x => if negb (x =? -1) && negb (x =? -2) then g x else []) ix) = flat_map g (used3 ix).
Proof. induction ix as [|x ix IH]; [reflexivity|]. cbn [map concat used3 filter]. destruct (_ && _); cbn [flat_map app]; now rewrite IH. Qed.
Lemma dict3_ct f buf a size used keys values ix es vs s : image m a size buf -> 48 <= size -> dict3At a used keys values ix es vs -> pDepth s <= maxdepth ->
  match dict3Printer m maxdepth f (print' f) buf s with (o, _, Ok b) => calls o = flat_map (item3 values vs es) (used3 ix) /\ b = 0 | (_, _, Throw) => False | _ => True end.
Proof.
  intros Im Sz (Fu & Hu & Fk & Fv & HK & Hvs) Hd. unfold dict3Printer. rewrite (pure_bind _ used _ _ (fldM_image m a _ buf 16 8 used Im Fu ltac:(lia) ltac:(lia))). rewrite getDepth_bind.
  replace (used =? 0) with false by lia. replace (pDepth s >? maxdepth) with false by lia. revert s Hd. intros s _. revert s.
  match goal with |- forall s, match ?x s with _ => _ end => change (CT x (flat_map (item3 values vs es) (used3 ix)) (fun b => b = 0)) end.
  apply (CT_pure _ keys _ _ _ (fldM_image m a _ buf 32 8 keys Im Fk ltac:(lia) ltac:(lia))). apply (CT_pure _ values _ _ _ (fldM_image m a _ buf 40 8 values Im Fv ltac:(lia) ltac:(lia))).
  pose proof HK as (Hsz & R & Fs & _). pose proof (width_cases (zlen ix)) as Cw. pose proof (zlen_nonneg ix). pose proof (zlen_nonneg es).
  assert (R40 : readable m keys 40). { replace keys with (keys + 0) by lia. apply (readable_sub keys _ _ _ R); nia. }
  destruct (rd_image m keys 40 R40 ltac:(lia)) as (kb & Pk & Ik). apply (CT_pure _ _ _ _ _ Pk). apply (CT_pure _ (zlen ix) _ _ _ (fldM_image m _ _ kb 8 8 _ Ik Fs ltac:(lia) ltac:(lia))). cbv zeta. rewrite s64_small by lia. rewrite ixSize_width.
  apply CT_0; [apply CT_lit|intros _]. apply CT_0; [apply CT_addDepth|intros _]. rewrite <- (app_nil_r (flat_map (item3 values vs es) (used3 ix))). eapply CT_bind.
  - rewrite <- concat_used3. set (gl := map _ ix). replace gl with (firstn (length ix) (skipn 0 gl)) by (cbn [skipn]; rewrite firstn_all2; [reflexivity|unfold gl; rewrite map_length; lia]).
    change 0 with (Z.of_nat 0). pattern (zlen ix) at 1. replace (zlen ix) with (Z.of_nat (0 + length ix)) at 1 by (unfold zlen; lia). cbv beta. apply CT_forN; [|unfold gl; rewrite map_length; lia].
    intros i x Hx. unfold gl in Hx. rewrite nth_error_map in Hx. destruct (nth_error ix i) as [e|] eqn:Ei; [|discriminate]. cbn in Hx. injection Hx as <-. now apply slot3_at.
  - intros _ _. apply CT_0; [apply CT_addDepth|intros _]. apply CT_0; [apply CT_prefix|intros _]. apply CT_0; [apply CT_lit|intros _]. now apply CT_ret.
Qed.

(** ** lists and tuples *)
Lemma ptrs_first a l : pointersAt m a l -> pureAt (ptrs m a (Z.min (zlen l) 100)) (firstn 100 l).
Proof.
  intros ((R1 & R2 & R3 & R4) & H). pose proof (zlen_nonneg l) as Ln. assert (L : zlen (firstn 100 l) = Z.min (zlen l) 100) by (unfold zlen; rewrite firstn_length; lia). rewrite <- L. destruct (firstn 100 l) as [|p r] eqn:E; [intros st; reflexivity|]. rewrite <- E in *. apply ptrs_at; [|rewrite E; discriminate].
  split; [repeat split; try lia; intros k Hk; apply R4; lia|]. intros i q Hq. apply H. rewrite nth_error_firstn' in Hq; [exact Hq|]. assert (i < length (firstn 100 l))%nat by (apply nth_error_Some; congruence). rewrite firstn_length in *. lia.
Qed.
Lemma list_ct f buf a size n item l : image m a size buf -> 32 <= size -> field m (a + 16) 8 (u64 n) -> field m (a + 24) 8 item -> zlen l = n -> n < 2 ^ 63 -> pointersAt m item l ->
  CT (listPrinter m (print' f) buf) (firstn 100 l) (fun b => b = 0).
Proof.
  intros Im Sz Fn Fi Ll Hn HP. pose proof (zlen_nonneg l). unfold listPrinter. apply CT_0; [apply CT_lit|intros _]. apply (CT_pure _ (u64 n) _ _ _ (fldM_image m a _ buf 16 8 _ Im Fn ltac:(lia) ltac:(lia))). cbv zeta. rewrite s64_u64 by lia.
  apply CT_0; [apply CT_vla; unfold stackMax; lia|intros _]. apply (CT_pure _ item _ _ _ (fldM_image m a _ buf 24 8 _ Im Fi ltac:(lia) ltac:(lia))). rewrite <- Ll. apply (CT_pure _ _ _ _ _ (ptrs_first item l HP)).
  apply CT_0; [apply CT_addDepth|intros _]. rewrite <- (app_nil_r (firstn 100 l)) at 2. eapply CT_bind; [apply CT_each; intros; apply CT_print|intros _ _]. apply CT_0; [apply CT_addDepth|intros _]. apply CT_0; [apply CT_prefix|intros _]. apply CT_0; [apply CT_lit|intros _]. now apply CT_ret.
Qed.
Lemma tuple_ct f buf a size n l : image m a size buf -> 24 <= size -> field m (a + 16) 8 (u64 n) -> zlen l = n -> n < 2 ^ 63 -> pointersAt m (a + 24) l ->
  CT (tuplePrinter m (print' f) buf a) (firstn 100 l) (fun b => b = 0).
Proof.
  intros Im Sz Fn Ll Hn HP. pose proof (zlen_nonneg l). unfold tuplePrinter. apply (CT_pure _ (u64 n) _ _ _ (fldM_image m a _ buf 16 8 _ Im Fn ltac:(lia) ltac:(lia))). cbv zeta. rewrite s64_u64 by lia. 
  destruct (Z.min n 100 =? 0) eqn:E0; [assert (l = []) as -> by (apply zlen_0; lia); apply CT_0; [apply CT_lit|intros _]; now apply CT_ret|].
  apply CT_0; [apply CT_lit|intros _]. apply CT_0; [apply CT_vla; unfold stackMax; lia|intros _]. rewrite <- Ll. apply (CT_pure _ _ _ _ _ (ptrs_first _ l HP)).
  apply CT_0; [apply CT_addDepth|intros _]. rewrite <- (app_nil_r (firstn 100 l)) at 2. eapply CT_bind; [apply CT_each; intros; apply CT_print|intros _ _]. apply CT_0; [apply CT_addDepth|intros _]. apply CT_0; [apply CT_prefix|intros _]. apply CT_0; [apply CT_lit|intros _]. now apply CT_ret.
Qed.
End One.
