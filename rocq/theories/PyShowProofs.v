From Coq Require Import String.
From Verif Require Import Base ElfHash ElfHashProofs Cache CacheProofs CfiSpec CfiProofs Python PythonSpec PythonProofs PythonProofs2 PythonProofs3 PythonProofs4 PyShowSpec.

Lemma pieces_app a b : pieces (a ++ b) = pieces a ++ pieces b. Proof. apply flat_map_app. Qed.
Definition SH {A} (x : M A) (ps : list piece) (Q : A -> Prop) : Prop := forall s, match x s with (o, _, Ok a) => pieces o = ps /\ Q a | (_, _, Throw) => False | _ => True end.
Lemma SH_bind {A B} (x : M A) (f : A -> M B) c1 c2 P Q : SH x c1 P -> (forall a, P a -> SH (f a) c2 Q) -> SH (bindM x f) (c1 ++ c2) Q.
Proof.
  intros Hx Hf s. unfold bindM. specialize (Hx s). destruct (x s) as ((o1 & s1) & [a| | |]); auto. destruct Hx as (H1 & H2). specialize (Hf a H2 s1). destruct (f a s1) as ((o2 & s2) & [b| | |]); auto.
  destruct Hf as (F1 & F2). split; [now rewrite pieces_app, H1, F1|exact F2].
Qed.
Lemma SH_0 {A B} (x : M A) (f : A -> M B) cs Q : SH x [] (fun _ => True) -> (forall a, SH (f a) cs Q) -> SH (bindM x f) cs Q.
Proof. intros Hx Hf. apply (SH_bind x f [] cs (fun _ => True) Q Hx). auto. Qed.
Lemma SH_1 {A B} (x : M A) (f : A -> M B) p cs Q : SH x [p] (fun _ => True) -> (forall a, SH (f a) cs Q) -> SH (bindM x f) (p :: cs) Q.
Proof. intros Hx Hf. apply (SH_bind x f [p] cs (fun _ => True) Q Hx). auto. Qed.
Lemma SH_pure {A B} (x : M A) a (f : A -> M B) cs Q : pureAt x a -> SH (f a) cs Q -> SH (bindM x f) cs Q.
Proof. intros Hp Hf s. rewrite (pure_bind _ _ _ _ Hp). apply Hf. Qed.
Lemma SH_lit t : SH (lit t) [txt t] (fun _ => True). Proof. intros s. now split. Qed.
Lemma SH_str t : SH (emit (TStr t)) [Text (TStr t)] (fun _ => True). Proof. intros s. now split. Qed.
Lemma SH_num t : SH (emit (TNum t)) [Text (TNum t)] (fun _ => True). Proof. intros s. now split. Qed.
Lemma SH_float t : SH (emit (TFloat t)) [Text (TFloat t)] (fun _ => True). Proof. intros s. now split. Qed.
Lemma SH_addDepth d : SH (addDepth d) [] (fun _ => True). Proof. intros s. now split. Qed.
Lemma SH_prefix : SH prefix [Indent] (fun _ => True). Proof. intros s. now split. Qed.
Lemma SH_ret {A} (a : A) (Q : A -> Prop) : Q a -> SH (ret a) [] Q. Proof. intros H s. now split. Qed.
Lemma SH_vla n : 0 <= n <= stackMax -> SH (vla n) [] (fun _ => True). Proof. intros H s. unfold vla, lift. now replace ((0 <=? n) && (n <=? stackMax)) with true by (symmetry; apply andb_true_iff; split; apply Z.leb_le; lia). Qed.
Lemma SH_eq {A} (x : M A) c d Q : SH x c Q -> c = d -> SH x d Q. Proof. now intros H <-. Qed.
Lemma SH_each body g (H : forall a, SH (body a) (g a) (fun _ => True)) l : SH (each l body) (flat_map g l) (fun _ => True).
Proof. induction l as [|a l IH]; [now apply SH_ret|]. cbn [each flat_map]. eapply SH_bind; [apply H|intros _ _; exact IH]. Qed.
Lemma SH_pairs body g (H : forall a b, SH (body a b) (g (a, b)) (fun _ => True)) l : forall k, SH (pairs l k body) (flat_map g (combine l k)) (fun _ => True).
Proof. induction l as [|a l IH]; intros [|b k]; try now apply SH_ret. cbn [pairs combine flat_map]. eapply SH_bind; [apply H|intros _ _; apply IH]. Qed.

(** pointers *)
Lemma ptrs_pure m a l : pointersAt m a l -> pureAt (ptrs m a (zlen l)) l.
Proof. destruct l as [|p l]; [intros _ st; reflexivity|]. intros H. apply ptrs_at; [exact H|discriminate]. Qed.
Lemma pointers_sub m a l i k : pointersAt m a l -> (i + k <= length l)%nat -> pointersAt m (a + 8 * Z.of_nat i) (firstn k (skipn i l)).
Proof.
  intros ((R1 & R2 & R3 & R4) & H) L. assert (Ln : length (firstn k (skipn i l)) = k) by (rewrite firstn_length, skipn_length; lia). unfold zlen in *. split.
  - unfold zlen. rewrite Ln. repeat split; try lia. intros j Hj. apply R4. lia.
  - intros j p Hp. assert (j < k)%nat by (rewrite <- Ln; apply nth_error_Some; congruence). rewrite nth_error_firstn', nth_error_skipn' in Hp by lia. apply H in Hp. now replace (a + 8 * Z.of_nat i + 8 * Z.of_nat j) with (a + 8 * Z.of_nat (i + j)) by lia.
Qed.
Lemma ptrs_sub m a l i k z : pointersAt m a l -> (i + k <= length l)%nat -> z = Z.of_nat k -> pureAt (ptrs m (a + 8 * Z.of_nat i) z) (firstn k (skipn i l)).
Proof.
  intros H L ->. pose proof (ptrs_pure _ _ _ (pointers_sub m a l i k H L)) as X. replace (zlen (firstn k (skipn i l))) with (Z.of_nat k) in X; [exact X|]. unfold zlen. rewrite firstn_length, skipn_length. lia.
Qed.
Lemma slot_at {B} m a l i p (f : Z -> M B) cs Q : pointersAt m a l -> nth_error l i = Some p -> SH (f p) cs Q ->
  forall z, z = a + 8 * Z.of_nat i -> SH (bindM (rd m z 8) (fun b => bindM (fldM b 0 8) f)) cs Q.
Proof.
  intros ((R1 & R2 & R3 & R4) & H) Hp Hf z ->. assert (i < length l)%nat by (apply nth_error_Some; congruence). unfold zlen in *.
  assert (R : readable m (a + 8 * Z.of_nat i) 8) by (repeat split; try lia; intros j Hj; apply R4; lia).
  destruct (rd_image m _ 8 R ltac:(lia)) as (b & P & Im). apply (SH_pure _ _ _ _ _ P). specialize (H i p Hp). replace (a + 8 * Z.of_nat i) with (a + 8 * Z.of_nat i + 0) in H by lia.
  apply (SH_pure _ p _ _ _ (fldM_image m _ _ b 0 8 _ Im H ltac:(lia) ltac:(lia))). exact Hf.
Qed.

Ltac lay_sz OL2 := let X := fresh in destruct OL2 as (OLf & X);
  repeat match goal with H : Forall _ (_ :: _) |- _ => let a := fresh "P" in let b := fresh in inversion H as [|? ? a b]; subst; clear H end.
Lemma tb flags n : 0 <= n -> ((flags / 2 ^ n) mod 2 =? 1) = Z.testbit flags n.
Proof. intros Hn. apply eq_true_iff_eq. rewrite Z.eqb_eq, Z.testbit_true by lia. reflexivity. Qed.
Lemma s32_small n : 0 <= n < 2 ^ 31 -> s32 n = n.
Proof. intros H. pose proof (s32_mod n ltac:(lia)) as X. now rewrite Z.mod_small in X by lia. Qed.
Lemma vals_sub v i k : (i + k <= length (vValues v))%nat -> firstn k (skipn i (vValues v ++ vCellValues v ++ vFreeValues v)) = firstn k (skipn i (vValues v)).
Proof. intros L. rewrite skipn_app, firstn_app. rewrite skipn_length. replace (k - (length (vValues v) - i))%nat with 0%nat by lia. cbn [firstn]. now rewrite app_nil_r. Qed.
Lemma vals_nth v i x : nth_error (vValues v) i = Some x -> nth_error (vValues v ++ vCellValues v ++ vFreeValues v) i = Some x.
Proof. intros E. rewrite nth_error_app1; [exact E|]. apply nth_error_Some. congruence. Qed.
Lemma nth_of {A} (l : list A) i d : (i < length l)%nat -> nth_error l i = Some (nth i l d).
Proof. intros H. now apply nth_error_nth'. Qed.
Section Show.
Context (v3 : bool) (lay : layout) (m : memory) (str : Z -> res (list Z)) (kindOf : Z -> option kind) (maxdepth : Z) (doargs dolocals : bool).
Notation print' := (print v3 lay m str kindOf maxdepth doargs dolocals).
Notation one' := (one v3 lay m str kindOf maxdepth doargs dolocals).
Lemma SH_print f k : SH (print' f k) [Value k] (fun _ => True).
Proof.
  intros s. destruct f as [|f]; [exact I|]. cbn [print]. unfold group. rewrite getDepth_bind. destruct (_ >? _); [now split|]. rewrite depth_bind. unfold bindM, caught.
  destruct (loop _ _ _ _ _ _ _ _ _ _ _ _ _) as ((o & s1) & [[]| | |]); cbn; auto.
Qed.
Lemma print_pieces f a s o s' ps : a <> 0 -> pDepth s <= 10000 ->
  match one' f (print' f) a (deeper s 1) with (ob, _, Ok b) => pieces ob = ps /\ b = 0 | (_, _, Throw) => False | _ => True end ->
  print' (S f) a s = (o, s', Ok tt) -> exists body, o = [Call a [Obj a body]] /\ pieces body = ps.
Proof.
  intros Ha Hd Ho. cbn [print]. unfold group. rewrite getDepth_bind. replace (pDepth s >? 10000) with false by lia. rewrite depth_bind. unfold bindM at 1, caught.
  assert (X : match loop v3 lay m str kindOf maxdepth doargs dolocals f (print' f) f a (deeper s 1) with (ol, _, Ok _) => exists body, ol = [Obj a body] /\ pieces body = ps | (_, _, Throw) => False | _ => True end).
  { generalize f at 3 as n. intros n. destruct n as [|n]; [exact I|]. cbn [loop]. replace (a =? 0) with false by lia. unfold bindM, group. destruct (one' f (print' f) a (deeper s 1)) as ((ob & s1) & [b| | |]); auto. destruct Ho as (H1 & ->).
    destruct n as [|n]; [exact I|]. cbn. eauto. }
  destruct (loop _ _ _ _ _ _ _ _ _ _ _ _ _) as ((ol & s1) & [[]| | |]); cbn; try discriminate; [|destruct X]. destruct X as (body & -> & Hc). intros [= <- <-]. exists body. now split.
Qed.
(** the first object of a chain *)
Lemma print_pieces1 f a s o s' ps : a <> 0 -> pDepth s <= 10000 ->
  match one' f (print' f) a (deeper s 1) with (ob, _, Ok b) => pieces ob = ps /\ True | (_, _, Throw) => False | _ => True end ->
  print' (S f) a s = (o, s', Ok tt) -> exists body rest, o = [Call a (Obj a body :: rest)] /\ pieces body = ps.
Proof.
  intros Ha Hd Ho. cbn [print]. unfold group. rewrite getDepth_bind. replace (pDepth s >? 10000) with false by lia. rewrite depth_bind. unfold bindM at 1, caught.
  generalize f at 3 as n. intros n. destruct n as [|n]; [cbn; discriminate|]. cbn [loop]. replace (a =? 0) with false by lia. unfold bindM at 1, group. destruct (one' f (print' f) a (deeper s 1)) as ((ob & s1) & [b| | |]); try discriminate; [|now destruct Ho].
  destruct Ho as (H1 & _). destruct (loop _ _ _ _ _ _ _ _ _ _ n b s1) as ((ol & s2) & [[]| | |]); cbn; try discriminate; intros [= <- <-]; exists ob; eauto.
Qed.
(** scalars and wrappers, given the bytes of the object *)
Section Kinds.
Context (f : nat) (buf : list Z) (a size : Z) (Im : image m a size buf).
Lemma float_sh v : 24 <= size -> field m (a + 16) 8 v -> SH (floatPrinter buf) [Text (TFloat v)] (fun b => b = 0).
Proof. intros Sz F. unfold floatPrinter. apply (SH_pure _ v _ _ _ (fldM_image m a _ buf 16 8 _ Im F ltac:(lia) ltac:(lia))). apply SH_1; [apply SH_float|intros _]. now apply SH_ret. Qed.
Lemma int_sh v : 24 <= size -> field m (a + 16) 8 (u64 v) -> - 2 ^ 63 <= v < 2 ^ 63 -> SH (intPrinter buf) [Text (TNum v)] (fun b => b = 0).
Proof. intros Sz F Hv. unfold intPrinter. apply (SH_pure _ (u64 v) _ _ _ (fldM_image m a _ buf 16 8 _ Im F ltac:(lia) ltac:(lia))). rewrite s64_u64 by lia. apply SH_1; [apply SH_num|intros _]. now apply SH_ret. Qed.
Lemma bool_sh v : 28 <= size -> (if v3 then field m (a + 24) 4 v else field m (a + 16) 8 v) -> SH (boolPrinter v3 buf) [txt (if v =? 0 then "False" else "True")] (fun b => b = 0).
Proof.
  intros Sz F. unfold boolPrinter. destruct v3.
  - apply (SH_pure _ v _ _ _ (fldM_image m a _ buf 24 4 _ Im F ltac:(lia) ltac:(lia))). apply SH_1; [apply SH_lit|intros _]. now apply SH_ret.
  - apply (SH_pure _ v _ _ _ (fldM_image m a _ buf 16 8 _ Im F ltac:(lia) ltac:(lia))). apply SH_1; [apply SH_lit|intros _]. now apply SH_ret.
Qed.
Lemma type_sh p s : 32 <= size -> field m (a + 24) 8 p -> str p = Ok s -> SH (typePrinter str buf) [txt "type :"""; Text (TStr s); txt """"] (fun b => b = 0).
Proof.
  intros Sz F E. unfold typePrinter. apply (SH_pure _ p _ _ _ (fldM_image m a _ buf 24 8 _ Im F ltac:(lia) ltac:(lia))). apply (SH_pure _ s).
  { intros st. unfold strM, lift. rewrite u64_id; [now rewrite E|]. destruct F as (F & _). unfold isU64, W64. change (256 ^ Z.of_nat 8) with (2 ^ 64) in F. lia. }
  apply SH_1; [apply SH_lit|intros _]. apply SH_1; [apply SH_str|intros _]. apply SH_1; [apply SH_lit|intros _]. now apply SH_ret.
Qed.
Lemma class_sh p : 40 <= size -> field m (a + 32) 8 p -> SH (classPrinter (print' f) buf) [txt "<class "; Value p; txt ">"] (fun b => b = 0).
Proof.
  intros Sz F. unfold classPrinter. apply SH_1; [apply SH_lit|intros _]. apply (SH_pure _ p _ _ _ (fldM_image m a _ buf 32 8 _ Im F ltac:(lia) ltac:(lia))). apply SH_1; [apply SH_print|intros _]. apply SH_1; [apply SH_lit|intros _]. now apply SH_ret.
Qed.
Lemma module_sh d : 24 <= size -> field m (a + 16) 8 d -> SH (modulePrinter (print' f) buf) [Value d] (fun b => b = 0).
Proof. intros Sz F. unfold modulePrinter. apply (SH_pure _ d _ _ _ (fldM_image m a _ buf 16 8 _ Im F ltac:(lia) ltac:(lia))). apply SH_1; [apply SH_print|intros _]. now apply SH_ret. Qed.
Lemma instance_sh c d : 32 <= size -> field m (a + 16) 8 c -> field m (a + 24) 8 d ->
  SH (instancePrinter (print' f) buf) [txt newline; Indent; txt "class: "; Value c; txt newline; Indent; txt ("dict: " ++ newline); Value d] (fun b => b = 0).
Proof.
  intros Sz Fc Fd. unfold instancePrinter. apply SH_0; [apply SH_addDepth|intros _]. apply SH_1; [apply SH_lit|intros _]. apply SH_1; [apply SH_prefix|intros _]. apply SH_1; [apply SH_lit|intros _]. apply SH_0; [apply SH_addDepth|intros _].
  apply (SH_pure _ c _ _ _ (fldM_image m a _ buf 16 8 _ Im Fc ltac:(lia) ltac:(lia))). apply SH_1; [apply SH_print|intros _]. apply SH_0; [apply SH_addDepth|intros _]. apply SH_1; [apply SH_lit|intros _]. apply SH_1; [apply SH_prefix|intros _]. apply SH_1; [apply SH_lit|intros _]. apply SH_0; [apply SH_addDepth|intros _].
  apply (SH_pure _ d _ _ _ (fldM_image m a _ buf 24 8 _ Im Fd ltac:(lia) ltac:(lia))). apply SH_1; [apply SH_print|intros _]. apply SH_0; [apply SH_addDepth|intros _]. apply SH_0; [apply SH_addDepth|intros _]. now apply SH_ret.
Qed.
Lemma list_sh n item l : 32 <= size -> field m (a + 16) 8 (u64 n) -> field m (a + 24) 8 item -> zlen l = n -> n < 2 ^ 63 -> pointersAt m item l ->
  SH (listPrinter m (print' f) buf) ([txt ("[ " ++ newline)] ++ elementLines (firstn 100 l) ++ [Indent; txt "]"]) (fun b => b = 0).
Proof.
  intros Sz Fn Fi Ll Hn HP. pose proof (zlen_nonneg l). unfold listPrinter. apply SH_1; [apply SH_lit|intros _]. apply (SH_pure _ (u64 n) _ _ _ (fldM_image m a _ buf 16 8 _ Im Fn ltac:(lia) ltac:(lia))). cbv zeta. rewrite s64_u64 by lia.
  apply SH_0; [apply SH_vla; unfold stackMax; lia|intros _]. apply (SH_pure _ item _ _ _ (fldM_image m a _ buf 24 8 _ Im Fi ltac:(lia) ltac:(lia))). rewrite <- Ll. apply (SH_pure _ _ _ _ _ (ptrs_first m str kindOf item l HP)).
  apply SH_0; [apply SH_addDepth|intros _]. eapply SH_bind; [apply (SH_each _ (fun x => [Indent; Value x; txt ("," ++ newline)])); intros x; apply SH_1; [apply SH_prefix|intros _]; apply SH_1; [apply SH_print|intros _]; apply SH_lit|intros _ _].
  apply SH_0; [apply SH_addDepth|intros _]. apply SH_1; [apply SH_prefix|intros _]. apply SH_1; [apply SH_lit|intros _]. now apply SH_ret.
Qed.
Lemma tuple_sh n l : 24 <= size -> field m (a + 16) 8 (u64 n) -> zlen l = n -> n < 2 ^ 63 -> pointersAt m (a + 24) l ->
  SH (tuplePrinter m (print' f) buf a) (match l with [] => [txt "()"] | _ => [txt ("( " ++ newline)] ++ elementLines (firstn 100 l) ++ [Indent; txt (")" ++ newline)] end) (fun b => b = 0).
Proof.
  intros Sz Fn Ll Hn HP. pose proof (zlen_nonneg l). unfold tuplePrinter. apply (SH_pure _ (u64 n) _ _ _ (fldM_image m a _ buf 16 8 _ Im Fn ltac:(lia) ltac:(lia))). cbv zeta. rewrite s64_u64 by lia.
  destruct (Z.min n 100 =? 0) eqn:E0; [assert (l = []) as -> by (apply zlen_0; lia); apply SH_1; [apply SH_lit|intros _]; now apply SH_ret|].
  destruct l as [|x0 l0]; [change (zlen (@nil Z)) with 0 in Ll; lia|]. set (l := x0 :: l0) in *.
  apply SH_1; [apply SH_lit|intros _]. apply SH_0; [apply SH_vla; unfold stackMax; lia|intros _]. rewrite <- Ll. apply (SH_pure _ _ _ _ _ (ptrs_first m str kindOf _ l HP)).
  apply SH_0; [apply SH_addDepth|intros _]. eapply SH_bind; [apply (SH_each _ (fun x => [Indent; Value x; txt ("," ++ newline)])); intros x; apply SH_1; [apply SH_prefix|intros _]; apply SH_1; [apply SH_print|intros _]; apply SH_lit|intros _ _].
  apply SH_0; [apply SH_addDepth|intros _]. apply SH_1; [apply SH_prefix|intros _]. apply SH_1; [apply SH_lit|intros _]. now apply SH_ret.
Qed.
End Kinds.
Lemma heap_sh f a ty s d : str (u64 (tName ty)) = Ok s -> (tDictoff ty > 0 -> readable m (a + tDictoff ty) 8 /\ field m (a + tDictoff ty) 8 d) ->
  SH (heapPrinter m str (print' f) ty a) (Text (TStr s) :: if tDictoff ty >? 0 then [txt newline; Value d; txt newline] else []) (fun b => b = 0).
Proof.
  intros E F. unfold heapPrinter. apply (SH_pure _ s); [intros st; unfold strM, lift; now rewrite E|]. apply SH_1; [apply SH_str|intros _]. match goal with |- SH _ ?c _ => rewrite <- (app_nil_r c) end. apply (SH_bind _ _ _ _ (fun _ => True)); [|intros _ _; now apply SH_ret].
  destruct (tDictoff ty >? 0) eqn:G; [|now apply SH_ret]. destruct F as (R & F); [lia|]. apply SH_1; [apply SH_lit|intros _]. apply SH_0; [apply SH_addDepth|intros _].
  destruct (rd_image m _ 8 R ltac:(lia)) as (b & P & Ib). apply (SH_pure _ _ _ _ _ P). replace (a + tDictoff ty) with (a + tDictoff ty + 0) in F by lia. apply (SH_pure _ d _ _ _ (fldM_image m _ _ b 0 8 _ Ib F ltac:(lia) ltac:(lia))).
  apply SH_1; [apply SH_print|intros _]. apply SH_0; [apply SH_addDepth|intros _]. apply SH_lit.
Qed.
(** ** variables *)
Lemma vars_sh f p title ns a l i vs k : tupleAt m p ns -> pointersAt m a l -> firstn (length ns) (skipn i l) = vs -> (i + length ns <= length l)%nat -> zlen ns <= k -> zlen ns < 2 ^ 60 ->
  forall z, z = a + 8 * Z.of_nat i -> SH (printTupleVars m (print' f) p z title k) (varLines title ns vs) (fun c => c = zlen ns).
Proof.
  intros (R & F & HP) HL Ev Hi Hk Hb z ->. pose proof (zlen_nonneg ns). unfold printTupleVars. destruct (rd_image m p 32 R ltac:(lia)) as (b & P & Im). apply (SH_pure _ _ _ _ _ P). apply (SH_pure _ (zlen ns) _ _ _ (fldM_image m p _ b 16 8 _ Im F ltac:(lia) ltac:(lia))). cbv zeta. rewrite s64_small by lia. rewrite Z.min_l by lia.
  destruct (zlen ns =? 0) eqn:E0; [assert (ns = []) as -> by (apply zlen_0; lia); now apply SH_ret|]. replace (zlen ns <? 0) with false by lia.
  destruct ns as [|x0 l0]; [change (zlen (@nil Z)) with 0 in E0; lia|]. set (ns := x0 :: l0) in *. apply (SH_pure _ _ _ _ _ (ptrs_pure m _ ns HP)). apply (SH_pure _ vs); [rewrite <- Ev; apply ptrs_sub; auto|].
  unfold varLines. subst ns. cbv iota beta. set (ns := x0 :: l0) in *. apply SH_1; [apply SH_prefix|intros _]. apply SH_1; [apply SH_lit|intros _]. apply SH_0; [apply SH_addDepth|intros _]. rewrite <- (app_nil_r (flat_map _ _)). eapply SH_bind.
  - apply (SH_pairs _ (fun e => [Indent; Value (fst e); txt "="; Value (snd e); txt newline])). intros x y. apply SH_1; [apply SH_prefix|intros _]. apply SH_1; [apply SH_print|intros _]. apply SH_1; [apply SH_lit|intros _]. apply SH_1; [apply SH_print|intros _]. apply SH_lit.
  - intros _ _. apply SH_0; [apply SH_addDepth|intros _]. now apply SH_ret.
Qed.
(** ** arguments *)
Lemma pos_sh (pr : Z -> M unit) (Hpr : forall k, SH (pr k) [Value k] (fun _ => True)) total ac (extra : Z) more l : total = ac + extra -> 0 <= extra -> more = negb (extra =? 0) -> forall i, Z.of_nat i + zlen l = ac ->
  SH (pairs (map Z.of_nat (seq i (length l))) l (fun i x => pr x ;; if i <? total - 1 then lit ", " else ret tt)) (posText more l) (fun _ => True).
Proof.
  intros Ht He Hm. induction l as [|x l IH]; intros i Hi; [now apply SH_ret|]. cbn [length seq map pairs posText]. change (Value x :: ?a ++ ?b) with (([Value x] ++ a) ++ b). rewrite zlen_cons in Hi. pose proof (zlen_nonneg l). eapply SH_bind.
  - eapply SH_bind; [apply Hpr|intros _ _]. replace (more || negb (Nat.eqb (length l) 0)) with (Z.of_nat i <? total - 1).
    + destruct (_ <? _); [apply SH_lit|now apply SH_ret].
    + subst more. apply eq_true_iff_eq. rewrite Z.ltb_lt, orb_true_iff, !negb_true_iff, Z.eqb_neq, Nat.eqb_neq. unfold zlen in *. lia.
  - intros _ _. apply IH. lia.
Qed.
Lemma kw_sh (pr : Z -> M unit) (Hpr : forall k, SH (pr k) [Value k] (fun _ => True)) ns kn : Forall2 (stringAt v3 m str) ns kn -> forall vs,
  SH (pairs ns vs (fun n v => lit ", " ;; s <- pyString v3 m str n; emit (TStr s) ;; lit "=" ;; pr v)) (flat_map (fun e => [txt ", "; Text (TStr (fst e)); txt "="; Value (snd e)]) (combine kn vs)) (fun _ => True).
Proof.
  induction 1 as [|p t ns kn Hp _ IH]; intros [|v vs]; try now apply SH_ret. cbn [pairs combine flat_map]. eapply SH_bind; [|intros _ _; apply IH].
  apply SH_1; [apply SH_lit|intros _]. apply (SH_pure _ _ _ _ _ (pyString_ok v3 m str kindOf p t Hp)). apply SH_1; [apply SH_str|intros _]. apply SH_1; [apply SH_lit|intros _]. apply Hpr.
Qed.
Lemma args_sh f buf a fsize c v xs kn dn : image m a fsize buf -> 68 <= fsize -> field m (a + 32) 8 c -> readable m c (lCodeSize lay) -> okLayout2 lay -> varsAt v3 m lay c a v -> argsAt v3 m str v xs kn dn ->
  SH (printArguments v3 lay m str (print' f) buf a) (argText v xs kn dn) (fun _ => True).
Proof.
  intros Im Sz Fc Rc OL2 HV HA. destruct HV as ((vn & Fvn & Tvn) & _ & _ & Fnl & PV & Ln & _ & _ & Bl & _ & _ & Fac & Fkw & (flags & Ffl & Bs & Bss) & Lp & _). destruct HA as (A1 & A2 & A3 & A4). pose proof (proj2 OL2) as LF. lay_sz OL2.
  assert (Hkw : Z.of_nat (vKw v) < 128) by lia. unfold zlen in Bl. unfold printArguments.
  apply (SH_pure _ c _ _ _ (fldM_image m a _ buf 32 8 _ Im Fc ltac:(lia) ltac:(lia))). destruct (rd_image m c _ Rc ltac:(lia)) as (code & Pc & Ic). apply (SH_pure _ _ _ _ _ Pc).
  apply (SH_pure _ flags _ _ _ (fldM_image m c _ code (lFlags lay) 4 _ Ic Ffl ltac:(lia) ltac:(lia))). apply (SH_pure _ (Z.of_nat (vPos v)) _ _ _ (fldM_image m c _ code (lArgcount lay) 4 _ Ic Fac ltac:(lia) ltac:(lia))).
  apply (SH_pure _ (Z.of_nat (vKw v))). { destruct v3; [exact (fldM_image m c _ code (lKwonly lay) 4 _ Ic Fkw ltac:(lia) ltac:(lia))|]. rewrite Fkw. intros st. reflexivity. }
  cbv zeta. rewrite !s32_small by lia. change (flags / 4) with (flags / 2 ^ 2). change (flags / 8) with (flags / 2 ^ 3). rewrite !tb, Bs, Bss by lia.
  set (e1 := if vStar v then 1 else 0) in *. set (e2 := if vStarStar v then 1 else 0) in *. assert (He1 : e1 = 0 \/ e1 = 1) by (unfold e1; destruct (vStar v); auto). assert (He2 : e2 = 0 \/ e2 = 1) by (unfold e2; destruct (vStarStar v); auto).
  apply (SH_pure _ (Z.of_nat (vPos v) + Z.of_nat (vKw v) + e1 + e2)). { intros st. unfold lift, chk32. now replace (_ && _) with true by (symmetry; apply andb_true_iff; split; apply Z.leb_le; lia). }
  apply (SH_pure _ vn _ _ _ (fldM_image m c _ code (lVarnames lay) 8 _ Ic Fvn ltac:(lia) ltac:(lia))). unfold argText.
  destruct Tvn as (Rvn & Fvl & PN).
  apply SH_1; [apply SH_lit|intros _]. apply SH_0; [apply SH_vla; unfold stackMax; lia|intros _].
  apply (SH_pure _ (firstn (vPos v) (vValues v))). { change (vValues v) with (skipn 0 (vValues v)). rewrite <- (vals_sub v 0 (vPos v)) by lia. replace (a + lFrameLocals lay) with (a + lFrameLocals lay + 8 * Z.of_nat 0) by lia. apply ptrs_sub; [exact PV|rewrite app_length; lia|reflexivity]. }
  eapply SH_bind.
  { pose proof (firstn_length_le (vValues v) (n := vPos v) ltac:(lia)) as Lf. replace (Z.to_nat (Z.of_nat (vPos v))) with (length (firstn (vPos v) (vValues v))) by lia.
    apply (pos_sh (print' f) (SH_print f) _ (Z.of_nat (vPos v)) (Z.of_nat (vKw v) + e1 + e2)); [lia|lia| |unfold zlen; rewrite Lf; lia]. 
    apply eq_true_iff_eq. rewrite !orb_true_iff, !negb_true_iff, Z.eqb_neq, Nat.eqb_neq. unfold e1, e2. destruct (vStar v), (vStarStar v); intuition (try lia; try discriminate). }
  intros _ _. apply SH_1; [apply SH_lit|intros _]. eapply SH_bind.
  { instantiate (1 := fun _ => True). destruct (vStar v) eqn:Es; [|now apply SH_ret]. destruct (A1 eq_refl) as (t & Et & (Rt & Ft & Pt) & Lx).
    apply (slot_at m (vn + 24) (vNames v) (vPos v + vKw v) (nth (vPos v + vKw v) (vNames v) 0)); [exact PN|apply nth_of; lia| |lia].
    apply SH_1; [apply SH_print|intros _]. apply (slot_at m (a + lFrameLocals lay) _ (vPos v + vKw v) t _ _ _ PV (vals_nth _ _ _ Et)); [|lia].
    destruct (rd_image m t 24) as (b & Pb & Ib); [destruct Rt as (X1 & X2 & X3 & X4); repeat split; try lia; intros; apply X4; lia|lia|]. apply (SH_pure _ _ _ _ _ Pb). apply (SH_pure _ (zlen xs) _ _ _ (fldM_image m t _ b 16 8 _ Ib Ft ltac:(lia) ltac:(lia))). pose proof (zlen_nonneg xs). rewrite s64_small by lia.
    replace ((0 <=? zlen xs) && (zlen xs <? 128)) with true by (symmetry; apply andb_true_iff; split; [apply Z.leb_le|apply Z.ltb_lt]; lia). apply (SH_pure _ _ _ _ _ (ptrs_pure m _ xs Pt)).
    apply (SH_each _ (fun x => [txt ", "; Value x])). intros x. apply SH_1; [apply SH_lit|intros _]. apply SH_print. }
  intros _ _. eapply SH_bind.
  { instantiate (1 := fun _ => True). destruct (vKw v) as [|k] eqn:Ek.
    - cbn [firstn combine flat_map] in *. inversion A3; subst. now apply SH_ret.
    - rewrite <- Ek in *. replace ((0 <? Z.of_nat (vKw v)) && (Z.of_nat (vKw v) <? 128)) with true by (symmetry; apply andb_true_iff; split; apply Z.ltb_lt; lia).
      apply (SH_pure _ (firstn (vKw v) (skipn (vPos v) (vNames v)))); [apply ptrs_sub; [exact PN|lia|reflexivity]|].
      apply (SH_pure _ (firstn (vKw v) (skipn (vPos v) (vValues v)))); [rewrite <- vals_sub by lia; apply ptrs_sub; [exact PV|rewrite app_length; lia|reflexivity]|].
      apply (kw_sh (print' f) (SH_print f)). exact A3. }
  intros _ _. eapply SH_bind; [|intros _ _; apply SH_lit]. instantiate (1 := fun _ => True). destruct (vStarStar v) eqn:Es; [|now apply SH_ret]. apply SH_1; [apply SH_lit|intros _]. destruct (A4 eq_refl) as (p & Ep & Sp).
  set (i := if vStar v then S (vPos v + vKw v) else (vPos v + vKw v)%nat) in *. assert (Ei : Z.of_nat (vPos v) + Z.of_nat (vKw v) + e1 = Z.of_nat i) by (unfold i, e1; destruct (vStar v); lia). assert (Li : (i < length (vValues v))%nat) by (unfold i; destruct (vStar v); lia).
  apply (slot_at m (vn + 24) (vNames v) i p); [exact PN|exact Ep| |lia]. apply (slot_at m (a + lFrameLocals lay) _ i _ _ _ _ PV (vals_nth _ _ _ (nth_of _ _ 0 Li))); [|lia].
  apply (SH_pure _ _ _ _ _ (pyString_ok v3 m str kindOf p dn Sp)). apply SH_1; [apply SH_str|intros _]. apply SH_1; [apply SH_lit|intros _]. apply SH_print.
Qed.
End Show.
Lemma frame_sh v3 lay m str kindOf maxdepth doargs dolocals fuel t name basic item flags dictoff f back c v xs kn dn s : okLayout lay -> okLayout2 lay -> frameAt v3 m lay str t basic item f back -> field m (fAddr f + 32) 8 c -> varsAt v3 m lay c (fAddr f) v -> argsAt v3 m str v xs kn dn ->
  typeAt m lay t name basic item flags dictoff -> typeKnown s t name basic item flags dictoff -> kindOf t = Some KFrame -> ~ In (fAddr f) (pVisited s) ->
  match one v3 lay m str kindOf maxdepth doargs dolocals fuel (print v3 lay m str kindOf maxdepth doargs dolocals fuel) (fAddr f) s with (o, _, Ok b) => pieces o = frameShow doargs dolocals f v xs kn dn /\ True | (_, _, Throw) => False | _ => True end.
Proof.
  intros OL OL2 (n & c' & loc & HO & Hi & Hnn & Hb & F24 & F32 & F56 & Hc & Fl & Hl & HC) Fc HV HA HT K Hk Hv. pose proof (field_fun _ _ _ _ _ F32 Fc) as ->.
  destruct (one_at v3 lay m str kindOf maxdepth doargs dolocals fuel (print v3 lay m str kindOf maxdepth doargs dolocals fuel) (fAddr f) t KFrame name basic item flags dictoff n s ltac:(unfold okLayout in OL; lia) ltac:(lia) (or_intror Hnn) HO HT K Hk (fun _ => Hv)) as (buf & Im & ->).
  cbn [runPrinter]. generalize (marked KFrame (fAddr f) (addType s t (mkPT name basic item flags (s64 dictoff)))). change (SH (framePrinter v3 lay m str doargs dolocals (print v3 lay m str kindOf maxdepth doargs dolocals fuel) buf (fAddr f)) (frameShow doargs dolocals f v xs kn dn) (fun _ => True)).
  assert (Sz : 68 <= basic + item * Z.abs n) by (unfold okLayout in OL; nia). assert (Sz2 : lFrameLasti lay + 4 <= basic + item * Z.abs n) by (unfold okLayout in OL; nia). clear Hb Hi Hnn HO.
  unfold framePrinter. apply (SH_pure _ c _ _ _ (fldM_image m _ _ buf 32 8 c Im F32 ltac:(lia) ltac:(lia))). apply (SH_pure _ loc _ _ _ (fldM_image m _ _ buf 56 8 loc Im F56 ltac:(lia) ltac:(lia))). apply (SH_pure _ back _ _ _ (fldM_image m _ _ buf 24 8 back Im F24 ltac:(lia) ltac:(lia))).
  replace (c =? 0) with false by lia. cbn [negb]. pose proof HC as (Rc & (pn & Fn & Sn) & (pf & Ff & Sf) & _). pose proof OL as (O1 & O2 & O3). inversion O3 as [|? ? P1 O4]; subst. inversion O4 as [|? ? P2 O5]; subst. clear O3 O4 O5.
  destruct (rd_image m c (lCodeSize lay) Rc ltac:(lia)) as (code & Pc & Ic). pose proof HV as HV0. destruct HV as ((vn & Fvn & Tvn) & (cn & Fcn & Tcn) & (fn & Ffn & Tfn) & Fnl & PV & Ln & Lc & Lfr & Bl & Bc & Bf & _ & _ & _ & _ & F56').
  pose proof OL2 as OL2'. lay_sz OL2'. pose proof (field_fun _ _ _ _ _ F56' F56) as Ed.
  unfold frameShow. set (A1 := [Indent; Text (TStr (fFunc f))] ++ _). 
  assert (EA : A1 = ([Indent; Text (TStr (fFunc f))] ++ (if doargs then argText v xs kn dn else []) ++ [txt " in "; Text (TStr (fFile f)); txt ":"; Text (TNum (lineOf (fFirst f) (fLasti f) (fTable f))); txt newline] ++
      (if dolocals then varLines "fastlocals" (vNames v) (vValues v) ++ varLines "cells" (vCells v) (vCellValues v) ++ varLines "freevars" (vFree v) (vFreeValues v) else [])) ++ ((if dolocals && negb (loc =? 0) then [Indent; txt ("locals:" ++ newline); Value loc] else []) ++ [])).
  { subst A1. rewrite app_nil_r, <- !app_assoc. do 3 f_equal. cbn [app]. do 5 f_equal. rewrite <- Ed. unfold localLines. destruct dolocals; [|reflexivity]. cbn [andb]. rewrite <- !app_assoc. do 3 f_equal. now destruct (vDict v =? 0). }
  rewrite EA. clear EA A1. apply (SH_bind _ _ _ _ (fun _ => True)).
  2:{ intros _ _. apply (SH_bind _ _ _ _ (fun _ => True)); [|intros _ _; now apply SH_ret]. destruct (dolocals && negb (loc =? 0)); [|now apply SH_ret]. apply SH_0; [apply SH_addDepth|intros _]. apply SH_1; [apply SH_prefix|intros _]. apply SH_1; [apply SH_lit|intros _]. apply SH_1; [apply SH_print|intros _]. apply SH_addDepth. }
  apply (SH_pure _ _ _ _ _ Pc). apply (SH_pure _ _ _ _ _ (fldM_image m _ _ buf (lFrameLasti lay) 4 _ Im Fl ltac:(lia) ltac:(lia))). rewrite s32_mod by lia.
  apply (SH_pure _ _ _ _ _ (getLine_ok v3 lay m str kindOf maxdepth c code f (fLasti f) HC OL Ic)).
  apply (SH_pure _ pn _ _ _ (fldM_image m _ _ code (lName lay) 8 _ Ic Fn ltac:(lia) ltac:(lia))). apply (SH_pure _ _ _ _ _ (pyString_ok v3 m str kindOf pn _ Sn)).
  apply (SH_pure _ pf _ _ _ (fldM_image m _ _ code (lFilename lay) 8 _ Ic Ff ltac:(lia) ltac:(lia))). apply (SH_pure _ _ _ _ _ (pyString_ok v3 m str kindOf pf _ Sf)).
  apply SH_1; [apply SH_prefix|intros _]. apply SH_1; [apply SH_str|intros _]. change ([] ++ ?x) with x. apply (SH_bind _ _ _ _ (fun _ => True)).
  { destruct doargs; [|now apply SH_ret]. eapply args_sh; eassumption. }
  intros _ _. apply SH_1; [apply SH_lit|intros _]. apply SH_1; [apply SH_str|intros _]. apply SH_1; [apply SH_lit|intros _]. apply SH_1; [apply SH_num|intros _]. apply SH_1; [apply SH_lit|intros _]. change ([] ++ ?x) with x. destruct dolocals; [|now apply SH_ret].
  apply SH_0; [apply SH_addDepth|intros _].
  apply (SH_pure _ vn _ _ _ (fldM_image m _ _ code (lVarnames lay) 8 _ Ic Fvn ltac:(lia) ltac:(lia))). apply (SH_pure _ _ _ _ _ (fldM_image m _ _ code (lNlocals lay) 4 _ Ic Fnl ltac:(lia) ltac:(lia))).
  apply (SH_pure _ cn _ _ _ (fldM_image m _ _ code (lCellvars lay) 8 _ Ic Fcn ltac:(lia) ltac:(lia))). apply (SH_pure _ fn _ _ _ (fldM_image m _ _ code (lFreevars lay) 8 _ Ic Ffn ltac:(lia) ltac:(lia))).
  pose proof (zlen_nonneg (vValues v)). rewrite !(s32_small (zlen (vValues v))) by lia. cbv zeta.
  set (all := vValues v ++ vCellValues v ++ vFreeValues v) in *. assert (La : length all = (length (vValues v) + (length (vCellValues v) + length (vFreeValues v)))%nat) by (unfold all; now rewrite !app_length).
  apply (SH_bind _ _ _ _ (fun c => c = zlen (vNames v))); [apply (vars_sh v3 lay m str kindOf maxdepth doargs true fuel vn "fastlocals" _ (fAddr f + lFrameLocals lay) all 0); auto; [unfold all; cbn [skipn]; rewrite Ln, firstn_app, Nat.sub_diag, firstn_all; apply app_nil_r|lia|unfold zlen in *; lia|unfold zlen in *; lia|lia]|intros _ _].
  apply (SH_bind _ _ _ _ (fun c => c = zlen (vCells v))); [apply (vars_sh v3 lay m str kindOf maxdepth doargs true fuel cn "cells" _ (fAddr f + lFrameLocals lay) all (length (vValues v))); auto; [unfold all; rewrite skipn_app, skipn_all, Nat.sub_diag; cbn [app skipn]; rewrite Lc, firstn_app, Nat.sub_diag, firstn_all; apply app_nil_r|lia|lia]|intros cc ->].
  rewrite <- (app_nil_r (varLines "freevars" _ _)). apply (SH_bind _ _ _ _ (fun c => c = zlen (vFree v))).
  { apply (vars_sh v3 lay m str kindOf maxdepth doargs true fuel fn "freevars" _ (fAddr f + lFrameLocals lay) all (length (vValues v) + length (vCells v))); auto; [|lia|lia|unfold zlen in *; lia].
    unfold all. rewrite Lc, app_assoc, skipn_app, skipn_all2 by (rewrite !app_length; lia). rewrite app_length, Nat.sub_diag. cbn [app skipn]. rewrite Lfr. apply firstn_all. }
  intros _ _. apply SH_addDepth.
Qed.
(** objects of types that have no printer of their own *)
Section Other.
Context (v3 : bool) (lay : layout) (m : memory) (str : Z -> res (list Z)) (kindOf : Z -> option kind) (maxdepth : Z) (doargs dolocals : bool).
Notation one' := (one v3 lay m str kindOf maxdepth doargs dolocals).
Lemma one_typed fuel pr a t name basic item flags dictoff n s : 24 <= basic + item * Z.abs n ->
  objectAt m a (basic + item * Z.abs n) t n -> typeAt m lay t name basic item flags dictoff -> typeKnown s t name basic item flags dictoff ->
  let ty := mkPT name basic item flags (s64 dictoff) in
  one' fuel pr a s = bindM (choose str kindOf t a ty) (fun k => match k with
    | None => ret 0
    | Some k => seen <- isVisited a; if dupdetect k && seen then lit "(already seen)" ;; ret 0 else (if dupdetect k then visit a else ret tt) ;; contents v3 lay m str maxdepth doargs dolocals fuel pr k ty n a end) (addType s t ty).
Proof.
  intros Hz (Ha & (Hs1 & Hs2) & R & (refs & Hr & F0) & F1 & F2 & Hn) HT K ty.
  assert (R24 : readable m a 24). { destruct R as (X1 & X2 & X3 & X4). repeat split; try lia. intros j Hj. apply X4. lia. }
  destruct (rd_image m a 24 R24 ltac:(lia)) as (b & P & Im). unfold one. rewrite (pure_bind _ _ _ _ P). replace a with (a + 0) in F0 by lia.
  rewrite (pure_bind _ refs _ _ (fldM_image m a _ b 0 8 refs Im F0 ltac:(lia) ltac:(lia))). rewrite (pure_bind _ t _ _ (fldM_image m a _ b 8 8 t Im F1 ltac:(lia) ltac:(lia))). rewrite (pure_bind _ (u64 n) _ _ (fldM_image m a _ b 16 8 (u64 n) Im F2 ltac:(lia) ltac:(lia))).
  replace (refs =? 0) with false by lia. rewrite (pure_bind (ret tt) tt _ _ (fun _ => eq_refl)).
  unfold bindM at 1. rewrite (getType_ok m lay s t name basic item flags dictoff HT K). fold ty. cbn [app]. rewrite s64_u64 by lia. now destruct (bindM _ _ _) as ((? & ?) & ?).
Qed.
Lemma one_heap fuel pr a t name size flags dictoff n s tn : objectAt m a size t n -> typeAt m lay t name size 0 flags dictoff -> typeKnown s t name size 0 flags dictoff -> kindOf t = None ->
  Z.testbit flags 9 = true -> str name = Ok tn -> beq tn noneType = false -> ~ In a (pVisited s) ->
  let ty := mkPT name size 0 flags (s64 dictoff) in one' fuel pr a s = heapPrinter m str pr ty a (marked KHeap a (addType s t ty)).
Proof.
  intros HO HT K Hk Hf Es Hn Hv ty. pose proof HO as (Ha & (Hs1 & Hs2) & R & _). assert (HO' : objectAt m a (size + 0 * Z.abs n) t n) by now replace (size + 0 * Z.abs n) with size by lia.
  rewrite (one_typed fuel pr a t name size 0 flags dictoff n s ltac:(lia) HO' HT K). fold ty.
  assert (Hname : 0 <= name < 2 ^ 64) by (destruct HT as (_ & _ & (X & _) & _); exact X).
  assert (Hc : pureAt (choose str kindOf t a ty) (Some KHeap)).
  { intros st. unfold choose. rewrite Hk. rewrite (pure_bind _ tn); [|intros q; unfold strM, lift; cbn [ty tName]; rewrite u64_id by (unfold isU64, W64; lia); now rewrite Es]. rewrite Hn. cbn [ty tFlags]. change (flags / 512) with (flags / 2 ^ 9). now rewrite tb, Hf by lia. }
  rewrite (pure_bind _ _ _ _ Hc). unfold bindM at 1, isVisited. cbn [app dupdetect andb]. destruct (addType_eq s t ty) as (_ & Ev). rewrite Ev.
  assert (Hseen : existsb (Z.eqb a) (pVisited s) = false). { destruct (existsb _ _) eqn:Ex; [|reflexivity]. apply existsb_exists in Ex as (x & X1 & X2). apply Z.eqb_eq in X2. subst x. now destruct Hv. }
  rewrite Hseen. destruct (rd_image m a _ R ltac:(lia)) as (buf & P2 & Im2). unfold bindM, visit. cbn [app]. unfold contents. cbn [ty tItem tBasic]. cbn [negb Z.eqb andb]. rewrite s64_small by (unfold stackMax in *; lia). rewrite Z.add_0_r.
  rewrite (pure_bind (vla size) tt); [|intros st'; unfold vla, lift; replace ((0 <=? size) && (size <=? stackMax)) with true; [reflexivity|symmetry; apply andb_true_iff; split; lia]]. rewrite (pure_bind _ _ _ _ P2).
  cbn [runPrinter]. fold ty. unfold marked. cbn [dupdetect]. rewrite Ev. now destruct (heapPrinter _ _ _ _ _ _) as ((? & ?) & ?).
Qed.
Lemma one_none fuel pr a t name size flags dictoff n s tn : objectAt m a size t n -> typeAt m lay t name size 0 flags dictoff -> typeKnown s t name size 0 flags dictoff -> kindOf t = None ->
  str name = Ok tn -> beq tn noneType = true -> exists s', one' fuel pr a s = ([Tok (TLit "None")], s', Ok 0).
Proof.
  intros HO HT K Hk Es Hn. pose proof HO as (Ha & (Hs1 & Hs2) & R & _). assert (HO' : objectAt m a (size + 0 * Z.abs n) t n) by now replace (size + 0 * Z.abs n) with size by lia.
  rewrite (one_typed fuel pr a t name size 0 flags dictoff n s ltac:(lia) HO' HT K). assert (Hname : 0 <= name < 2 ^ 64) by (destruct HT as (_ & _ & (X & _) & _); exact X).
  unfold choose. rewrite Hk. eexists. unfold bindM at 1. rewrite (pure_bind _ tn); [|intros q; unfold strM, lift; cbn [tName]; rewrite u64_id by (unfold isU64, W64; lia); now rewrite Es]. rewrite Hn. reflexivity.
Qed.
End Other.
