(** Shared vocabulary of the model: outcomes, machine integers, byte lists and memory.
    Nothing in this file models a particular function of pstack. *)
From Coq Require Export ZArith List Lia Bool.
From Coq Require Export ZifyBool ZifyNat.
Export ListNotations.
Global Open Scope Z_scope.
Ltac Zify.zify_post_hook ::= Z.div_mod_to_equations.

(** Outcome of running a C++ function.  [Throw] is any C++ exception, [UB] any undefined
    behaviour, [OutOfFuel] a loop that has not finished within the fuel it was given. *)
Inductive res (A : Type) : Type :=
| Ok (a : A)
| Throw
| UB
| OutOfFuel.
Arguments Ok {A} a.
Arguments Throw {A}.
Arguments UB {A}.
Arguments OutOfFuel {A}.

Definition bind {A B} (x : res A) (f : A -> res B) : res B :=
  match x with
  | Ok a => f a
  | Throw => Throw
  | UB => UB
  | OutOfFuel => OutOfFuel
  end.
Notation "'let*' x ':=' e 'in' k" := (bind e (fun x => k))
  (at level 200, x pattern, e at level 100, k at level 200, right associativity).

(** Machine integers are [Z] reduced by these. *)
Definition W8  : Z := 256.
Definition W16 : Z := 65536.
Definition W32 : Z := 4294967296.
Definition W64 : Z := 18446744073709551616.
Definition u8  (x : Z) : Z := x mod W8.
Definition u16 (x : Z) : Z := x mod W16.
Definition u32 (x : Z) : Z := x mod W32.
Definition u64 (x : Z) : Z := x mod W64.
(** two's complement reinterpretation *)
Definition sgn (w x : Z) : Z := if x mod w <? w / 2 then x mod w else x mod w - w.
Definition s8 := sgn W8.
Definition s16 := sgn W16.
Definition s32 := sgn W32.
Definition s64 := sgn W64.

Definition isU64 (x : Z) : Prop := 0 <= x < W64.
Definition isU32 (x : Z) : Prop := 0 <= x < W32.
Definition isByte (x : Z) : Prop := 0 <= x < 256.

Lemma u64_id x : isU64 x -> u64 x = x.
Proof. unfold isU64, u64. intros H. apply Z.mod_small; exact H. Qed.
Lemma u64_range x : isU64 (u64 x).
Proof. unfold isU64, u64. apply Z.mod_pos_bound. reflexivity. Qed.
Lemma u32_id x : isU32 x -> u32 x = x.
Proof. unfold isU32, u32. intros H. apply Z.mod_small; exact H. Qed.
Lemma u32_range x : isU32 (u32 x).
Proof. unfold isU32, u32. apply Z.mod_pos_bound. reflexivity. Qed.

(** List operations with [Z] counts that stay cheap on huge counts. *)
Section ZList.
  Context {A : Type}.
  Definition zlen (l : list A) : Z := Z.of_nat (length l).
  Fixpoint ztake (n : Z) (l : list A) : list A :=
    match l with
    | [] => []
    | x :: r => if n <=? 0 then [] else x :: ztake (n - 1) r
    end.
  Fixpoint zdrop (n : Z) (l : list A) : list A :=
    match l with
    | [] => []
    | x :: r => if n <=? 0 then l else zdrop (n - 1) r
    end.
  Fixpoint znth (n : Z) (l : list A) : option A :=
    match l with
    | [] => None
    | x :: r => if n =? 0 then Some x else if n <? 0 then None else znth (n - 1) r
    end.

  Lemma zlen_nil : zlen [] = 0. Proof. reflexivity. Qed.
  Lemma zlen_cons x l : zlen (x :: l) = zlen l + 1.
  Proof. unfold zlen; cbn [length]; lia. Qed.
  Lemma zlen_app l1 l2 : zlen (l1 ++ l2) = zlen l1 + zlen l2.
  Proof. unfold zlen; rewrite app_length; lia. Qed.
  Lemma zlen_nonneg l : 0 <= zlen l. Proof. unfold zlen; lia. Qed.
  Lemma zlen_0 l : zlen l = 0 -> l = [].
  Proof. destruct l; [reflexivity|]. rewrite zlen_cons. pose proof (zlen_nonneg l). lia. Qed.

  Lemma ztake_firstn n l : 0 <= n -> ztake n l = firstn (Z.to_nat n) l.
  Proof.
    revert n; induction l as [|x r IH]; intros n Hn.
    - cbn. now rewrite firstn_nil.
    - cbn [ztake]. destruct (n <=? 0) eqn:E.
      + replace (Z.to_nat n) with 0%nat by lia. reflexivity.
      + replace (Z.to_nat n) with (S (Z.to_nat (n - 1))) by lia. cbn [firstn]. f_equal. apply IH; lia.
  Qed.
  Lemma zdrop_skipn n l : 0 <= n -> zdrop n l = skipn (Z.to_nat n) l.
  Proof.
    revert n; induction l as [|x r IH]; intros n Hn.
    - cbn. now rewrite skipn_nil.
    - cbn [zdrop]. destruct (n <=? 0) eqn:E.
      + replace (Z.to_nat n) with 0%nat by lia. reflexivity.
      + replace (Z.to_nat n) with (S (Z.to_nat (n - 1))) by lia. cbn [skipn]. apply IH; lia.
  Qed.
  Lemma ztake_neg n l : n <= 0 -> ztake n l = [].
  Proof. destruct l; cbn; [easy|]. intros. destruct (n <=? 0) eqn:E; [easy|lia]. Qed.
  Lemma zdrop_neg n l : n <= 0 -> zdrop n l = l.
  Proof. destruct l; cbn; [easy|]. intros. destruct (n <=? 0) eqn:E; [easy|lia]. Qed.
  Lemma ztake_all n l : zlen l <= n -> ztake n l = l.
  Proof.
    revert n; induction l as [|x r IH]; intros n H; [reflexivity|].
    rewrite zlen_cons in H. pose proof (zlen_nonneg r). cbn [ztake].
    destruct (n <=? 0) eqn:E; [lia|]. f_equal. apply IH. lia.
  Qed.
  Lemma zlen_ztake n l : 0 <= n -> zlen (ztake n l) = Z.min n (zlen l).
  Proof. intros H. rewrite ztake_firstn by lia. unfold zlen. rewrite firstn_length. lia. Qed.
  Lemma zlen_zdrop n l : 0 <= n -> zlen (zdrop n l) = Z.max 0 (zlen l - n).
  Proof. intros H. rewrite zdrop_skipn by lia. unfold zlen. rewrite skipn_length. lia. Qed.
  Lemma zdrop_all n l : zlen l <= n -> zdrop n l = [].
  Proof.
    intros H. pose proof (zlen_nonneg l). apply zlen_0. rewrite zlen_zdrop by lia. lia.
  Qed.
  Lemma znth_nth_error n l : 0 <= n -> znth n l = nth_error l (Z.to_nat n).
  Proof.
    revert n; induction l as [|x r IH]; intros n Hn; cbn [znth].
    - now destruct (Z.to_nat n).
    - destruct (n =? 0) eqn:E.
      + now replace (Z.to_nat n) with 0%nat by lia.
      + destruct (n <? 0) eqn:E2; [lia|].
        replace (Z.to_nat n) with (S (Z.to_nat (n - 1))) by lia. cbn [nth_error]. apply IH; lia.
  Qed.
  Lemma znth_neg n l : n < 0 -> znth n l = None.
  Proof. destruct l; cbn; [easy|]. intros. destruct (n =? 0) eqn:?; [lia|]. destruct (n <? 0) eqn:?; [easy|lia]. Qed.
  Lemma znth_some n l x : znth n l = Some x -> 0 <= n < zlen l.
  Proof.
    intros H. destruct (Z_lt_dec n 0) as [L|L]; [rewrite znth_neg in H by lia; discriminate|].
    rewrite znth_nth_error in H by lia.
    assert (Z.to_nat n < length l)%nat by (apply nth_error_Some; congruence). unfold zlen; lia.
  Qed.
  Lemma znth_lt n l : 0 <= n < zlen l -> exists x, znth n l = Some x.
  Proof.
    intros H. rewrite znth_nth_error by lia.
    destruct (nth_error l (Z.to_nat n)) eqn:E; [eauto|].
    apply nth_error_None in E. unfold zlen in H. lia.
  Qed.
  Lemma znth_ge n l : zlen l <= n -> znth n l = None.
  Proof.
    intros H. destruct (znth n l) eqn:E; [|easy]. apply znth_some in E. lia.
  Qed.
  Lemma znth_app_l n l1 l2 : n < zlen l1 -> znth n (l1 ++ l2) = znth n l1.
  Proof.
    intros H. destruct (Z_lt_dec n 0); [now rewrite !znth_neg by lia|].
    rewrite !znth_nth_error by lia. apply nth_error_app1. unfold zlen in H; lia.
  Qed.
  Lemma znth_app_r n l1 l2 : zlen l1 <= n -> znth n (l1 ++ l2) = znth (n - zlen l1) l2.
  Proof.
    intros H. pose proof (zlen_nonneg l1).
    rewrite !znth_nth_error by lia. rewrite nth_error_app2 by (unfold zlen in H; lia).
    f_equal. unfold zlen; lia.
  Qed.
  Lemma ztake_app_zlen l1 l2 : ztake (zlen l1) (l1 ++ l2) = l1.
  Proof.
    rewrite ztake_firstn by apply zlen_nonneg. unfold zlen. rewrite Nat2Z.id.
    rewrite firstn_app, Nat.sub_diag. cbn. now rewrite firstn_all, app_nil_r.
  Qed.
  Lemma zdrop_app_zlen l1 l2 : zdrop (zlen l1) (l1 ++ l2) = l2.
  Proof.
    rewrite zdrop_skipn by apply zlen_nonneg. unfold zlen. rewrite Nat2Z.id.
    rewrite skipn_app, Nat.sub_diag. cbn. now rewrite skipn_all.
  Qed.
  Lemma ztake_zdrop n l : ztake n l ++ zdrop n l = l.
  Proof.
    destruct (Z_le_dec n 0).
    - now rewrite ztake_neg, zdrop_neg by lia.
    - rewrite ztake_firstn, zdrop_skipn by lia. apply firstn_skipn.
  Qed.
  Lemma znth_zdrop k n l : 0 <= n -> 0 <= k -> znth k (zdrop n l) = znth (n + k) l.
  Proof.
    revert n; induction l as [|x r IH]; intros n Hn Hk; [reflexivity|].
    cbn [zdrop]. destruct (n <=? 0) eqn:E.
    - now replace n with 0 by lia.
    - rewrite IH by lia. cbn [znth]. destruct (n + k =? 0) eqn:?; [lia|].
      destruct (n + k <? 0) eqn:?; [lia|]. f_equal. lia.
  Qed.
  Lemma zdrop_zdrop n m l : 0 <= n -> 0 <= m -> zdrop n (zdrop m l) = zdrop (n + m) l.
  Proof.
    revert m; induction l as [|x r IH]; intros m Hn Hm; [reflexivity|].
    cbn [zdrop]. destruct (m <=? 0) eqn:E.
    - replace m with 0 by lia. rewrite Z.add_0_r. reflexivity.
    - rewrite IH by lia. destruct (n + m <=? 0) eqn:?; [lia|]. f_equal. lia.
  Qed.
End ZList.

(** Memory: a partial map from addresses to bytes. *)
Definition memory := Z -> option Z.

(** [n] consecutive bytes, all of which must be mapped. *)
Fixpoint memread (m : memory) (a : Z) (n : nat) : option (list Z) :=
  match n with
  | O => Some []
  | S k => match m a with
           | None => None
           | Some b => match memread m (a + 1) k with
                       | None => None
                       | Some r => Some (b :: r)
                       end
           end
  end.

(** The longest readable run of at most [n] bytes starting at [a]. *)
Fixpoint prefix (src : memory) (a : Z) (n : nat) : list Z :=
  match n with
  | O => []
  | S k => match src a with
           | None => []
           | Some b => b :: prefix src (a + 1) k
           end
  end.

(** A list of bytes seen as a memory based at 0. *)
Definition ofList (l : list Z) : memory := fun a => znth a l.
(** [src] restricted to the window [\[off, off+len)] and rebased to 0. *)
Definition window (src : memory) (off len : Z) : memory :=
  fun a => if (0 <=? a) && (a <? len) then src (off + a) else None.

Lemma prefix_length src a n : (length (prefix src a n) <= n)%nat.
Proof.
  revert a; induction n as [|n IH]; intros a; cbn [prefix]; [cbn; lia|].
  destruct (src a); cbn [length]; [specialize (IH (a+1))|]; lia.
Qed.
Lemma memread_prefix m a n bs : memread m a n = Some bs -> prefix m a n = bs /\ length bs = n.
Proof.
  revert a bs; induction n as [|n IH]; intros a bs H; cbn [memread prefix] in *.
  - inversion H; now split.
  - destruct (m a); [|discriminate]. destruct (memread m (a+1) n) eqn:E; [|discriminate].
    inversion H; subst. destruct (IH _ _ E) as [-> <-]. now split.
Qed.
Lemma memread_all m a n : (forall k, a <= k < a + Z.of_nat n -> m k <> None) ->
  exists bs, memread m a n = Some bs.
Proof.
  revert a; induction n as [|n IH]; intros a H; cbn [memread]; [eauto|].
  destruct (m a) eqn:E; [|exfalso; apply (H a); [lia|exact E]].
  destruct (IH (a+1)) as [bs Hbs]. { intros; apply H; lia. }
  rewrite Hbs. eauto.
Qed.
Lemma prefix_ext s1 s2 a n : (forall k, a <= k < a + Z.of_nat n -> s1 k = s2 k) ->
  prefix s1 a n = prefix s2 a n.
Proof.
  revert a; induction n as [|n IH]; intros a H; cbn [prefix]; [easy|].
  rewrite (H a) by lia. destruct (s2 a); [|easy]. f_equal. apply IH. intros; apply H; lia.
Qed.
Lemma prefix_shift s a d n : prefix (fun k => s (d + k)) a n = prefix s (d + a) n.
Proof.
  revert a; induction n as [|n IH]; intros a; cbn [prefix]; [easy|].
  destruct (s (d + a)); [|easy]. f_equal. rewrite IH. f_equal. lia.
Qed.
Lemma prefix_ofList l off n : 0 <= off -> prefix (ofList l) off n = ztake (Z.of_nat n) (zdrop off l).
Proof.
  revert off; induction n as [|n IH]; intros off H; cbn [prefix].
  - now rewrite ztake_neg by lia.
  - unfold ofList at 1. destruct (znth off l) as [b|] eqn:E.
    + rewrite IH by lia.
      pose proof (znth_some _ _ _ E).
      assert (Hd : zdrop off l = b :: zdrop (off + 1) l).
      { rewrite Z.add_comm, <- zdrop_zdrop by lia.
        assert (H1 : znth 0 (zdrop off l) = Some b) by (rewrite znth_zdrop by lia; now rewrite Z.add_0_r).
        destruct (zdrop off l) as [|y t]; [discriminate|]. cbn in H1. inversion H1; subst.
        f_equal. cbn [zdrop]. destruct (1 <=? 0) eqn:?; [lia|]. now rewrite zdrop_neg by lia. }
      rewrite Hd. cbn [ztake]. destruct (Z.of_nat (S n) <=? 0) eqn:?; [lia|]. f_equal. f_equal. lia.
    + rewrite zdrop_all; [easy|].
      destruct (Z_lt_dec off (zlen l)); [|lia].
      destruct (znth_lt off l) as [x Hx]; [lia|congruence].
Qed.
(** What a prefix contains: each returned byte is the byte at that address, every byte
    before the end was readable, and the run stops only at an unreadable byte. *)
Lemma prefix_spec src a n bs : prefix src a n = bs <->
  (length bs <= n)%nat /\
  (forall k b, nth_error bs k = Some b -> src (a + Z.of_nat k) = Some b) /\
  ((length bs < n)%nat -> src (a + Z.of_nat (length bs)) = None).
Proof.
  revert a bs; induction n as [|n IH]; intros a bs; cbn [prefix].
  - split.
    + intros <-; cbn. repeat split; [lia| |lia]. intros [|k] b; discriminate.
    + intros (H & _). destruct bs; [easy|cbn in H; lia].
  - destruct (src a) as [b0|] eqn:E.
    + destruct bs as [|b bs].
      * split; [discriminate|]. intros (_ & _ & H). cbn in H. rewrite Z.add_0_r in H. rewrite H in E by lia. discriminate.
      * split.
        -- intros H; inversion H; subst. destruct (proj1 (IH (a+1) (prefix src (a+1) n)) eq_refl) as (H1&H2&H3).
           repeat split.
           ++ cbn; lia.
           ++ intros [|k] b'; cbn [nth_error]; intros Hk.
              ** inversion Hk; subst. now rewrite Z.add_0_r.
              ** rewrite <- (H2 _ _ Hk). f_equal; lia.
           ++ cbn [length]. intros Hl. rewrite <- H3 by lia. f_equal; lia.
        -- intros (H1 & H2 & H3). assert (b = b0). { specialize (H2 0%nat b eq_refl). rewrite Z.add_0_r in H2. congruence. }
           subst. f_equal. apply IH. repeat split.
           ++ cbn in H1; lia.
           ++ intros k b Hk. rewrite <- (H2 (S k) b Hk). f_equal; lia.
           ++ cbn [length] in H3. intros Hl. rewrite <- H3 by lia. f_equal; lia.
    + split.
      * intros <-. repeat split; cbn; [lia| |]. { intros [|k] b; discriminate. } intros; now rewrite Z.add_0_r.
      * intros (_ & H & _). destruct bs as [|b bs]; [easy|]. specialize (H 0%nat b eq_refl). rewrite Z.add_0_r in H. congruence.
Qed.
Lemma prefix_split src a n m : prefix src a (n + m) =
  if Nat.eqb (length (prefix src a n)) n then prefix src a n ++ prefix src (a + Z.of_nat n) m else prefix src a n.
Proof.
  revert a; induction n as [|n IH]; intros a; cbn [prefix Nat.add].
  - cbn. f_equal; lia.
  - destruct (src a); [|reflexivity]. rewrite IH. cbn [length Nat.eqb].
    destruct (Nat.eqb _ _); [|reflexivity]. cbn [app]. do 3 f_equal. lia.
Qed.
Lemma prefix_firstn src a n m : (n <= m)%nat -> prefix src a n = firstn n (prefix src a m).
Proof.
  revert a m; induction n as [|n IH]; intros a m H; [reflexivity|].
  destruct m as [|m]; [lia|]. cbn [prefix]. destruct (src a); [|reflexivity].
  cbn [firstn]. f_equal. apply IH; lia.
Qed.
