(** Property C56: command line options. *)
From Verif Require Import Base ElfHash ElfHashProofs Flags FlagsSpec FlagsProofs.

(** All options can be added, and every command line of correct uses of them - by long name or the start of one that fits no other, by letter, clustered letters, arguments attached or in the
    next word, mixed with operands, with or without a final "--" - calls exactly the handlers of those options, with their arguments, in order. *)
Theorem C56_dispatch : forall ds, okDefs ds -> exists f, build flEmpty ds 0 = Ok f /\
  forall a calls, items ds a calls -> parse f a = (calls, Ok tt) /\ forall operands, parse f (a ++ [45; 45] :: operands) = (calls, Ok tt).
Proof.
  intros ds H. destruct (build_ok ds H) as (f & E & P). exists f. split; [exact E|]. intros a c Hi. split.
  - rewrite P. rewrite <- (app_nil_r a). rewrite (items_ok ds H a c Hi). unfold prep. cbn. now rewrite app_nil_r.
  - intros o. rewrite P, (items_ok ds H a c Hi). unfold prep. cbn. now rewrite app_nil_r.
Qed.
(** A command line with an unknown option, an abbreviation of two, a missing argument or an argument that does not belong is rejected, after the calls for what precedes. *)
Theorem C56_rejects : forall ds, okDefs ds -> exists f, build flEmpty ds 0 = Ok f /\
  forall a ca b cb, items ds a ca -> wrong ds b cb -> parse f (a ++ b) = (ca ++ cb, Throw).
Proof.
  intros ds H. destruct (build_ok ds H) as (f & E & P). exists f. split; [exact E|]. intros a ca b cb Ha Hb. rewrite P, (items_ok ds H a ca Ha), (wrong_ok ds H b cb Hb). reflexivity.
Qed.
(** Two options with the same letter are rejected when they are added. *)
Theorem C56_collision : forall ds d1 mid d2, okDefs (ds ++ d1 :: mid) -> oShort d1 = oShort d2 -> oShort d1 <> 0 -> build flEmpty (ds ++ d1 :: mid ++ [d2]) 0 = Throw.
Proof.
  intros ds d1 mid d2 H E N. replace (ds ++ d1 :: mid ++ [d2]) with ((ds ++ d1 :: mid) ++ [d2]) by (rewrite <- app_assoc; reflexivity). set (l := ds ++ d1 :: mid) in *.
  assert (Hb : forall f l h k, build f (l ++ [k]) h = let* f := build f l h in add f (oName k) (oShort k) (oArg k) (h + length l)).
  { clear. intros f l. revert f. induction l as [|x l IH]; intros f h k; cbn [app build length].
    - rewrite Nat.add_0_r. cbn [bind]. destruct (add f (oName k) (oShort k) (oArg k) h); reflexivity.
    - destruct (add f (oName x) (oShort x) (oArg x) h); cbn [bind]; try reflexivity. rewrite IH. now replace (S h + length l)%nat with (h + S (length l))%nat by lia. }
  rewrite Hb. destruct (build_spec l flEmpty 0) as (nx & Es); [cbn; exact (vs_nodup l H)|]. rewrite Es. cbn [bind]. unfold add. rewrite <- E. replace (oShort d1 =? 0) with false by lia. cbn [flEmpty flData flNext app].
  assert (Hi : nth_error l (length ds) = Some d1) by (unfold l; rewrite nth_error_app2, Nat.sub_diag by lia; reflexivity). destruct (short_known l H (length ds) d1 Hi N) as (_ & _ & _ & _ & _ & _ & D). rewrite D. reflexivity.
Qed.
(** The full property is false for long names: a second option with the name of an earlier one is accepted, but giving that name always calls the first. *)
Theorem C56_duplicate_name_refuted : forall name c1 c2, name <> [] -> ~ In 61 name -> letter c1 -> letter c2 -> c1 <> c2 ->
  exists f, build flEmpty [mkO name c1 false; mkO name c2 false] 0 = Ok f /\ parse f [45 :: 45 :: name] = ([(0%nat, None)], Ok tt).
Proof.
  intros name c1 c2 Hn He H1 H2 Hd. assert (P1 : c1 <> 0) by (unfold letter in H1; lia). assert (P2 : c2 <> 0) by (unfold letter in H2; lia).
  cbn [build oName oShort oArg]. unfold add. replace (c1 =? 0) with false by lia. cbn [flEmpty flData flLong flNext dataFind bind app]. replace (c2 =? 0) with false by lia. cbn [flData dataFind bind]. replace (c1 =? c2) with false by lia. cbn [bind flLong flData flNext app]. eexists. split; [reflexivity|].
  unfold parse. cbn [getopts]. rewrite beq_long by exact Hn. cbn [isPrefix Z.eqb andb Pos.eqb skipn]. rewrite splitEq_no by exact He. unfold longFind. cbn [flLong find loName]. rewrite (proj2 (beq_spec name name) eq_refl). cbn [loArg loVal dispatch]. replace (c1 =? -1) with false by (unfold letter in H1; lia). replace (c1 =? 63) with false by (unfold letter in H1; lia). cbn [flData dataFind]. rewrite Z.eqb_refl. reflexivity.
Qed.
(** An option with the letter '?' is accepted too, but every use of it, even by its long name, is taken for an error. *)
Theorem C56_question_mark_refuted : forall name, name <> [] -> ~ In 61 name ->
  exists f, build flEmpty [mkO name 63 false] 0 = Ok f /\ parse f [45 :: 45 :: name] = ([], Throw) /\ parse f [[45; 63]] = ([], Throw).
Proof.
  intros name Hn He. eexists. split; [reflexivity|]. split; [|reflexivity]. unfold parse. cbn [getopts]. rewrite beq_long by exact Hn. cbn [isPrefix Z.eqb andb Pos.eqb skipn]. rewrite splitEq_no by exact He. unfold longFind. cbn [flLong flEmpty app find loName oName]. rewrite (proj2 (beq_spec name name) eq_refl). reflexivity.
Qed.

(** The options of pstack (pstack.cc:228-388) and canal (canal.cc:278-303) satisfy the hypotheses. *)
Definition okDefsB (ds : list odef) : bool :=
  let isLetter c := ((48 <=? c) && (c <=? 57)) || ((65 <=? c) && (c <=? 90)) || ((97 <=? c) && (c <=? 122)) in
  let fix nodup (l : list (list Z)) := match l with [] => true | x :: r => negb (existsb (beq x) r) && nodup r end in
  forallb (fun d => negb (beq (oName d) []) && negb (existsb (Z.eqb 61) (oName d)) && ((oShort d =? 0) || isLetter (oShort d))) ds &&
  nodup (map oName ds) && nodup (map (fun c => [c]) (filter (fun c => negb (c =? 0)) (map oShort ds))).
Lemma okDefsB_ok ds : okDefsB ds = true -> okDefs ds.
Proof.
  unfold okDefsB. set (nodup := fix nodup (l : list (list Z)) := match l with [] => true | x :: r => negb (existsb (beq x) r) && nodup r end).
  assert (Nd : forall l, nodup l = true -> NoDup l).
  { induction l as [|x l IH]; cbn [nodup]; intros H; [constructor|]. apply andb_true_iff in H. destruct H as (H1 & H2). constructor; [|now apply IH]. intros X. apply negb_true_iff in H1. rewrite <- not_true_iff_false in H1. apply H1. apply existsb_exists. exists x. split; [exact X|now apply beq_spec]. }
  rewrite !andb_true_iff. intros ((H1 & H2) & H3). split; [|split].
  - rewrite forallb_forall in H1. apply Forall_forall. intros d Hd. specialize (H1 d Hd). rewrite !andb_true_iff, orb_true_iff in H1. destruct H1 as ((A & B) & C). split; [|split].
    + intros X. rewrite X in A. discriminate.
    + intros X. apply negb_true_iff in B. rewrite <- not_true_iff_false in B. apply B. apply existsb_exists. exists 61. split; [exact X|reflexivity].
    + destruct C as [C|C]; [left; lia|right; unfold letter; lia].
  - apply Nd, H2.
  - apply Nd in H3. apply NoDup_map_inv in H3. exact H3.
Qed.
Definition pstackDefs : list odef :=
  [mkO [100; 101; 98; 117; 103; 45; 100; 105; 114] 103 true (* debug-dir *);
   mkO [101; 120; 101; 45; 100; 105; 114] 0 true (* exe-dir *);
   mkO [98; 117; 105; 108; 100; 45; 105; 100; 45; 101; 120; 101; 112; 97; 116; 104] 0 true (* build-id-exepath *);
   mkO [98; 117; 105; 108; 100; 45; 105; 100; 45; 100; 101; 98; 117; 103; 112; 97; 116; 104] 0 true (* build-id-debugpath *);
   mkO [110; 111; 45; 98; 117; 105; 108; 100; 105; 100] 0 false (* no-buildid *);
   mkO [99; 111; 110; 115; 116; 97; 110; 116] 98 true (* constant *);
   mkO [101; 108; 102; 45; 100; 117; 109; 112] 100 true (* elf-dump *);
   mkO [100; 119; 97; 114; 102; 45; 100; 117; 109; 112] 68 true (* dwarf-dump *);
   mkO [100; 101; 112; 116; 104] 114 true (* depth *);
   mkO [109; 97; 120; 45; 102; 114; 97; 109; 101; 115] 77 true (* max-frames *);
   mkO [104; 101; 108; 112] 104 false (* help *);
   mkO [97; 114; 103; 115] 97 false (* args *);
   mkO [106; 115; 111; 110] 106 false (* json *);
   mkO [110; 111; 45; 115; 114; 99] 115 false (* no-src *);
   mkO [118; 101; 114; 98; 111; 115; 101] 118 false (* verbose *);
   mkO [110; 111; 45; 116; 104; 114; 101; 97; 100; 100; 98] 116 false (* no-threaddb *);
   mkO [97; 108; 108] 65 false (* all *);
   mkO [110; 111; 45; 101; 120; 116; 45; 100; 101; 98; 117; 103] 110 false (* no-ext-debug *);
   mkO [118; 101; 114; 115; 105; 111; 110] 86 false (* version *);
   mkO [112; 121; 116; 104; 111; 110; 45; 109; 111; 100; 117; 108; 101; 115] 109 false (* python-modules *);
   mkO [112; 121; 116; 104; 111; 110] 112 false (* python *);
   mkO [108; 111; 99; 97; 108; 115] 108 false (* locals *);
   mkO [101; 120; 101; 99; 117; 116; 97; 98; 108; 101] 101 true (* executable *);
   mkO [99; 111; 109; 109; 97; 110; 100] 120 true (* command *);
   mkO [110; 111; 45; 100; 105; 101; 45; 110; 97; 109; 101; 115] 89 false (* no-die-names *);
   mkO [102; 114; 101; 101; 114; 101; 115] 0 false (* freeres *);
   mkO [99; 108; 101; 97; 114; 45; 115; 101; 97; 114; 99; 104; 45; 112; 97; 116; 104; 115] 0 false (* clear-search-paths *);
   mkO [111; 117; 116; 112; 117; 116] 111 true (* output *);
   mkO [100; 101; 98; 117; 103; 105; 110; 102; 111; 100] 82 false (* debuginfod *);
   mkO [110; 111; 45; 108; 111; 99; 97; 108; 45; 102; 105; 108; 101; 115] 0 false (* no-local-files *)].
Definition canalDefs : list odef :=
  [mkO [112; 121; 116; 104; 111; 110] 80 false (* python *);
   mkO [115; 104; 111; 119; 45; 115; 121; 109; 115] 86 false (* show-syms *);
   mkO [115; 104; 111; 119; 45; 97; 100; 100; 114; 115] 115 false (* show-addrs *);
   mkO [118; 101; 114; 98; 111; 115; 101] 118 false (* verbose *);
   mkO [104; 101; 108; 112] 104 false (* help *);
   mkO [111; 102; 102; 115; 101; 116] 111 true (* offset *);
   mkO [112; 97; 116; 116; 101; 114; 110] 112 true (* pattern *);
   mkO [115; 116; 97; 114; 116; 45; 108; 111; 99; 97; 116; 105; 111; 110] 102 true (* start-location *);
   mkO [101; 110; 100; 45; 108; 111; 99; 97; 116; 105; 111; 110] 101 true (* end-location *);
   mkO [119; 111; 114; 100; 115; 105; 122; 101] 119 true (* wordsize *);
   mkO [100; 101; 98; 117; 103; 105; 110; 102; 111; 100] 68 false (* debuginfod *);
   mkO [115; 116; 114; 105; 110; 103] 83 true (* string *)].
Theorem C56_pstack_options : okDefs pstackDefs /\ okDefs canalDefs.
Proof. split; apply okDefsB_ok; vm_compute; reflexivity. Qed.
(** pstack -av --depth=7 1234 -b 5 *)
Example C56_case : items pstackDefs [[45; 97; 118]; [45; 45; 100; 101; 112; 116; 104; 61; 55]; [49; 50]; [45; 98]; [53]] [(11%nat, None); (14%nat, None); (8%nat, Some [55]); (5%nat, Some [53])] /\
  match build flEmpty pstackDefs 0 with Ok f => parse f [[45; 97; 118]; [45; 45; 100; 101; 112; 116; 104; 61; 55]; [49; 50]; [45; 98]; [53]] = ([(11%nat, None); (14%nat, None); (8%nat, Some [55]); (5%nat, Some [53])], Ok tt) | _ => False end.
Proof.
  split; [|vm_compute; reflexivity].
  apply (ItCons _ [[45; 97; 118]] _ [(11%nat, None); (14%nat, None)]).
  { apply IShort; [|discriminate]. apply (LCons _ 11 (mkO [97; 114; 103; 115] 97 false)); [reflexivity|discriminate|reflexivity|]. apply (LCons _ 14 (mkO [118; 101; 114; 98; 111; 115; 101] 118 false)); [reflexivity|discriminate|reflexivity|]. constructor. }
  apply (ItCons _ [[45; 45; 100; 101; 112; 116; 104; 61; 55]] _ [(8%nat, Some [55])]).
  { apply (ILongEq _ [100; 101; 112; 116; 104] 8 (mkO [100; 101; 112; 116; 104] 114 true) [55]); [apply SExact; reflexivity|reflexivity]. }
  apply (ItCons _ [[49; 50]] _ []). { apply IOperand. left. intros r X. discriminate. }
  apply (ItCons _ [[45; 98]; [53]] [] [(5%nat, Some [53])] []); [|constructor].
  apply (IShortNext _ [] [] 5 (mkO [99; 111; 110; 115; 116; 97; 110; 116] 98 true) [53]); try reflexivity; [constructor|discriminate].
Qed.
(** pstack --dep=7 is pstack --depth=7; --de is the start of two names *)
Example C56_abbreviation : stands pstackDefs [100; 101; 112] 8 (mkO [100; 101; 112; 116; 104] 114 true) /\ wrong pstackDefs [[45; 45; 100; 101]] [] /\
  match build flEmpty pstackDefs 0 with Ok f => parse f [[45; 45; 100; 101; 112; 61; 55]] = ([(8%nat, Some [55])], Ok tt) /\ parse f [[45; 45; 100; 101]] = ([], Throw) | _ => False end.
Proof.
  split; [|split; [|vm_compute; split; reflexivity]].
  - apply SShort; [reflexivity|discriminate|now exists [116; 104]|]. intros j d H (r & E).
    do 40 (destruct j as [|j]; [cbn in H; first [injection H as <-; first [reflexivity|discriminate]|discriminate]|]); cbn in H; now destruct j.
  - apply (WLongTwo pstackDefs [100; 101] [] 0 8 (mkO [100; 101; 98; 117; 103; 45; 100; 105; 114] 103 true) (mkO [100; 101; 112; 116; 104] 114 true)); try reflexivity; try discriminate; try (now left).
    + intros d H. cbn in H. repeat (destruct H as [<-|H]; [discriminate|]). destruct H.
    + now exists [98; 117; 103; 45; 100; 105; 114].
    + now exists [112; 116; 104].
Qed.
Print Assumptions C56_dispatch.
Print Assumptions C56_rejects.
Print Assumptions C56_collision.
Print Assumptions C56_duplicate_name_refuted.
Print Assumptions C56_question_mark_refuted.
Print Assumptions C56_pstack_options.
