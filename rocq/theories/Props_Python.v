(** Theorems about the Python printer: C49-C52 and C74-C82.  Objects and outputs are described in PythonSpec.v. *)
From Coq Require Import Ascii String.
From Verif Require Import Base ElfHash ElfHashProofs Cache CacheProofs CfiSpec CfiProofs Python PythonSpec PythonProofs PythonProofs2 PythonProofs3 PythonProofs4.

(** ** concrete memories for the examples *)
Definition w8 (l : list Z) : list Z := flat_map (leBytes 8) l.
Definition blank (n : nat) : list Z := repeat 0 n.
Definition putw (i : nat) (v : Z) (l : list Z) : list Z := firstn i l ++ v :: skipn (S i) l.
(** a type object of 54 words: name, basic size, item size, flags, dictionary offset *)
Definition typeBytes (name basic item flags dictoff : Z) : list Z := w8 (putw 3 name (putw 4 basic (putw 5 item (putw 21 flags (putw 36 dictoff (blank 54)))))).
Definition codes (s : string) : list Z := map (fun c => Z.of_nat (nat_of_ascii c)) (list_ascii_of_string s).
Definition asciiObj (s : string) : list Z := w8 [1; 0; 0; 0; 228; 0] ++ codes s ++ [0].
Fixpoint cstr (m : memory) (n : nat) (a : Z) : list Z := match n with O => [] | S n => match m a with Some b => if b =? 0 then [] else b :: cstr m n (a + 1) | None => [] end end.
Definition strIn (m : memory) (a : Z) : res (list Z) := Ok (cstr m 64 a).
Definition s0 : pst := mkPS 0 [] [].

(** ** C49: the line of a Python frame *)
(** every frame of a chain of f_back pointers is printed, innermost first, as "function in file:line", and the line is the first line plus the line
    increments of the line table's entries whose address is not beyond the current instruction *)
Theorem C49_stack_lines : forall v3 lay m str kindOf maxdepth t name basic item flags dictoff fs a s fuel,
  okLayout lay -> typeAt m lay t name basic item flags dictoff -> kindOf t = Some KFrame -> stackAt v3 m lay str t basic item fs a ->
  typeKnown s t name basic item flags dictoff -> (forall f, In f fs -> ~ In (fAddr f) (pVisited s)) -> pDepth s <= 10000 -> (length fs < fuel)%nat ->
  exists s', print v3 lay m str kindOf maxdepth false false (S fuel) a s =
    ([Call a (map (fun f => Obj (fAddr f) (frameText (u64 ((pDepth s + 1) * 4) mod 301) f)) fs)], s', Ok tt) /\ pDepth s' = pDepth s.
Proof.
  intros v3 lay m str kindOf maxdepth t name basic item flags dictoff fs a s fuel OL HT Hk HS K Hv Hd Lf.
  destruct (stack_loop v3 lay m str kindOf maxdepth false false fuel (print v3 lay m str kindOf maxdepth false false fuel) t name basic item flags dictoff eq_refl eq_refl OL HT Hk fs a (deeper s 1) fuel HS K (stack_nodup _ _ _ _ _ _ _ _ _ HS) Hv Lf) as (s' & E & D).
  exists (deeper s' (-1)). split; [exact (print_loop v3 lay m str kindOf maxdepth false false fuel a s _ s' Hd E)|]. unfold deeper in *. cbn [pDepth] in *. lia.
Qed.
Print Assumptions C49_stack_lines.
(** the same for the innermost frame when arguments and locals are asked for, unless a failure is reported *)
Theorem C49_line_any_options : forall v3 lay m str kindOf maxdepth doargs dolocals t name basic item flags dictoff f back s fuel o s',
  okLayout lay -> typeAt m lay t name basic item flags dictoff -> kindOf t = Some KFrame -> frameAt v3 m lay str t basic item f back ->
  typeKnown s t name basic item flags dictoff -> ~ In (fAddr f) (pVisited s) -> pDepth s <= 10000 ->
  print v3 lay m str kindOf maxdepth doargs dolocals (S fuel) (fAddr f) s = (o, s', Ok tt) -> existsb fails o = false ->
  exists mid post rest, o = [Call (fAddr f) (Obj (fAddr f)
    (map Tok [TPrefix (u64 ((pDepth s + 1) * 4) mod 301); TStr (fFunc f)] ++ mid ++
     map Tok [TLit " in "; TStr (fFile f); TLit ":"; TNum (lineOf (fFirst f) (fLasti f) (fTable f)); TLit nl] ++ post) :: rest)].
Proof.
  intros v3 lay m str kindOf maxdepth doargs dolocals t name basic item flags dictoff f back s fuel o s' OL HT Hk HF K Hv Hd E Hf.
  assert (Ha : fAddr f <> 0) by (destruct HF as (? & ? & ? & (X & _) & _); exact X). destruct (print_first _ _ _ _ _ _ _ _ _ _ _ _ _ Ha Hd E Hf) as (ob & s1 & b & rest & E1 & ->).
  destruct (frame_line v3 lay m str kindOf maxdepth doargs dolocals fuel _ t name basic item flags dictoff f back (deeper s 1) ob s1 b OL HF HT K Hk Hv E1) as (_ & mid & post & -> & _). now exists mid, post, rest.
Qed.
Print Assumptions C49_line_any_options.
(** two frames, the outer one 300 bytes into its code *)
Definition exMem : memory := region
  [(4096, typeBytes 20480 368 8 0 0);
   (8192, w8 (putw 0 1 (putw 1 4096 (putw 3 9216 (putw 4 12288 (putw 13 4 (blank 46)))))));
   (9216, w8 (putw 0 1 (putw 1 4096 (putw 4 12544 (putw 13 300 (blank 46))))));
   (12288, w8 (putw 5 10 (putw 13 16384 (putw 14 16640 (putw 15 17408 (blank 18))))));
   (12544, w8 (putw 5 20 (putw 13 16384 (putw 14 16896 (putw 15 17664 (blank 18))))));
   (16384, asciiObj "a.py"); (16640, asciiObj "inner"); (16896, asciiObj "outer");
   (17408, w8 [1; 0; 6; 0] ++ [0; 1; 4; 2; 6; 5]);
   (17664, w8 [1; 0; 8; 0] ++ [255; 0; 45; 254; 1; 9; 1; 1]);
   (20480, codes "frame" ++ [0])].
Definition exFrames : list pyframe :=
  [mkPF 8192 (codes "inner") (codes "a.py") 10 4 [(0, 1); (4, 2); (6, 5)]; mkPF 9216 (codes "outer") (codes "a.py") 20 300 [(255, 0); (45, -2); (1, 9); (1, 1)]].
Definition exKind (t : Z) : option kind := if t =? 4096 then Some KFrame else None.
Ltac mem_solve := match goal with
  | |- field _ _ _ _ => apply fieldb_ok; vm_compute; reflexivity
  | |- readable _ _ _ => apply readableb_ok; vm_compute; reflexivity
  | |- bytesAt _ _ _ => apply bytesAtb_ok; vm_compute; reflexivity
  | |- @eq Z _ _ => vm_compute; reflexivity
  | |- @eq bool _ _ => vm_compute; reflexivity
  | |- objectAt _ _ _ _ _ => unfold objectAt; mem_solve
  | |- typeAt _ _ _ _ _ _ _ _ => unfold typeAt; mem_solve
  | |- exists r, r <> 0 /\ field _ _ _ r => exists 1; mem_solve
  | |- Z.lt _ _ => vm_compute; reflexivity
  | |- Z.le _ _ => vm_compute; discriminate
  | |- _ /\ _ => split; mem_solve
  | |- ~ @eq Z _ _ => discriminate
  end.
Example C49_type : typeAt exMem py38 4096 20480 368 8 0 0.
Proof. mem_solve. Qed.
Example C49_okLayouts : okLayout py38 /\ okLayout py27.
Proof. split; (split; [cbn; lia|split; [cbn; lia|]]); cbn; repeat constructor; lia. Qed.
Example C49_chain : stackAt true exMem py38 (strIn exMem) 4096 368 8 exFrames 8192.
Proof.
  assert (F : forall a c lasti back, readable exMem a 368 -> field exMem a 8 1 -> field exMem (a + 8) 8 4096 -> field exMem (a + 16) 8 0 -> field exMem (a + 24) 8 back -> field exMem (a + 32) 8 c -> field exMem (a + 56) 8 0 -> field exMem (a + 104) 4 (lasti mod 2 ^ 32) ->
    forall fn fl fi tab, codeAt true exMem py38 (strIn exMem) c (mkPF a fn fl fi lasti tab) -> c <> 0 -> a <> 0 -> - 2 ^ 31 <= lasti < 2 ^ 31 -> frameAt true exMem py38 (strIn exMem) 4096 368 8 (mkPF a fn fl fi lasti tab) back).
  { intros a c lasti back R F0 F1 F2 F3 F4 F5 F6 fn fl fi tab HC Hc Ha Hl. exists 0, c, 0. cbn [fAddr fLasti lFrameLasti py38]. change (368 + 8 * Z.abs 0) with 368.
    assert (HO : objectAt exMem a 368 4096 0). { split; [exact Ha|]. split; [unfold stackMax; lia|]. split; [exact R|]. split; [exists 1; split; [lia|exact F0]|]. split; [exact F1|]. split; [exact F2|lia]. }
    repeat (split; [first [exact HO | exact HC | assumption | lia]|]). exact HC. }
  assert (C : forall c a fn fl fi la tab p1 p2 p3, readable exMem c 144 -> field exMem (c + 112) 8 p1 -> field exMem (c + 104) 8 p2 -> field exMem (c + 120) 8 p3 -> field exMem (c + 40) 4 (fi mod 2 ^ 32) -> 0 <= fi < 2 ^ 30 ->
    stringAt true exMem (strIn exMem) p1 fn -> stringAt true exMem (strIn exMem) p2 fl -> lineTableAt true exMem p3 tab -> codeAt true exMem py38 (strIn exMem) c (mkPF a fn fl fi la tab)).
  { intros c a fn fl fi la tab p1 p2 p3 R F1 F2 F3 F4 Hfi S1 S2 HL. split; [exact R|]. split; [exists p1; now split|]. split; [exists p2; now split|]. split; [exists p3; now split|]. now split. }
  cbn [stackAt exFrames fAddr]. split; [reflexivity|]. exists 9216. split; [|split; [reflexivity|exists 0; split; [|reflexivity]]].
  - apply (F 8192 12288 4 9216); try mem_solve. apply (C 12288 _ _ _ _ _ _ 16640 16384 17408); try mem_solve.
    + split; [lia|]. split; [unfold W64; lia|]. cbv iota. split; [mem_solve|]. split; [vm_compute; reflexivity|]. exists 228. mem_solve.
    + split; [lia|]. split; [unfold W64; lia|]. cbv iota. split; [mem_solve|]. split; [vm_compute; reflexivity|]. exists 228. mem_solve.
    + split; [mem_solve|]. split; [mem_solve|]. split; [mem_solve|]. split; [vm_compute; reflexivity|]. repeat constructor; cbn; lia.
  - apply (F 9216 12544 300 0); try mem_solve. apply (C 12544 _ _ _ _ _ _ 16896 16384 17664); try mem_solve.
    + split; [lia|]. split; [unfold W64; lia|]. cbv iota. split; [mem_solve|]. split; [vm_compute; reflexivity|]. exists 228. mem_solve.
    + split; [lia|]. split; [unfold W64; lia|]. cbv iota. split; [mem_solve|]. split; [vm_compute; reflexivity|]. exists 228. mem_solve.
    + split; [mem_solve|]. split; [mem_solve|]. split; [mem_solve|]. split; [vm_compute; reflexivity|]. repeat constructor; cbn; lia.
Qed.
(** line 13 for the inner frame, 18 for the outer *)
Example C49_nonvacuous : exists s', print true py38 exMem (strIn exMem) exKind 10 false false 9 8192 s0 =
    ([Call 8192 (map (fun f => Obj (fAddr f) (frameText 4 f)) exFrames)], s', Ok tt) /\ map (fun f => lineOf (fFirst f) (fLasti f) (fTable f)) exFrames = [13; 18].
Proof.
  destruct (C49_stack_lines true py38 exMem (strIn exMem) exKind 10 4096 20480 368 8 0 0 exFrames 8192 s0 8 (proj1 C49_okLayouts) C49_type eq_refl C49_chain I (fun _ _ H => H) ltac:(cbn; lia) ltac:(cbn; lia)) as (s' & E & _).
  exists s'. split; [exact E|reflexivity].
Qed.
(** a line table of odd length is read past its end *)
Theorem C49_odd_table_refuted : exists m, byteMem m /\
  match print true py38 m (strIn m) exKind 10 false false 9 8192 s0 with (_, _, r) => r = UB end.
Proof.
  exists (region [(4096, typeBytes 20480 368 8 0 0);
   (8192, w8 (putw 0 1 (putw 1 4096 (putw 4 12288 (putw 13 4 (blank 46))))));
   (12288, w8 (putw 5 10 (putw 13 16384 (putw 14 16640 (putw 15 17408 (blank 18))))));
   (16384, asciiObj "a.py"); (16640, asciiObj "inner"); (17408, w8 [1; 0; 1; 0] ++ [0])]).
  split; [|vm_compute; reflexivity]. apply region_byte. repeat constructor; try (unfold isByte; vm_compute; intuition discriminate).
Qed.
Print Assumptions C49_odd_table_refuted.

(** ** C50: dictionaries *)
(** Python 2: what is shown is every slot in use, once and in table order, of the table without its last slot (the loop stops at ma_mask, which is the
    index of the last slot) *)
Theorem C50_python2_partial : forall lay m str kindOf maxdepth doargs dolocals a size t name flags dictoff n used mask table l s fuel o s',
  48 <= size -> objectAt m a size t n -> typeAt m lay t name size 0 flags dictoff -> kindOf t = Some KDict -> dict2At m a used mask table l ->
  typeKnown s t name size 0 flags dictoff -> ~ In a (pVisited s) -> pDepth s < maxdepth -> pDepth s <= 10000 ->
  print false lay m str kindOf maxdepth doargs dolocals (S fuel) a s = (o, s', Ok tt) ->
  exists body, o = [Call a [Obj a body]] /\ calls body = flat2 (filter inUse (removelast l)).
Proof.
  intros lay m str kindOf maxdepth doargs dolocals a size t name flags dictoff n used mask table l s fuel o s' Sz HO HT Hk HD K Hv Hmd Hd E.
  assert (Er : removelast l = firstn (Z.to_nat mask) l). { destruct HD as (_ & _ & Fm & _ & Ll & _). pose proof (proj1 Fm). unfold zlen in Ll. rewrite removelast_firstn_len. f_equal. lia. }
  rewrite Er. apply (print_calls false lay m str kindOf maxdepth doargs dolocals fuel a s o s'); auto; [apply HO|].
  replace size with (size + 0 * Z.abs n) in HO by lia.
  destruct (one_at false lay m str kindOf maxdepth doargs dolocals fuel (print false lay m str kindOf maxdepth doargs dolocals fuel) a t KDict name size 0 flags dictoff n (deeper s 1)) as (buf & Im & E1); try assumption; try lia; [intros _; exact Hv|].
  rewrite E1. cbn [runPrinter]. apply (dict2_ct false lay m str kindOf maxdepth doargs dolocals fuel buf a (size + 0 * Z.abs n) used mask table l); auto; try lia.
  unfold marked. cbn [dupdetect pDepth]. destruct (addType_eq (deeper s 1) t (mkPT name size 0 flags (s64 dictoff))) as (-> & _). cbn. lia.
Qed.
Print Assumptions C50_python2_partial.
(** so the entry in the last slot is never shown *)
Theorem C50_python2_last_slot_refuted : forall lay m str kindOf maxdepth doargs dolocals a size t name flags dictoff n used mask table l e s fuel o s',
  48 <= size -> objectAt m a size t n -> typeAt m lay t name size 0 flags dictoff -> kindOf t = Some KDict -> dict2At m a used mask table (l ++ [e]) ->
  typeKnown s t name size 0 flags dictoff -> ~ In a (pVisited s) -> pDepth s < maxdepth -> pDepth s <= 10000 -> inUse e = true ->
  print false lay m str kindOf maxdepth doargs dolocals (S fuel) a s = (o, s', Ok tt) ->
  exists body, o = [Call a [Obj a body]] /\ calls body <> flat2 (filter inUse (l ++ [e])).
Proof.
  intros lay m str kindOf maxdepth doargs dolocals a size t name flags dictoff n used mask table l e s fuel o s' Sz HO HT Hk HD K Hv Hmd Hd He E.
  destruct (C50_python2_partial _ _ _ _ _ _ _ _ _ _ _ _ _ _ _ _ _ _ _ _ _ _ Sz HO HT Hk HD K Hv Hmd Hd E) as (body & -> & Hc). exists body. split; [reflexivity|]. rewrite Hc, removelast_last, filter_app. cbn [filter]. rewrite He. unfold flat2. rewrite flat_map_app. cbn.
  intros X. apply (f_equal (@length Z)) in X. rewrite app_length in X. cbn in X. lia.
Qed.
Print Assumptions C50_python2_last_slot_refuted.
Definition dict2Mem : memory := region
  [(4096, typeBytes 20480 280 0 0 0); (4608, typeBytes 20480 24 0 0 0); (8192, w8 (putw 0 1 (putw 1 4096 (putw 2 2 (putw 3 2 (putw 4 3 (putw 5 12288 (blank 35))))))));
   (12288, w8 [5; 16384; 16416; 0; 0; 0; 0; 16384; 0; 7; 16416; 16384]); (16384, w8 [1; 4608; 77]); (16416, w8 [1; 4608; 88]); (20480, codes "dict" ++ [0])].
Definition dict2Kind (t : Z) : option kind := if t =? 4096 then Some KDict else if t =? 4608 then Some KInt else None.
(** four slots of which the first and the last are in use: only the first is shown *)
Example C50_python2_nonvacuous :
  objectAt dict2Mem 8192 280 4096 2 /\ typeAt dict2Mem py27 4096 20480 280 0 0 0 /\ dict2At dict2Mem 8192 2 3 12288 ([(16384, 16416); (0, 0); (16384, 0)] ++ [(16416, 16384)]) /\
  match print false py27 dict2Mem (strIn dict2Mem) dict2Kind 10 false false 19 8192 s0 with (o, _, r) => r = Ok tt /\ existsb fails o = false /\ flat_map tokens o = [TLit ("{" ++ nl); TPrefix 8; TNum 77; TLit " : "; TNum 88; TLit nl; TPrefix 4; TLit "}"] end.
Proof.
  split; [mem_solve|]. split; [mem_solve|]. split; [|vm_compute; auto]. unfold dict2At. do 7 (split; [mem_solve|]).
  intros i k v H. destruct i as [|[|[|[|i]]]]; cbn in H; try (destruct i; discriminate); injection H as <- <-; mem_solve.
Qed.
(** Python 3: the entries that the index table refers to, each where the table has it *)
Theorem C50_python3 : forall lay m str kindOf maxdepth doargs dolocals a size t name flags dictoff n used keys values ix es vs s fuel o s',
  48 <= size -> objectAt m a size t n -> typeAt m lay t name size 0 flags dictoff -> kindOf t = Some KDict -> dict3At m a used keys values ix es vs ->
  typeKnown s t name size 0 flags dictoff -> ~ In a (pVisited s) -> pDepth s < maxdepth -> pDepth s <= 10000 ->
  print true lay m str kindOf maxdepth doargs dolocals (S fuel) a s = (o, s', Ok tt) ->
  exists body, o = [Call a [Obj a body]] /\ calls body = flat_map (item3 values vs es) (used3 ix).
Proof.
  intros lay m str kindOf maxdepth doargs dolocals a size t name flags dictoff n used keys values ix es vs s fuel o s' Sz HO HT Hk HD K Hv Hmd Hd E.
  apply (print_calls true lay m str kindOf maxdepth doargs dolocals fuel a s o s'); auto; [apply HO|].
  replace size with (size + 0 * Z.abs n) in HO by lia.
  destruct (one_at true lay m str kindOf maxdepth doargs dolocals fuel (print true lay m str kindOf maxdepth doargs dolocals fuel) a t KDict name size 0 flags dictoff n (deeper s 1)) as (buf & Im & E1); try assumption; try lia; [intros _; exact Hv|].
  rewrite E1. cbn [runPrinter]. apply (dict3_ct true lay m str kindOf maxdepth doargs dolocals fuel buf a (size + 0 * Z.abs n) used keys values ix es vs); auto; try lia.
  unfold marked. cbn [dupdetect pDepth]. destruct (addType_eq (deeper s 1) t (mkPT name size 0 flags (s64 dictoff))) as (-> & _). cbn. lia.
Qed.
Print Assumptions C50_python3.
Definition dict3Mem (values : Z) : memory := region
  [(4096, typeBytes 20480 48 0 0 0); (4608, typeBytes 20480 24 0 0 0); (8192, w8 [1; 4096; 2; 0; 12288; values]);
   (12288, w8 [1; 8; 0; 0; 2] ++ [255; 1; 254; 255; 0; 255; 255; 255] ++ w8 [5; 16384; 16416; 6; 16416; 16384]); (16384, w8 [1; 4608; 77]); (16416, w8 [1; 4608; 88]); (20480, w8 [16416; 0])].
Example C50_python3_nonvacuous :
  objectAt (dict3Mem 0) 8192 48 4096 2 /\ typeAt (dict3Mem 0) py38 4096 20480 48 0 0 0 /\ dict3At (dict3Mem 0) 8192 2 12288 0 [-1; 1; -2; -1; 0; -1; -1; -1] [(16384, 16416); (16416, 16384)] [] /\
  match print true py38 (dict3Mem 0) (strIn (dict3Mem 0)) dict2Kind 10 false false 19 8192 s0 with (o, _, r) => r = Ok tt /\ flat_map tokens o = [TLit ("{" ++ nl); TPrefix 8; TNum 88; TLit " : "; TNum 77; TLit nl; TPrefix 8; TNum 77; TLit " : "; TNum 88; TLit nl; TPrefix 4; TLit "}"] end.
Proof.
  split; [mem_solve|]. split; [mem_solve|]. split; [|vm_compute; auto]. unfold dict3At. do 4 (split; [mem_solve|]). split.
  { unfold keysAt. cbv zeta. split; [mem_solve|]. split; [mem_solve|]. split; [mem_solve|]. split.
    - intros i x H. do 8 (destruct i as [|i]; [cbn in H; injection H as <-; split; [mem_solve|cbn; lia]|]). destruct i; discriminate.
    - intros i k v H. destruct i as [|[|i]]; cbn in H; try (destruct i; discriminate); injection H as <- <-; mem_solve. }
  intros H. now destruct H.
Qed.
(** an instance dictionary that shares its keys is shown with the keys for which the instance has no value: the second key here has a null value and its
    line is "key : " with nothing after it *)
Theorem C50_shared_keys_refuted :
  dict3At (dict3Mem 20480) 8192 2 12288 20480 [-1; 1; -2; -1; 0; -1; -1; -1] [(16384, 16416); (16416, 16384)] [16416; 0] /\
  match print true py38 (dict3Mem 20480) (strIn (dict3Mem 20480)) dict2Kind 10 false false 19 8192 s0 with (o, _, r) => r = Ok tt /\ flat_map tokens o = [TLit ("{" ++ nl); TPrefix 8; TNum 88; TLit " : "; TLit nl; TPrefix 8; TNum 77; TLit " : "; TNum 88; TLit nl; TPrefix 4; TLit "}"] end.
Proof.
  split; [|vm_compute; auto]. unfold dict3At. do 4 (split; [mem_solve|]). split.
  { unfold keysAt. cbv zeta. split; [mem_solve|]. split; [mem_solve|]. split; [mem_solve|]. split.
    - intros i x H. do 8 (destruct i as [|i]; [cbn in H; injection H as <-; split; [mem_solve|cbn; lia]|]). destruct i; discriminate.
    - intros i k v H. destruct i as [|[|i]]; cbn in H; try (destruct i; discriminate); injection H as <- <-; mem_solve. }
  intros _. split; [|reflexivity]. split; [mem_solve|]. intros i p Hp. destruct i as [|[|i]]; cbn in Hp; try (destruct i; discriminate); injection Hp as <-; mem_solve.
Qed.
Print Assumptions C50_shared_keys_refuted.

(** ** C51: the version in a file name *)
(** the result is a version exactly if the first "python" in the last component is followed by a digit, any character and a digit: those digits *)
Theorem C51_version : forall s maj mnr, versionFromFilename s = Ok (maj, mnr) <->
  exists b pre c rest, baseOf s b /\ firstPython b pre (48 + maj :: c :: 48 + mnr :: rest) /\ 0 <= maj <= 9 /\ 0 <= mnr <= 9.
Proof. exact version_spec. Qed.
Print Assumptions C51_version.
(** every other name is rejected *)
Theorem C51_rejects_or_answers : forall s, versionFromFilename s = Throw \/ exists v, versionFromFilename s = Ok v.
Proof. exact version_total. Qed.
Print Assumptions C51_rejects_or_answers.
Example C51_nonvacuous : versionFromFilename (codes "/usr/lib/python39/libpython3.9.so.1.0") = Ok (3, 9) /\ versionFromFilename (codes "/usr/lib/python3.9/") = Throw.
Proof. vm_compute. auto. Qed.
(** a minor version of two digits is cut to its first digit, whatever the directory and the rest of the name *)
Theorem C51_two_digit_minor_refuted : forall dir x y z rest, (dir = [] \/ exists d, dir = d ++ [47]) -> ~ In 47 rest -> 0 <= x <= 9 -> 0 <= y <= 9 -> 0 <= z <= 9 ->
  versionFromFilename (dir ++ word ++ [48 + x; 46; 48 + y; 48 + z] ++ rest) = Ok (x, y).
Proof.
  intros dir x y z rest Hd Hr Hx Hy Hz. apply version_spec. exists (word ++ [48 + x; 46; 48 + y; 48 + z] ++ rest), [], 46, (48 + z :: rest). repeat split; try lia; [|exists dir; now split|intros; cbn; lia].
  rewrite !in_app_iff. intros [X|[X|X]]; [cbn in X; lia|destruct X as [X|[X|[X|[X|[]]]]]; lia|now apply Hr].
Qed.
Print Assumptions C51_two_digit_minor_refuted.
(** any character is taken for the dot: libpython310.so is Python 3.0 *)
Theorem C51_no_dot_refuted : versionFromFilename (codes "libpython310.so") = Ok (3, 0).
Proof. vm_compute. reflexivity. Qed.
Print Assumptions C51_no_dot_refuted.

(** ** C52: integers *)
(** an integer of normalised digits and magnitude below 2^63 prints as its exact value *)
Theorem C52_exact_partial : forall v3 lay m str kindOf maxdepth doargs dolocals a t name flags dictoff n ds s fuel,
  objectAt m a (24 + 4 * Z.abs n) t n -> typeAt m lay t name 24 4 flags dictoff -> kindOf t = Some KLong -> typeKnown s t name 24 4 flags dictoff ->
  zlen ds = Z.abs n -> Z.abs n <= 65536 -> digitsAt m a ds -> (ds = [] \/ 0 < last ds 0) -> - 2 ^ 63 < intValue n ds < 2 ^ 63 -> pDepth s <= 10000 -> (2 <= fuel)%nat ->
  exists s', print v3 lay m str kindOf maxdepth doargs dolocals (S fuel) a s = ([Call a [Obj a [Tok (TNum (intValue n ds))]]], s', Ok tt).
Proof.
  intros v3 lay m str kindOf maxdepth doargs dolocals a t name flags dictoff n ds s fuel HO HT Hk K Ln Hn Hds Nm Hv Hd Hf.
  destruct (one_at v3 lay m str kindOf maxdepth doargs dolocals fuel (print v3 lay m str kindOf maxdepth doargs dolocals fuel) a t KLong name 24 4 flags dictoff n (deeper s 1)) as (buf & Im & E1); try assumption; try lia; try discriminate.
  assert (Hd2 : digitsValue ds < 2 ^ 63). { assert (0 <= digitsValue ds). { apply (digits_nonneg str kindOf maxdepth). apply Forall_forall. intros x Hx. apply In_nth_error in Hx as (j & Hj). now apply Hds in Hj as (_ & Hj). } unfold intValue in Hv. destruct (n <? 0); lia. }
  eexists. apply print_one; auto; [apply HO|]. rewrite E1. cbn [runPrinter]. apply (longPrinter_ok m str kindOf maxdepth a buf n ds); auto. apply HO.
Qed.
Print Assumptions C52_exact_partial.
(** any other value is never printed: the loop overflows, which is undefined, or prints something else *)
Theorem C52_large_refuted : forall v3 lay m str kindOf maxdepth doargs dolocals a t name flags dictoff n ds s fuel o s' r,
  objectAt m a (24 + 4 * Z.abs n) t n -> typeAt m lay t name 24 4 flags dictoff -> kindOf t = Some KLong -> typeKnown s t name 24 4 flags dictoff ->
  zlen ds = Z.abs n -> Z.abs n <= 65536 -> digitsAt m a ds -> ~ (- 2 ^ 63 < intValue n ds < 2 ^ 63) -> pDepth s <= 10000 ->
  print v3 lay m str kindOf maxdepth doargs dolocals (S fuel) a s = (o, s', r) -> ~ In (TNum (intValue n ds)) (flat_map tokens o).
Proof.
  intros v3 lay m str kindOf maxdepth doargs dolocals a t name flags dictoff n ds s fuel o s' r HO HT Hk K Ln Hn Hds Hv Hd.
  destruct (one_at v3 lay m str kindOf maxdepth doargs dolocals fuel (print v3 lay m str kindOf maxdepth doargs dolocals fuel) a t KLong name 24 4 flags dictoff n (deeper s 1)) as (buf & Im & E1); try assumption; try lia; try discriminate.
  assert (Fb : fld buf 16 8 = Ok (u64 n)). { apply (fld_image m a (24 + 4 * Z.abs n) buf 16 8); [exact Im|apply HO|lia|lia]. }
  assert (Hb : - 2 ^ 63 <= n < 2 ^ 63) by (destruct HO as (_ & _ & _ & _ & _ & _ & X); lia).
  assert (NV : forall st o1 s1 r1, longPrinter buf st = (o1, s1, r1) -> ~ In (TNum (intValue n ds)) (flat_map tokens o1) /\ (forall b, r1 = Ok b -> b = 0)).
  { intros st o1 s1 r1 E. destruct (longPrinter_out _ _ _ _ _ E) as [(-> & H)|(v & -> & ->)]; [split; [intros []|intros b Hb'; now apply H in Hb']|]. split; [|intros b [= <-]; reflexivity].
    intros [[= X]|[]]. destruct (longPrinter_never str kindOf buf st _ s1 _ n _ Fb Hb E (or_introl eq_refl)) as (Y1 & Y2).
    assert (P : 0 <= digitsValue ds). { apply (digits_nonneg str kindOf maxdepth). apply Forall_forall. intros x Hx. apply In_nth_error in Hx as (j & Hj). now apply Hds in Hj as (_ & Hj). }
    unfold intValue in *. destruct (n <? 0) eqn:En; lia. }
  cbn [print]. unfold group. rewrite getDepth_bind. replace (pDepth s >? 10000) with false by lia. rewrite depth_bind. unfold bindM at 1, caught.
  generalize fuel at 3 as k. intros [|k]; [intros [= <- <- <-] []|]. cbn [loop]. replace (a =? 0) with false by (destruct HO as (X & _); lia). unfold bindM at 1, group at 1. rewrite E1. cbn [runPrinter].
  destruct (longPrinter buf _) as ((o1 & s1) & r1) eqn:E2. apply NV in E2 as (N1 & N2). destruct r1 as [b| | |].
  - rewrite (N2 b eq_refl). destruct k as [|k]; cbn [loop]; cbn; intros [= <- <- <-]; cbn; rewrite ?app_nil_r; exact N1.
  - cbn. intros [= <- <- <-]. cbn. rewrite ?app_nil_r. rewrite in_app_iff. intros [X|[X|[]]]; [now apply N1|discriminate].
  - intros [= <- <- <-]. cbn. rewrite ?app_nil_r. exact N1.
  - intros [= <- <- <-]. cbn. rewrite ?app_nil_r. exact N1.
Qed.
Print Assumptions C52_large_refuted.
Definition longMem (n : Z) (ds : list Z) : memory := region [(4096, typeBytes 20480 24 4 0 0); (8192, w8 [1; 4096; u64 n] ++ flat_map (leBytes 4) ds)].
Definition longKind (t : Z) : option kind := if t =? 4096 then Some KLong else None.
(** - 2^60 - 5 is printed; 2^70 and - 2^63 meet the hypotheses of the second theorem *)
Example C52_nonvacuous :
  objectAt (longMem (-3) [5; 0; 1]) 8192 36 4096 (-3) /\ digitsAt (longMem (-3) [5; 0; 1]) 8192 [5; 0; 1] /\ intValue (-3) [5; 0; 1] = - 2 ^ 60 - 5 /\
  objectAt (longMem 3 [0; 0; 1024]) 8192 36 4096 3 /\ digitsAt (longMem 3 [0; 0; 1024]) 8192 [0; 0; 1024] /\ intValue 3 [0; 0; 1024] = 2 ^ 70 /\
  intValue (-3) [0; 0; 8] = - 2 ^ 63 /\
  match print true py38 (longMem (-3) [5; 0; 1]) (strIn (longMem 0 [])) longKind 10 false false 9 8192 s0 with (o, _, r) => r = Ok tt /\ o = [Call 8192 [Obj 8192 [Tok (TNum (- 2 ^ 60 - 5))]]] end.
Proof.
  assert (D : forall n a b c, 0 <= a < 2 ^ 30 -> 0 <= b < 2 ^ 30 -> 0 <= c < 2 ^ 30 -> (forall i d, nth_error [a; b; c] i = Some d -> field (longMem n [a; b; c]) (8192 + 24 + 4 * Z.of_nat i) 4 d) -> digitsAt (longMem n [a; b; c]) 8192 [a; b; c]).
  { intros n a b c Ha Hb Hc F i d H. split; [now apply F|]. destruct i as [|[|[|i]]]; cbn in H; try (destruct i; discriminate); injection H as <-; assumption. }
  split; [mem_solve|]. split. { apply D; try lia. intros i d H. destruct i as [|[|[|i]]]; cbn in H; try (destruct i; discriminate); injection H as <-; mem_solve. }
  split; [reflexivity|]. split; [mem_solve|]. split. { apply D; try lia. intros i d H. destruct i as [|[|[|i]]]; cbn in H; try (destruct i; discriminate); injection H as <-; mem_solve. }
  vm_compute. auto 10.
Qed.

(** ** C74: printing ends, whatever is in memory *)
(** for every memory of bytes, every object address and every set of options the printer returns; it cannot be sent into a loop by cyclic or corrupt
    objects, and no exception leaves it.  ([fuel] is larger than any number of nested or repeated steps; [str] is any string reader that returns.) *)
Theorem C74_printing_returns : forall v3 lay m str kindOf maxdepth doargs dolocals fuel a s, byteMem m -> (forall p, str p <> OutOfFuel) ->
  3 * W64 < Z.of_nat fuel -> 0 <= a < W64 -> NoDup (pVisited s) -> (forall x, In x (pVisited s) -> 0 <= x < W64) ->
  match print v3 lay m str kindOf maxdepth doargs dolocals fuel a s with (_, _, r) => r = Ok tt \/ r = UB end.
Proof.
  intros v3 lay m str kindOf maxdepth doargs dolocals fuel a s Hm Hs Hf Ha Nd Hv.
  assert (HI : Inv s) by (split; [exact Nd|now apply Forall_forall]). assert (Tm : T s <= W64) by (unfold T; pose proof (zlen_nonneg (pVisited s)); lia).
  pose proof (print_term v3 lay m Hm str Hs kindOf maxdepth doargs dolocals (Z.to_nat W64) W64 fuel ltac:(unfold W64; lia) ltac:(lia) a Ha s HI Tm) as G. pose proof (CT_print v3 lay m str kindOf maxdepth doargs dolocals fuel a s) as C.
  destruct (print v3 lay m str kindOf maxdepth doargs dolocals fuel a s) as ((o & s') & [[]| | |]); [now left|destruct C|now right|destruct G as (_ & _ & [])].
Qed.
Print Assumptions C74_printing_returns.
(** a list that contains itself *)
Definition loopMem : memory := region [(4096, typeBytes 20480 40 0 0 0); (8192, w8 [1; 4096; 2; 12288; 2]); (12288, w8 [8192; 8192])].
Definition listKind (t : Z) : option kind := if t =? 4096 then Some KList else if t =? 5120 then Some KTuple else if t =? 4608 then Some KInt else None.
Example C74_nonvacuous : byteMem loopMem /\ match print true py38 loopMem (strIn loopMem) listKind 10 false false 9 8192 s0 with (o, _, r) =>
  r = Ok tt /\ flat_map tokens o = [TLit ("[ " ++ nl); TPrefix 8; TLit "(already seen)"; TLit ("," ++ nl); TPrefix 8; TLit "(already seen)"; TLit ("," ++ nl); TPrefix 4; TLit "]"] end.
Proof. split; [|vm_compute; auto]. apply region_byte. repeat constructor; try (unfold isByte; vm_compute; intuition discriminate). Qed.

(** ** C75: no object's contents are listed twice *)
Theorem C75_listed_once : forall v3 lay m str kindOf maxdepth doargs dolocals fuel a s o s' r,
  print v3 lay m str kindOf maxdepth doargs dolocals fuel a s = (o, s', r) -> NoDup (flat_map listed o) /\ forall x, In x (flat_map listed o) -> ~ In x (pVisited s).
Proof.
  intros v3 lay m str kindOf maxdepth doargs dolocals fuel a s o s' r E. apply print_E in E as (_ & H1 & H2). split; [exact H1|]. intros x Hx. now apply H2.
Qed.
Print Assumptions C75_listed_once.
(** shared objects: a list of three pointers to one tuple lists the tuple's contents once *)
Definition shareMem : memory := region [(4096, typeBytes 20480 40 0 0 0); (4608, typeBytes 20480 24 0 0 0); (5120, typeBytes 20480 24 8 0 0); (8192, w8 [1; 4096; 3; 12288; 3]); (12288, w8 [16384; 16384; 16384]); (16384, w8 [1; 5120; 1; 16448]); (16448, w8 [1; 4608; 7])].
Example C75_nonvacuous : match print true py38 shareMem (strIn shareMem) listKind 10 false false 9 8192 s0 with (o, s', r) => r = Ok tt /\ flat_map listed o = [8192; 16384] /\ calls (match o with [Call _ [Obj _ b]] => b | _ => [] end) = [16384; 16384; 16384] end.
Proof. vm_compute. auto. Qed.

(** ** C76: the indentation afterwards is the one before *)
Theorem C76_indentation_partial : forall v3 lay m str kindOf maxdepth doargs dolocals fuel a s o s',
  print v3 lay m str kindOf maxdepth doargs dolocals fuel a s = (o, s', Ok tt) -> existsb fails o = false -> pDepth s' = pDepth s.
Proof. intros v3 lay m str kindOf maxdepth doargs dolocals fuel a s o s' E Hf. pose proof (print_D _ _ _ _ _ _ _ _ _ _ _ _ _ _ E Hf). lia. Qed.
Print Assumptions C76_indentation_partial.
Example C76_nonvacuous : match print true py38 shareMem (strIn shareMem) listKind 10 false false 9 8192 s0 with (o, s', r) => r = Ok tt /\ existsb fails o = false /\ pDepth s' = 0 end.
Proof. vm_compute. auto. Qed.
(** an exception between ++depth and --depth of a type's printer is caught outside, and all later lines are indented once too often: here a list of two
    instances, the first of which has its dictionary pointer on an unreadable page *)
Definition leakMem : memory := region [(4096, typeBytes 20480 40 0 0 0); (4608, typeBytes 20480 24 0 512 4096); (5120, typeBytes 20480 24 0 0 0); (8192, w8 [1; 4096; 2; 12288; 2]); (12288, w8 [16384; 16416]); (16384, w8 [1; 4608; 0]); (16416, w8 [1; 5120; 9]); (20480, codes "C" ++ [0])].
Definition leakKind (t : Z) : option kind := if t =? 4096 then Some KList else if t =? 5120 then Some KInt else None.
Theorem C76_failure_refuted : byteMem leakMem /\ match print true py38 leakMem (strIn leakMem) leakKind 10 false false 9 8192 s0 with (o, s', r) =>
  r = Ok tt /\ pDepth s' = 1 /\ flat_map tokens o = [TLit ("[ " ++ nl); TPrefix 8; TStr [67]; TLit nl; TLit "(print failed)"; TLit ("," ++ nl); TPrefix 12; TNum 9; TLit ("," ++ nl); TPrefix 8; TLit "]"] end.
Proof. split; [|vm_compute; auto]. apply region_byte. repeat constructor; try (unfold isByte; vm_compute; intuition discriminate). Qed.
Print Assumptions C76_failure_refuted.

(** ** C77: objects whose type cannot be read are reported as failures *)
(** the first such object is; the second one of the same type uses the bytes that were allocated for the type and never filled in *)
Definition badTypeMem : memory := region [(4096, typeBytes 20480 40 0 0 0); (8192, w8 [1; 4096; 2; 12288; 2]); (12288, w8 [16384; 16416]); (16384, w8 [1; 999424; 0]); (16416, w8 [1; 999424; 0])].
Theorem C77_second_unreadable_type_refuted : byteMem badTypeMem /\
  match print true py38 badTypeMem (strIn badTypeMem) listKind 10 false false 9 16384 s0 with (o, s', r) =>
    r = Ok tt /\ flat_map tokens o = [TLit "(print failed)"] /\ match print true py38 badTypeMem (strIn badTypeMem) listKind 10 false false 9 16416 s' with (_, _, r') => r' = UB end end.
Proof. split; [|vm_compute; auto]. apply region_byte. repeat constructor; try (unfold isByte; vm_compute; intuition discriminate). Qed.
Print Assumptions C77_second_unreadable_type_refuted.
(** a type that the printer has not met and cannot read is reported, whatever the object *)
Theorem C77_first_reported_partial : forall v3 lay m str kindOf maxdepth doargs dolocals a t n s fuel, objectAt m a 24 t n -> t < W64 ->
  memread m t (Z.to_nat (lTypeSize lay)) = None -> find (fun e => fst e =? t) (pTypes s) = None -> pDepth s <= 10000 -> (1 <= fuel)%nat ->
  exists s', print v3 lay m str kindOf maxdepth doargs dolocals (S fuel) a s = ([Call a [Obj a []; Tok (TLit "(print failed)")]], s', Ok tt) /\ pDepth s' = pDepth s.
Proof.
  intros v3 lay m str kindOf maxdepth doargs dolocals a t n s fuel (Ha & Hs & R & (refs & Hr & F0) & F1 & F2 & Hn) Ht Hm Hk Hd Hf.
  destruct (rd_image m a 24 R ltac:(lia)) as (b & P & Im). replace a with (a + 0) in F0 by lia. pose proof (proj1 F1) as Rt. change (256 ^ Z.of_nat 8) with W64 in Rt.
  exists (deeper (mkPS (pDepth s + 1) (pVisited s) ((t, None) :: pTypes s)) (-1)). split; [|cbn; lia]. destruct fuel as [|fuel]; [lia|].
  set (pr := print v3 lay m str kindOf maxdepth doargs dolocals (S fuel)).
  assert (E : one v3 lay m str kindOf maxdepth doargs dolocals (S fuel) pr a (deeper s 1) = ([], mkPS (pDepth s + 1) (pVisited s) ((t, None) :: pTypes s), Throw)).
  { unfold one. rewrite (pure_bind _ _ _ _ P). rewrite (pure_bind _ refs _ _ (fldM_image m a _ b 0 8 refs Im F0 ltac:(lia) ltac:(lia))). rewrite (pure_bind _ t _ _ (fldM_image m a _ b 8 8 t Im F1 ltac:(lia) ltac:(lia))). rewrite (pure_bind _ (u64 n) _ _ (fldM_image m a _ b 16 8 _ Im F2 ltac:(lia) ltac:(lia))).
    replace (refs =? 0) with false by lia. rewrite (pure_bind (ret tt) tt _ _ (fun _ => eq_refl)). unfold bindM at 1, getType. rewrite typeFind_find. cbn [deeper pTypes]. rewrite Hk.
    unfold bindM at 1, setType. unfold bindM at 1, rd, lift. unfold u64. rewrite Z.mod_small by lia. rewrite Hm. reflexivity. }
  subst pr. set (f1 := S fuel) in *. change (print v3 lay m str kindOf maxdepth doargs dolocals (S f1) a s) with (group (Call a) (d <- getDepth; if d >? 10000 then lit ("too deep" ++ nl) else addDepth 1 ;; caught (loop v3 lay m str kindOf maxdepth doargs dolocals f1 (print v3 lay m str kindOf maxdepth doargs dolocals f1) f1 a) ;; addDepth (-1)) s).
  unfold group. rewrite getDepth_bind. replace (pDepth s >? 10000) with false by lia. rewrite depth_bind. unfold bindM, caught. unfold f1 at 3. cbn [loop]. replace (a =? 0) with false by lia. unfold bindM, group. rewrite E. reflexivity.
Qed.
Print Assumptions C77_first_reported_partial.
Example C77_nonvacuous : objectAt badTypeMem 16384 24 999424 0 /\ memread badTypeMem 999424 (Z.to_nat (lTypeSize py38)) = None.
Proof. split; [mem_solve|vm_compute; reflexivity]. Qed.

(** ** C78: threads *)
(** each thread state is shown at most once and at most 128 are, for every memory *)
Theorem C78_each_thread_once : forall v3 lay m str kindOf maxdepth doargs dolocals fuel frameOff nextOff size modules p s o s' r,
  printInterp v3 lay m str kindOf maxdepth doargs dolocals fuel (printThread v3 lay m str kindOf maxdepth doargs dolocals fuel frameOff nextOff size) modules p s = (o, s', r) ->
  NoDup (objs o) /\ (length (objs o) <= 128)%nat.
Proof.
  intros v3 lay m str kindOf maxdepth doargs dolocals fuel frameOff nextOff size modules p s o s' r E.
  assert (X : forall o, objs o = [] -> NoDup (objs o) /\ (length (objs o) <= 128)%nat) by (intros q ->; split; [constructor|cbn; lia]).
  unfold printInterp in E. unfold rd, fldM, lift, lit, emit, ret in E. unfold bindM at 1 in E. destruct (memread m (u64 p) (Z.to_nat 24)); [|injection E as <- _ _; now apply X].
  unfold bindM at 1 in E. destruct (fld l 0 8) as [next| | |]; try (injection E as <- _ _; now apply X). unfold bindM at 1 in E. destruct (fld l 8 8) as [head| | |]; try (injection E as <- _ _; now apply X).
  unfold bindM at 1 in E. destruct (fld l 16 8) as [mods| | |]; try (injection E as <- _ _; now apply X). unfold bindM at 1 2 3 4 in E.
  destruct (threads fuel _ [head] head s) as ((o1 & s1) & r1) eqn:Et. apply threads_once in Et as (T1 & _ & T2); [|now left|constructor; [intros []|constructor]|cbn; lia]. cbn in T2.
  assert (Y : forall q, objs q = objs o1 -> NoDup (objs q) /\ (length (objs q) <= 128)%nat) by (intros q ->; split; [exact T1|lia]).
  destruct r1 as [[]| | |]; try (injection E as <- _ _; apply Y; cbn [app]; rewrite ?objs_tok, ?app_nil_r; reflexivity).
  unfold bindM in E. destruct modules; [|injection E as <- _ _; apply Y; cbn [app]; rewrite ?objs_tok, ?app_nil_r; reflexivity].
  destruct (print v3 lay m str kindOf maxdepth doargs dolocals fuel mods s1) as ((o2 & s2) & r2) eqn:E2.
  assert (Z0 : objs o2 = []). { destruct fuel; [injection E2 as <- _ _; reflexivity|]. cbn [print] in E2. unfold group in E2. destruct ((_ <- _ ; _) _) as ((? & ?) & ?) in E2. injection E2 as <- _ _. reflexivity. }
  destruct r2 as [[]| | |]; injection E as <- _ _; apply Y; cbn [app]; rewrite ?objs_tok, ?objs_app, ?objs_tok, ?objs_app, ?Z0; cbn; rewrite ?app_nil_r; reflexivity.
Qed.
Print Assumptions C78_each_thread_once.
(** a null-terminated list of up to 128 thread states is shown completely and in order, and the result is the next interpreter *)
Theorem C78_all_threads : forall v3 lay m str kindOf maxdepth doargs dolocals fuel frameOff nextOff size modules p next head mods l s o s' x,
  0 <= frameOff -> frameOff + 8 <= size -> interpAt m p next head mods -> threadsAt m size nextOff l head -> (length l <= 128)%nat ->
  printInterp v3 lay m str kindOf maxdepth doargs dolocals fuel (printThread v3 lay m str kindOf maxdepth doargs dolocals fuel frameOff nextOff size) modules p s = (o, s', Ok x) ->
  objs o = l /\ x = next.
Proof.
  intros v3 lay m str kindOf maxdepth doargs dolocals fuel frameOff nextOff size modules p next head mods l s o s' x H1 H2 HI HT Hl E.
  destruct (printInterp_next _ _ _ _ _ _ _ _ _ _ _ _ _ _ _ _ _ _ _ HI E) as (-> & o1 & s1 & s2 & Et & ->). split; [|reflexivity].
  destruct (threads_nodup _ _ _ _ _ HT) as (Nd & N0). destruct l as [|t l]; [cbn in HT; subst head; destruct fuel; cbn in Et; [discriminate|now injection Et as <- <-]|].
  assert (Hh : head = t) by apply HT. subst head.
  assert (HN : forall t' n' s0 o0 s0' x0, readable m t' size -> 0 <= nextOff -> nextOff + 8 <= size -> field m (t' + nextOff) 8 n' -> printThread v3 lay m str kindOf maxdepth doargs dolocals fuel frameOff nextOff size t' s0 = (o0, s0', Ok x0) -> x0 = n').
  { intros t' n' q0 o0 q0' x0 R N1 N2 F E0. exact (printThread_next v3 lay m str kindOf maxdepth doargs dolocals fuel frameOff nextOff size t' n' q0 o0 q0' x0 H1 H2 R N1 N2 F E0). }
  rewrite (threads_list _ m size nextOff HN fuel (t :: l) [t] t s1 o1 s2 HT); [now apply firstn_all2| |cbn; lia|intros _; now exists []|exact Et].
  cbn [tl]. intros y Hy [<-|[]]. destruct Hy as [<-|Hy]; [apply N0; now left|inversion Nd; contradiction].
Qed.
Print Assumptions C78_all_threads.
(** and it always returns, also for cyclic and corrupt lists *)
Theorem C78_returns : forall v3 lay m str kindOf maxdepth doargs dolocals fuel n frameOff nextOff size head s, byteMem m -> (forall q, str q <> OutOfFuel) -> 0 <= frameOff -> 0 <= nextOff ->
  3 * W64 < Z.of_nat fuel -> (129 <= n)%nat -> NoDup (pVisited s) -> (forall x, In x (pVisited s) -> 0 <= x < W64) ->
  match threads n (printThread v3 lay m str kindOf maxdepth doargs dolocals fuel frameOff nextOff size) [head] head s with (_, _, r) => r <> OutOfFuel end.
Proof.
  intros v3 lay m str kindOf maxdepth doargs dolocals fuel n frameOff nextOff size head s Hm Hs Hf0 Hn0 Hf Hn Nd Hv.
  assert (HI : Inv s) by (split; [exact Nd|now apply Forall_forall]). clear Nd Hv.
  assert (HT : forall t st, Inv st -> match printThread v3 lay m str kindOf maxdepth doargs dolocals fuel frameOff nextOff size t st with (_, st', r) => Inv st' /\ r <> OutOfFuel end).
  { intros t st Hst. assert (Tm : T st <= W64) by (unfold T; pose proof (zlen_nonneg (pVisited st)); lia).
    assert (G0 : G W64 (printThread v3 lay m str kindOf maxdepth doargs dolocals fuel frameOff nextOff size t) (fun _ => True)).
    { unfold printThread. eapply G_bind; [now apply G_rd|intros b Hb]. cbv beta in Hb. eapply G_bind; [apply G_fld; [exact Hb|lia]|intros f Hfr]. cbv beta in Hfr. eapply G_bind; [apply G_fld; [exact Hb|lia]|intros x _]. eapply G_bind; [apply G_lit|intros _ _].
      eapply G_bind; [apply (print_term v3 lay m Hm str Hs kindOf maxdepth doargs dolocals (Z.to_nat W64) W64 fuel); [unfold W64; lia|lia|exact Hfr]|intros _ _]. now apply G_ret. }
    specialize (G0 st Hst Tm). destruct (printThread v3 lay m str kindOf maxdepth doargs dolocals fuel frameOff nextOff size t st) as ((o & st') & r). destruct G0 as (G1 & _ & G2). split; [exact G1|]. now destruct r. }
  clear Hf. revert HT. generalize (printThread v3 lay m str kindOf maxdepth doargs dolocals fuel frameOff nextOff size). intros th HT.
  assert (X : forall n seen t st, Inv st -> Z.of_nat (length seen) + Z.of_nat n > 129 -> (1 <= n)%nat -> match threads n th seen t st with (_, _, r) => r <> OutOfFuel end).
  { clear - HT. induction n as [|n IH]; intros seen t st Hst L Ln; [lia|]. cbn [threads]. destruct (t =? 0); [cbn; discriminate|]. unfold bindM at 1, group. specialize (HT t st Hst) as Hx. destruct (th t st) as ((o1 & s1) & [t'| | |]); try discriminate; [|now destruct Hx].
    destruct Hx as (Hs1 & _). destruct (existsb _ _); [cbn; discriminate|]. destruct (_ >? 128) eqn:Eg; [cbn; discriminate|]. unfold bindM, lit, emit. specialize (IH (t' :: seen) t' s1 Hs1). destruct (threads n th (t' :: seen) t' s1) as ((o2 & s2) & [[]| | |]); try discriminate. apply IH; cbn [length]; lia. }
  apply X; [exact HI|change (length [head]) with 1%nat; lia|lia].
Qed.
Print Assumptions C78_returns.
Definition threadMem (last : Z) : memory := region [(8192, w8 [0; 12288; 0]); (12288, w8 [16384; 0; 0; 0]); (16384, w8 [last; 0; 0; 0]); (4096, w8 [8192])].
Example C78_nonvacuous : interpAt (threadMem 0) 8192 0 12288 0 /\ threadsAt (threadMem 0) 32 0 [12288; 16384] 12288 /\
  match printInterp true py38 (threadMem 0) (strIn (threadMem 0)) listKind 10 false false 200 (printThread true py38 (threadMem 0) (strIn (threadMem 0)) listKind 10 false false 9 24 0 32) false 8192 s0 with (o, _, r) => r = Ok 0 /\ objs o = [12288; 16384] end /\
  match printInterp true py38 (threadMem 12288) (strIn (threadMem 0)) listKind 10 false false 200 (printThread true py38 (threadMem 12288) (strIn (threadMem 0)) listKind 10 false false 9 24 0 32) false 8192 s0 with (o, _, r) => r = Ok 0 /\ objs o = [12288; 16384] end.
Proof.
  split; [unfold interpAt; mem_solve|]. split; [|vm_compute; auto]. cbn [threadsAt]. split; [reflexivity|]. split; [discriminate|]. split; [mem_solve|]. split; [lia|]. split; [lia|]. exists 16384. split; [mem_solve|]. split; [reflexivity|]. split; [discriminate|]. split; [mem_solve|]. split; [lia|]. split; [lia|]. exists 0. split; [mem_solve|reflexivity].
Qed.

(** ** C79: interpreters *)
(** a null-terminated list of interpreters is reported completely, in order *)
Theorem C79_all_interpreters : forall v3 lay m str kindOf maxdepth doargs dolocals fuel thread modules head p l s o s',
  readable m head 8 -> field m head 8 p -> interpsAt m l p ->
  printInterpreters v3 lay m str kindOf maxdepth doargs dolocals fuel thread modules head s = (o, s', Ok tt) -> calls o = l.
Proof.
  intros v3 lay m str kindOf maxdepth doargs dolocals fuel thread modules head p l s o s' R F HI. unfold printInterpreters. destruct (rd_image m head 8 R ltac:(lia)) as (b & P & Im). rewrite (pure_bind _ _ _ _ P). replace head with (head + 0) in F by lia.
  rewrite (pure_bind _ p _ _ (fldM_image m _ _ b 0 8 _ Im F ltac:(lia) ltac:(lia))). apply interpLoop_list. exact HI.
Qed.
Print Assumptions C79_all_interpreters.
Example C79_nonvacuous : interpsAt (threadMem 0) [8192] 8192 /\ readable (threadMem 0) 4096 8 /\ field (threadMem 0) 4096 8 8192 /\
  match printInterpreters true py38 (threadMem 0) (strIn (threadMem 0)) listKind 10 false false 200 (printThread true py38 (threadMem 0) (strIn (threadMem 0)) listKind 10 false false 9 24 0 32) false 4096 s0 with (o, _, r) => r = Ok tt /\ calls o = [8192] end.
Proof. split; [|split; [mem_solve|split; [mem_solve|vm_compute; auto]]]. split; [reflexivity|]. exists 0, 12288, 0. split; [unfold interpAt; mem_solve|reflexivity]. Qed.
(** an interpreter that is its own successor (a corrupt core, or a process caught in between) is printed for ever *)
Theorem C79_cycle_refuted : exists m head, byteMem m /\ forall str kindOf maxdepth doargs dolocals fuel thread s,
  match printInterpreters true py38 m str kindOf maxdepth doargs dolocals fuel thread false head s with (_, _, r) => r = OutOfFuel end.
Proof.
  set (m := region [(8192, w8 [8192; 0; 0]); (4096, w8 [8192])]). exists m, 4096. split; [apply region_byte; repeat constructor; try (unfold isByte; vm_compute; intuition discriminate)|].
  intros str kindOf maxdepth doargs dolocals fuel thread s. assert (HI : interpAt m 8192 8192 0 0) by (unfold interpAt, m; mem_solve). assert (R : readable m 4096 8) by (unfold m; mem_solve). assert (F : field m (4096 + 0) 8 8192) by (unfold m; mem_solve).
  clearbody m. unfold printInterpreters. destruct (rd_image m 4096 8 R ltac:(lia)) as (b & P & Im). rewrite (pure_bind _ _ _ _ P). rewrite (pure_bind _ 8192 _ _ (fldM_image m _ _ b 0 8 _ Im F ltac:(lia) ltac:(lia))).
  destruct fuel as [|fuel]; [reflexivity|]. destruct (interp_cycle true py38 m str kindOf maxdepth doargs dolocals (S fuel) thread 8192 HI ltac:(lia) (S fuel) s) as (o & s' & E). rewrite E. reflexivity.
Qed.
Print Assumptions C79_cycle_refuted.

(** ** C80: lists and tuples *)
(** a list shows its elements in order, but only the first hundred, and nothing says that there are more *)
Theorem C80_list_partial : forall v3 lay m str kindOf maxdepth doargs dolocals a size t name flags dictoff n items l s fuel o s',
  32 <= size -> objectAt m a size t n -> typeAt m lay t name size 0 flags dictoff -> kindOf t = Some KList -> field m (a + 24) 8 items -> zlen l = n -> pointersAt m items l ->
  typeKnown s t name size 0 flags dictoff -> ~ In a (pVisited s) -> pDepth s <= 10000 ->
  print v3 lay m str kindOf maxdepth doargs dolocals (S fuel) a s = (o, s', Ok tt) ->
  exists body, o = [Call a [Obj a body]] /\ calls body = firstn 100 l.
Proof.
  intros v3 lay m str kindOf maxdepth doargs dolocals a size t name flags dictoff n items l s fuel o s' Sz HO HT Hk Fi Ll HP K Hv Hd E.
  apply (print_calls v3 lay m str kindOf maxdepth doargs dolocals fuel a s o s'); auto; [apply HO|]. pose proof HO as (_ & _ & _ & _ & _ & F2 & Hn).
  replace size with (size + 0 * Z.abs n) in HO by lia.
  destruct (one_at v3 lay m str kindOf maxdepth doargs dolocals fuel (print v3 lay m str kindOf maxdepth doargs dolocals fuel) a t KList name size 0 flags dictoff n (deeper s 1)) as (buf & Im & E1); try assumption; try lia; [intros _; exact Hv|].
  rewrite E1. cbn [runPrinter]. exact (list_ct v3 lay m str kindOf maxdepth doargs dolocals fuel buf a (size + 0 * Z.abs n) n items l Im ltac:(lia) F2 Fi Ll ltac:(lia) HP _).
Qed.
Print Assumptions C80_list_partial.
Theorem C80_tuple_partial : forall v3 lay m str kindOf maxdepth doargs dolocals a t name flags dictoff n l s fuel o s',
  objectAt m a (24 + 8 * Z.abs n) t n -> typeAt m lay t name 24 8 flags dictoff -> kindOf t = Some KTuple -> zlen l = n -> n <= 65536 -> pointersAt m (a + 24) l ->
  typeKnown s t name 24 8 flags dictoff -> ~ In a (pVisited s) -> pDepth s <= 10000 ->
  print v3 lay m str kindOf maxdepth doargs dolocals (S fuel) a s = (o, s', Ok tt) ->
  exists body, o = [Call a [Obj a body]] /\ calls body = firstn 100 l.
Proof.
  intros v3 lay m str kindOf maxdepth doargs dolocals a t name flags dictoff n l s fuel o s' HO HT Hk Ll Hm HP K Hv Hd E. pose proof (zlen_nonneg l).
  apply (print_calls v3 lay m str kindOf maxdepth doargs dolocals fuel a s o s'); auto; [apply HO|]. pose proof HO as (_ & _ & _ & _ & _ & F2 & Hn).
  destruct (one_at v3 lay m str kindOf maxdepth doargs dolocals fuel (print v3 lay m str kindOf maxdepth doargs dolocals fuel) a t KTuple name 24 8 flags dictoff n (deeper s 1)) as (buf & Im & E1); try assumption; try lia; [intros _; exact Hv|].
  rewrite E1. cbn [runPrinter]. exact (tuple_ct v3 lay m str kindOf maxdepth doargs dolocals fuel buf a (24 + 8 * Z.abs n) n l Im ltac:(lia) F2 Ll ltac:(lia) HP _).
Qed.
Print Assumptions C80_tuple_partial.
Example C80_nonvacuous : objectAt shareMem 8192 40 4096 3 /\ typeAt shareMem py38 4096 20480 40 0 0 0 /\ pointersAt shareMem 12288 [16384; 16384; 16384] /\ objectAt shareMem 16384 32 5120 1 /\ typeAt shareMem py38 5120 20480 24 8 0 0 /\ pointersAt shareMem (16384 + 24) [16448] /\
  match print true py38 shareMem (strIn shareMem) listKind 10 false false 9 8192 s0 with (o, _, r) => r = Ok tt end.
Proof.
  split; [mem_solve|]. split; [mem_solve|]. split; [split; [mem_solve|]; intros i p Hp; destruct i as [|[|[|i]]]; cbn in Hp; try (destruct i; discriminate); injection Hp as <-; mem_solve|].
  split; [mem_solve|]. split; [mem_solve|]. split; [split; [mem_solve|]; intros i p Hp; destruct i as [|i]; cbn in Hp; try (destruct i; discriminate); injection Hp as <-; mem_solve|]. vm_compute. reflexivity.
Qed.
(** so a list of more elements is not shown completely *)
Theorem C80_long_list_refuted : forall v3 lay m str kindOf maxdepth doargs dolocals a size t name flags dictoff n items l s fuel o s',
  32 <= size -> objectAt m a size t n -> typeAt m lay t name size 0 flags dictoff -> kindOf t = Some KList -> field m (a + 24) 8 items -> zlen l = n -> pointersAt m items l ->
  typeKnown s t name size 0 flags dictoff -> ~ In a (pVisited s) -> pDepth s <= 10000 -> 100 < n ->
  print v3 lay m str kindOf maxdepth doargs dolocals (S fuel) a s = (o, s', Ok tt) -> exists body, o = [Call a [Obj a body]] /\ calls body <> l.
Proof.
  intros v3 lay m str kindOf maxdepth doargs dolocals a size t name flags dictoff n items l s fuel o s' Sz HO HT Hk Fi Ll HP K Hv Hd Hn E.
  destruct (C80_list_partial _ _ _ _ _ _ _ _ _ _ _ _ _ _ _ _ _ _ _ _ _ Sz HO HT Hk Fi Ll HP K Hv Hd E) as (body & -> & Hc). exists body. split; [reflexivity|]. rewrite Hc. intros X. apply (f_equal (@length Z)) in X. rewrite firstn_length in X. unfold zlen in Ll. lia.
Qed.
Print Assumptions C80_long_list_refuted.

(** ** C81: the argument list of a frame is a balanced pair of parentheses *)
(** it never is: "=(" is written unconditionally, and only one ")" *)
Theorem C81_arguments_unbalanced_refuted : forall v3 lay m str kindOf maxdepth dolocals t name basic item flags dictoff f back s fuel o s',
  okLayout lay -> typeAt m lay t name basic item flags dictoff -> kindOf t = Some KFrame -> frameAt v3 m lay str t basic item f back ->
  typeKnown s t name basic item flags dictoff -> ~ In (fAddr f) (pVisited s) -> pDepth s <= 10000 ->
  print v3 lay m str kindOf maxdepth true dolocals (S fuel) (fAddr f) s = (o, s', Ok tt) -> existsb fails o = false ->
  exists args post rest, o = [Call (fAddr f) (Obj (fAddr f)
    (map Tok [TPrefix (u64 ((pDepth s + 1) * 4) mod 301); TStr (fFunc f)] ++ args ++
     map Tok [TLit " in "; TStr (fFile f); TLit ":"; TNum (lineOf (fFirst f) (fLasti f) (fTable f)); TLit nl] ++ post) :: rest)] /\
    ownCount "("%char args = 2%nat /\ ownCount ")"%char args = 1%nat.
Proof.
  intros v3 lay m str kindOf maxdepth dolocals t name basic item flags dictoff f back s fuel o s' OL HT Hk HF K Hv Hd E Hf.
  assert (Ha : fAddr f <> 0) by (destruct HF as (? & ? & ? & (X & _) & _); exact X). destruct (print_first _ _ _ _ _ _ _ _ _ _ _ _ _ Ha Hd E Hf) as (ob & s1 & b & rest & E1 & ->).
  destruct (frame_line v3 lay m str kindOf maxdepth true dolocals fuel _ t name basic item flags dictoff f back (deeper s 1) ob s1 b OL HF HT K Hk Hv E1) as (_ & mid & post & -> & fb & q1 & q2 & Ea). exists mid, post, rest. split; [reflexivity|].
  exact (PC_arguments v3 lay m str (print v3 lay m str kindOf maxdepth true dolocals fuel) (PC_print v3 lay m str kindOf maxdepth true dolocals fuel) fb (fAddr f) _ _ _ _ Ea).
Qed.
Print Assumptions C81_arguments_unbalanced_refuted.
(** a function without arguments prints as "inner(=() in a.py:13" *)
Example C81_nonvacuous : match print true py38 exMem (strIn exMem) exKind 10 true false 9 9216 s0 with (o, _, r) => r = Ok tt /\ existsb fails o = false /\
  flat_map tokens o = [TPrefix 4; TStr (codes "outer"); TLit "("; TLit "=("; TLit ")"; TLit " in "; TStr (codes "a.py"); TLit ":"; TNum 18; TLit nl] end.
Proof. vm_compute. auto. Qed.

(** ** C82: strings *)
(** a compact ASCII string (Python 3), and any string of Python 2, prints as its text between quotes *)
Theorem C82_strings_partial : forall v3 lay m str kindOf maxdepth doargs dolocals a size t name flags dictoff n text s fuel,
  objectAt m a size t n -> typeAt m lay t name size 0 flags dictoff -> kindOf t = Some KString -> typeKnown s t name size 0 flags dictoff -> stringAt v3 m str a text -> pDepth s <= 10000 -> (2 <= fuel)%nat ->
  exists s', print v3 lay m str kindOf maxdepth doargs dolocals (S fuel) a s = ([Call a [Obj a (map Tok [TLit """"; TStr text; TLit """"])]], s', Ok tt).
Proof.
  intros v3 lay m str kindOf maxdepth doargs dolocals a size t name flags dictoff n text s fuel HO HT Hk K HS Hd Hf. pose proof HO as (Ha & Hs & _). replace size with (size + 0 * Z.abs n) in HO by lia.
  destruct (one_at v3 lay m str kindOf maxdepth doargs dolocals fuel (print v3 lay m str kindOf maxdepth doargs dolocals fuel) a t KString name size 0 flags dictoff n (deeper s 1)) as (buf & Im & E1); try assumption; try lia; try discriminate.
  eexists. apply print_one; auto. rewrite E1. cbn [runPrinter]. unfold stringPrinter. rewrite (pure_bind _ _ _ _ (pyString_ok v3 m str kindOf a _ HS)). reflexivity.
Qed.
Print Assumptions C82_strings_partial.
Definition strMem : memory := region [(4096, typeBytes 20480 48 0 0 0); (8192, asciiObj "hello"); (9216, w8 [1; 4096; 2; 0; 132; 0; 0; 0; 0; 12345664]); (12345664, codes "hi" ++ [0])].
Definition strKind (t : Z) : option kind := if t =? 4096 then Some KString else None.
Example C82_nonvacuous : stringAt true exMem (strIn exMem) 16640 (codes "inner").
Proof. split; [lia|]. split; [unfold W64; lia|]. cbv iota. split; [mem_solve|]. split; [vm_compute; reflexivity|]. exists 228. mem_solve. Qed.
(** a string that is not compact keeps its characters elsewhere: the bytes of the pointer to them are printed instead ("hi" prints as "a" here) *)
Theorem C82_pointer_printed_refuted : field strMem (9216 + 72) 8 12345664 /\ strIn strMem 12345664 = Ok (codes "hi") /\
  match print true py38 strMem (strIn strMem) strKind 10 false false 9 9216 s0 with (o, _, r) => r = Ok tt /\ flat_map tokens o = [TLit """"; TStr [64; 97; 188]; TLit """"] end.
Proof. split; [mem_solve|]. split; vm_compute; auto. Qed.
Print Assumptions C82_pointer_printed_refuted.
