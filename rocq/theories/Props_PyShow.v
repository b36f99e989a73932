(** Theorems about the text of Python values, arguments and local variables: C166 and C167.  Objects are described in PythonSpec.v, text in PyShowSpec.v. *)
From Coq Require Import Ascii String.
From Verif Require Import Base ElfHash ElfHashProofs Cache CacheProofs CfiSpec CfiProofs Python PythonSpec PythonProofs PythonProofs2 PythonProofs3 PythonProofs4 PyShowSpec PyShowProofs Props_Python.

(** ** C166: values *)
(** floats, small integers, booleans, types, classes, modules, instances and lists of up to a hundred elements *)
Theorem C166_values_partial : forall v3 lay m str kindOf maxdepth doargs dolocals a size t k name flags dictoff n ps s fuel o s',
  objectAt m a size t n -> typeAt m lay t name size 0 flags dictoff -> kindOf t = Some k -> showsAs v3 m str a size k ps ->
  typeKnown s t name size 0 flags dictoff -> ~ In a (pVisited s) -> pDepth s <= 10000 ->
  print v3 lay m str kindOf maxdepth doargs dolocals (S fuel) a s = (o, s', Ok tt) ->
  exists body, o = [Call a [Obj a body]] /\ pieces body = ps.
Proof.
  intros v3 lay m str kindOf maxdepth doargs dolocals a size t k name flags dictoff n ps s fuel o s' HO HT Hk HS K Hv Hd E.
  apply (print_pieces v3 lay m str kindOf maxdepth doargs dolocals fuel a s o s'); auto; [apply HO|]. pose proof HO as (_ & Sz & _). replace size with (size + 0 * Z.abs n) in HO by lia.
  destruct (one_at v3 lay m str kindOf maxdepth doargs dolocals fuel (print v3 lay m str kindOf maxdepth doargs dolocals fuel) a t k name size 0 flags dictoff n (deeper s 1)) as (buf & Im & E1); try assumption; try lia; [intros _; exact Hv|].
  rewrite E1. replace (size + 0 * Z.abs n) with size in Im by lia. generalize (marked k a (addType (deeper s 1) t (mkPT name size 0 flags (s64 dictoff)))) as st. clear E1 E. intros st. revert st.
  inversion HS; subst; cbn [runPrinter].
  - eapply float_sh; eassumption.
  - change (v mod 2 ^ 64) with (u64 v) in *. eapply int_sh; eassumption.
  - eapply bool_sh; eassumption.
  - eapply type_sh; eassumption.
  - eapply class_sh; eassumption.
  - eapply module_sh; eassumption.
  - eapply instance_sh; eassumption.
  - rewrite <- (firstn_all2 (n := 100) l) by (unfold zlen in *; lia). pose proof (zlen_nonneg l). eapply list_sh; try eassumption; try reflexivity; [|lia]. rewrite u64_id; [assumption|unfold isU64, W64; lia].
Qed.
Print Assumptions C166_values_partial.
(** objects of a class defined in Python show the name of the class and their attributes *)
Theorem C166_objects_partial : forall v3 lay m str kindOf maxdepth doargs dolocals a size t name flags dictoff n text d s fuel o s',
  objectAt m a size t n -> typeAt m lay t name size 0 flags dictoff -> kindOf t = None -> Z.testbit flags 9 = true -> str name = Ok text -> text <> codes "NoneType" ->
  dictoff < 2 ^ 62 -> (0 < dictoff -> readable m (a + dictoff) 8 /\ field m (a + dictoff) 8 d) ->
  typeKnown s t name size 0 flags dictoff -> ~ In a (pVisited s) -> pDepth s <= 10000 ->
  print v3 lay m str kindOf maxdepth doargs dolocals (S fuel) a s = (o, s', Ok tt) ->
  exists body, o = [Call a [Obj a body]] /\ pieces body = Text (TStr text) :: if dictoff =? 0 then [] else [txt newline; Value d; txt newline].
Proof.
  intros v3 lay m str kindOf maxdepth doargs dolocals a size t name flags dictoff n text d s fuel o s' HO HT Hk Hf Es Hn Hdo Hdi K Hv Hd E.
  apply (print_pieces v3 lay m str kindOf maxdepth doargs dolocals fuel a s o s'); auto; [apply HO|]. assert (Hr : 0 <= name < 2 ^ 64 /\ 0 <= dictoff) by (destruct HT as (_ & _ & (X & _) & _ & _ & _ & (Y & _)); split; [exact X|apply Y]).
  rewrite (one_heap v3 lay m str kindOf maxdepth doargs dolocals fuel _ a t name size flags dictoff n (deeper s 1) text HO HT K Hk Hf Es); [|apply beq_neq; intros X; apply Hn; rewrite X; reflexivity|exact Hv].
  set (ty := mkPT name size 0 flags (s64 dictoff)). replace (dictoff =? 0) with (negb (tDictoff ty >? 0)) by (cbn [ty tDictoff]; rewrite s64_small by lia; lia).
  generalize (marked KHeap a (addType (deeper s 1) t ty)). replace (if negb _ then [] else _) with (if tDictoff ty >? 0 then [txt newline; Value d; txt newline] else []) by now destruct (_ >? _).
  apply heap_sh; [cbn [ty tName]; rewrite u64_id by (unfold isU64, W64; lia); exact Es|]. cbn [ty tDictoff]. rewrite s64_small by lia. intros; apply Hdi; lia.
Qed.
Print Assumptions C166_objects_partial.
(** None *)
Theorem C166_none : forall v3 lay m str kindOf maxdepth doargs dolocals a size t name flags dictoff n s fuel,
  objectAt m a size t n -> typeAt m lay t name size 0 flags dictoff -> kindOf t = None -> str name = Ok (codes "NoneType") ->
  typeKnown s t name size 0 flags dictoff -> pDepth s <= 10000 -> (2 <= fuel)%nat ->
  exists s', print v3 lay m str kindOf maxdepth doargs dolocals (S fuel) a s = ([Call a [Obj a [Tok (TLit "None")]]], s', Ok tt).
Proof.
  intros v3 lay m str kindOf maxdepth doargs dolocals a size t name flags dictoff n s fuel HO HT Hk Es K Hd Hf.
  destruct (one_none v3 lay m str kindOf maxdepth doargs dolocals fuel (print v3 lay m str kindOf maxdepth doargs dolocals fuel) a t name size flags dictoff n (deeper s 1) _ HO HT K Hk Es ltac:(reflexivity)) as (s1 & E).
  eexists. apply print_one; auto; [apply HO|exact E].
Qed.
Print Assumptions C166_none.
(** a float (1.5), a class, an instance of it and None *)
Definition valMem : memory := region
  [(4096, typeBytes 20480 24 0 0 0); (4608, typeBytes 20480 40 0 0 0); (5120, typeBytes 20480 32 0 0 0); (5632, typeBytes 20992 24 0 0 0); (6144, typeBytes 21504 32 0 512 24);
   (8192, w8 [1; 4096; 4609434218613702656]); (8256, w8 [1; 4608; 0; 0; 8192]); (8320, w8 [1; 5120; 8256; 8192]); (8384, w8 [1; 5632; 0]); (8448, w8 [1; 6144; 0; 8192]);
   (20480, codes "x" ++ [0]); (20992, codes "NoneType" ++ [0]); (21504, codes "Point" ++ [0])].
Definition valKind (t : Z) : option kind := if t =? 4096 then Some KFloat else if t =? 4608 then Some KClass else if t =? 5120 then Some KInstance else None.
Example C166_nonvacuous :
  (objectAt valMem 8192 24 4096 4609434218613702656 /\ typeAt valMem py38 4096 20480 24 0 0 0 /\ showsAs true valMem (strIn valMem) 8192 24 KFloat [Text (TFloat 4609434218613702656)]) /\
  (objectAt valMem 8256 40 4608 0 /\ typeAt valMem py38 4608 20480 40 0 0 0 /\ showsAs false valMem (strIn valMem) 8256 40 KClass [txt "<class "; Value 8192; txt ">"]) /\
  (objectAt valMem 8384 24 5632 0 /\ typeAt valMem py38 5632 20992 24 0 0 0 /\ strIn valMem 20992 = Ok (codes "NoneType")) /\
  (objectAt valMem 8448 32 6144 0 /\ typeAt valMem py38 6144 21504 32 0 512 24 /\ field valMem (8448 + 24) 8 8192) /\
  match print false py38 valMem (strIn valMem) valKind 10 false false 9 8320 s0 with (o, _, r) => r = Ok tt /\
    flat_map tokens o = [TLit nl; TPrefix 8; TLit "class: "; TLit "<class "; TFloat 4609434218613702656; TLit ">"; TLit nl; TPrefix 8; TLit ("dict: " ++ nl); TFloat 4609434218613702656] end /\
  match print true py38 valMem (strIn valMem) valKind 10 false false 9 8448 s0 with (o, _, r) => r = Ok tt /\ flat_map tokens o = [TStr (codes "Point"); TLit nl; TFloat 4609434218613702656; TLit nl] end.
Proof.
  split; [split; [mem_solve|split; [mem_solve|apply sFloat; [lia|mem_solve]]]|]. split; [split; [mem_solve|split; [mem_solve|apply sClass; [lia|mem_solve]]]|]. split; [split; [mem_solve|split; [mem_solve|reflexivity]]|]. split; [split; [mem_solve|split; mem_solve]|]. vm_compute. auto.
Qed.

(** ** C167: arguments and local variables *)
(** a frame shows its function, its arguments if asked for, its position, and if asked for each local variable, cell and free variable with its own value *)
Theorem C167_frame_partial : forall v3 lay m str kindOf maxdepth doargs dolocals t name basic item flags dictoff f back c v xs kn dn s fuel o s',
  okLayout lay -> okLayout2 lay -> typeAt m lay t name basic item flags dictoff -> kindOf t = Some KFrame -> frameAt v3 m lay str t basic item f back ->
  field m (fAddr f + 32) 8 c -> varsAt v3 m lay c (fAddr f) v -> argsAt v3 m str v xs kn dn ->
  typeKnown s t name basic item flags dictoff -> ~ In (fAddr f) (pVisited s) -> pDepth s <= 10000 ->
  print v3 lay m str kindOf maxdepth doargs dolocals (S fuel) (fAddr f) s = (o, s', Ok tt) ->
  exists body rest, o = [Call (fAddr f) (Obj (fAddr f) body :: rest)] /\ pieces body = frameShow doargs dolocals f v xs kn dn.
Proof.
  intros v3 lay m str kindOf maxdepth doargs dolocals t name basic item flags dictoff f back c v xs kn dn s fuel o s' OL OL2 HT Hk HF Fc HV HA K Hv Hd E.
  assert (Ha : fAddr f <> 0) by (destruct HF as (? & ? & ? & (X & _) & _); exact X). apply (print_pieces1 v3 lay m str kindOf maxdepth doargs dolocals fuel (fAddr f) s o s'); auto. eapply frame_sh; eassumption.
Qed.
Print Assumptions C167_frame_partial.
(** Python 2.7: "def f(x, *args, **kw)" with a local y, a cell c and a free variable d *)
Definition str2 (s : string) : list Z := w8 [1; 5120; 0; 0] ++ [0; 0; 0; 0] ++ codes s ++ blank 12.
Definition frame27Mem : memory := region
  [(4096, typeBytes 20480 376 8 0 0); (4608, typeBytes 20480 24 0 0 0); (5120, typeBytes 20480 40 0 0 0);
   (8192, w8 (putw 0 1 (putw 1 4096 (putw 2 6 (putw 4 12288 (putw 7 16512 (putw 15 4 (firstn 47 (blank 53)))))) ++ [16384; 13696; 16416; 16416; 16448; 16480])));
   (12288, w8 (putw 2 (1 + 4294967296 * 4) (putw 3 (4294967296 * 12) (putw 7 13312 (putw 8 13568 (putw 9 13440 (putw 10 17408 (putw 11 17472 (putw 12 10 (putw 13 17536 (blank 15)))))))))));
   (13312, w8 [1; 0; 4; 17600; 17664; 17728; 17792]); (13440, w8 [1; 0; 1; 17856]); (13568, w8 [1; 0; 1; 17920]); (13696, w8 [1; 5632; 2; 16384; 16416]); (5632, typeBytes 20480 24 8 0 0);
   (16384, w8 [1; 4608; 77; 0]); (16416, w8 [1; 4608; 88; 0]); (16448, w8 [1; 4608; 99; 0]); (16480, w8 [1; 4608; 5; 0]); (16512, w8 [1; 4608; 6; 0]);
   (17408, str2 "a.py"); (17472, str2 "f"); (17536, w8 [1; 0; 4; 0] ++ [0; 0; 0; 0] ++ [0; 1; 2; 3]); (17600, str2 "x"); (17664, str2 "args"); (17728, str2 "kw"); (17792, str2 "y"); (17856, str2 "c"); (17920, str2 "d")].
Definition kind27 (t : Z) : option kind := if t =? 4096 then Some KFrame else if t =? 4608 then Some KInt else if t =? 5120 then Some KString else if t =? 5632 then Some KTuple else None.
Definition frame27 : pyframe := mkPF 8192 (codes "f") (codes "a.py") 10 4 [(0, 1); (2, 3)].
Definition vars27 : pyvars := mkPV [17600; 17664; 17728; 17792] [16384; 13696; 16416; 16416] [17856] [16448] [17920] [16480] 1 0 true true 16512.
Ltac ptr_solve := split; [mem_solve|let i := fresh in let p := fresh in let H := fresh in intros i p H; repeat (destruct i as [|i]; [cbn in H; injection H as <-; mem_solve|cbn in H]); destruct i; discriminate].
Ltac tup_solve := split; [mem_solve|split; [mem_solve|ptr_solve]].
Ltac str_solve := split; [lia|]; split; [unfold W64; lia|]; reflexivity.
Example C167_premises : okLayout2 py27 /\ okLayout2 py38 /\ typeAt frame27Mem py27 4096 20480 376 8 0 0 /\ frameAt false frame27Mem py27 (strIn frame27Mem) 4096 376 8 frame27 0 /\
  field frame27Mem (8192 + 32) 8 12288 /\ varsAt false frame27Mem py27 12288 8192 vars27 /\ argsAt false frame27Mem (strIn frame27Mem) vars27 [16384; 16416] [] (codes "kw").
Proof.
  split; [split; [cbn; lia|cbn; repeat constructor; lia]|]. split; [split; [cbn; lia|cbn; repeat constructor; lia]|]. split; [mem_solve|]. split.
  { exists 6, 12288, 16512. split; [mem_solve|]. split; [lia|]. split; [lia|]. split; [cbn; lia|]. split; [mem_solve|]. split; [mem_solve|]. split; [mem_solve|]. split; [lia|]. split; [mem_solve|]. split; [cbn; lia|].
    split; [mem_solve|]. split; [exists 17472; split; [mem_solve|str_solve]|]. split; [exists 17408; split; [mem_solve|str_solve]|]. split; [|split; [mem_solve|cbn; lia]].
    exists 17536. split; [mem_solve|]. split; [mem_solve|]. split; [mem_solve|]. split; [mem_solve|]. split; [vm_compute; reflexivity|]. repeat constructor; cbn; lia. }
  split; [mem_solve|]. split.
  { split; [exists 13312; split; [mem_solve|tup_solve]|]. split; [exists 13440; split; [mem_solve|tup_solve]|]. split; [exists 13568; split; [mem_solve|tup_solve]|]. split; [mem_solve|]. split; [ptr_solve|].
    do 3 (split; [reflexivity|]). do 3 (split; [mem_solve|]). split; [mem_solve|]. split; [reflexivity|]. split; [exists 12; split; [mem_solve|split; reflexivity]|]. split; [cbn; lia|mem_solve]. }
  split; [intros _; exists 13696; split; [reflexivity|split; [tup_solve|vm_compute; reflexivity]]|]. split; [cbn; lia|]. split; [constructor|]. intros _. exists 17728. split; [reflexivity|str_solve].
Qed.
Definition nameToks (s : string) : list tok := [TLit """"; TStr (codes s); TLit """"; TLit "="].
Example C167_nonvacuous : match print false py27 frame27Mem (strIn frame27Mem) kind27 10 true true 9 8192 s0 with (o, _, r) => r = Ok tt /\
  flat_map tokens o = [TPrefix 4; TStr (codes "f"); TLit "("; TNum 77; TLit ", "; TLit "=("; TLit """"; TStr (codes "args"); TLit """"; TLit ", "; TNum 77; TLit ", "; TNum 88; TLit ", "; TStr (codes "kw"); TLit "="; TNum 88; TLit ")";
    TLit " in "; TStr (codes "a.py"); TLit ":"; TNum 14; TLit nl;
    TPrefix 8; TLit ("fastlocals:" ++ nl); TPrefix 12] ++ nameToks "x" ++ [TNum 77; TLit nl; TPrefix 12] ++ nameToks "args" ++ [TLit ("( " ++ nl); TPrefix 20; TNum 77; TLit ("," ++ nl); TPrefix 20; TNum 88; TLit ("," ++ nl); TPrefix 16; TLit (")" ++ nl); TLit nl;
    TPrefix 12] ++ nameToks "kw" ++ [TNum 88; TLit nl; TPrefix 12] ++ nameToks "y" ++ [TNum 88; TLit nl; TPrefix 8; TLit ("cells:" ++ nl); TPrefix 12] ++ nameToks "c" ++ [TNum 99; TLit nl; TPrefix 8; TLit ("freevars:" ++ nl);
    TPrefix 12] ++ nameToks "d" ++ [TNum 5; TLit nl; TPrefix 8; TLit ("locals:" ++ nl); TNum 6] end.
Proof. vm_compute. auto. Qed.
