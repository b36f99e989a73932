(** Properties C29-C34, C58: ELF hash tables, segments, notes, symbols by address, sections by name. *)
From Coq Require Import Sorting.Sorted Sorting.Permutation.
From Verif Require Import Base ReaderSpec DwarfReader CfiSpec Cfi CfiProofs ElfHash ElfHashSpec ElfHashProofs ElfObj ElfObjSpec ElfObjProofs.

(** ** C58 *)
(** gnu_hash computes the GNU hash of any C string, bytes >= 0x80 included. *)
Theorem C58_gnu_hash : forall s, Forall isByte s -> gnu_hash s = dlHash (untilNul s).
Proof. exact gnu_hash_abi. Qed.
Print Assumptions C58_gnu_hash.
(** elf_hash computes the ABI hash.  Partial: for bytes below 0x80 only. *)
Theorem C58_elf_hash_partial : forall s, Forall (fun c => 0 <= c < 128) s -> elf_hash s = abiHash s.
Proof. exact elf_hash_abi. Qed.
Print Assumptions C58_elf_hash_partial.
Example C58_nonvacuous : gnu_hash [112; 114; 105; 110; 116; 102] = 359345080 /\ abiHash [112; 114; 105; 110; 116; 102] = 125371814 /\
  gnu_hash [195; 169] = 5866513 /\ elf_hash (repeat 122 20) = abiHash (repeat 122 20).
Proof. repeat split; vm_compute; reflexivity. Qed.
(** Refuted for bytes from 0x80 on, which are sign-extended. *)
Theorem C58_elf_hash_refuted : exists s, Forall (fun c => 0 < c < 256) s /\ elf_hash s <> abiHash s.
Proof. exists [200]. split; [repeat constructor; lia|vm_compute; discriminate]. Qed.
Print Assumptions C58_elf_hash_refuted.

(** ** C29 *)
(** [t] is a well-formed GNU hash table over the symbol table [tab] whose names are in [st].  Looking
    up any name returns the first hashed symbol of that name, with its index, if there is one, and
    the undefined symbol if there is none; the lookup ends. *)
Theorem C29_gnu_lookup : forall t tab st name fuel,
  wfGT t tab -> Forall (wfSym st) tab -> isName name -> (length tab < fuel)%nat ->
  (exists k s, firstNamed tab (gtSymoff t) name k s /\
     gnuLookup fuel (encodeGT t) (flat_map encodeSym tab) st name = Ok (k, fields s)) \/
  ((forall k s, gtSymoff t <= k -> znth k tab = Some s -> ssName s <> name) /\
     gnuLookup fuel (encodeGT t) (flat_map encodeSym tab) st name = Ok (0, mkSym 0 0 0 0 0 0)).
Proof. intros. now apply gnu_find. Qed.
Print Assumptions C29_gnu_lookup.

(** "a" alone in bucket 0; "foo", "b" and a two-byte UTF-8 name in bucket 1; a duplicate of "b". *)
Definition C29_st : list Z := [0; 97; 0; 102; 111; 111; 0; 98; 0; 195; 169; 0].
Definition C29_tab : list ssym :=
  [mkSS [] 0 0 0 0 0 0; mkSS [97] 1 18 0 12 4096 16; mkSS [102; 111; 111] 3 18 0 12 4112 32; mkSS [98] 7 17 0 24 8192 8;
   mkSS [98] 7 17 0 24 8200 8; mkSS [195; 169] 9 18 0 12 4144 4].
Definition C29_gt : gtab := mkGT 1 6 [Z.lor 16925376 (Z.lor 196608 128)] [1; 2] [177671; 193491848; 177670; 177670; 5866513].
Lemma wfSym_intro st s rest : zdrop (ssNameOff s) st = ssName s ++ 0 :: rest ->
  forallb (fun b => (0 <? b) && (b <? 256)) (ssName s) && (0 <=? ssNameOff s) && (ssNameOff s <? 2 ^ 32) &&
  (0 <=? ssInfo s) && (ssInfo s <? 256) && (0 <=? ssOther s) && (ssOther s <? 256) && (0 <=? ssShndx s) && (ssShndx s <? 2 ^ 16) &&
  (0 <=? ssValue s) && (ssValue s <? 2 ^ 64) && (0 <=? ssSize s) && (ssSize s <? 2 ^ 64) = true -> wfSym st s.
Proof.
  intros H1 H2. repeat (apply andb_prop in H2 as [H2 ?]). unfold wfSym, isName, isByte. repeat split; try lia; [|eauto].
  apply Forall_forall. intros x Hx. rewrite forallb_forall in H2. specialize (H2 x Hx). lia.
Qed.
Lemma znth_cases {A} i (l : list A) x : znth i l = Some x -> exists n, (n < length l)%nat /\ i = Z.of_nat n /\ nth_error l n = Some x.
Proof.
  intros H. pose proof (znth_some _ _ _ H) as R. rewrite znth_nth_error in H by lia. exists (Z.to_nat i). unfold zlen in R. repeat split; [lia|lia|exact H].
Qed.
Ltac zcases H :=
  let n := fresh "n" in let L := fresh "L" in let E := fresh "E" in
  apply znth_cases in H as (n & L & E & H); cbn [length] in L; subst;
  repeat (destruct n as [|n]; [cbn in H; injection H as <- |]); [..|exfalso; cbn in L; lia].
Example C29_nonvacuous : wfGT C29_gt C29_tab /\ Forall (wfSym C29_st) C29_tab /\
  map (gnuLookup 20 (encodeGT C29_gt) (flat_map encodeSym C29_tab) C29_st) [[97]; [98]; [102; 111; 111]; [195; 169]; [99]; []] =
  [Ok (1, mkSym 1 18 0 12 4096 16); Ok (3, mkSym 7 17 0 24 8192 8); Ok (2, mkSym 3 18 0 12 4112 32); Ok (5, mkSym 9 18 0 12 4144 4); Ok (0, mkSym 0 0 0 0 0 0); Ok (0, mkSym 0 0 0 0 0 0)].
Proof.
  assert (HA : forall i h, hashAt C29_tab i h -> (i, h) = (0, 5381) \/ (i, h) = (1, 177670) \/ (i, h) = (2, 193491849) \/ (i, h) = (3, 177671) \/ (i, h) = (4, 177671) \/ (i, h) = (5, 5866513)).
  { intros i h (s & Hs & <-). zcases Hs; vm_compute; intuition. }
  split; [|split].
  - constructor; [split; reflexivity|split; reflexivity|vm_compute; reflexivity|cbn; lia|cbn; lia|reflexivity|reflexivity|reflexivity| | | | |].
    + constructor; [|constructor]. vm_compute. intuition discriminate.
    + intros b v H. zcases H; right; (split; [vm_compute; intuition discriminate|]); (split; [eexists; split; [eexists; split; [reflexivity|reflexivity]|vm_compute; reflexivity]|]);
      intros i h Hi Hh; apply HA in Hh; cbn in Hi; destruct Hh as [E|[E|[E|[E|[E|E]]]]]; injection E as -> ->; try lia; vm_compute; discriminate.
    + intros i j k hi hj hk Hi Hij Hjk A B C. apply HA in A, B, C. cbn in Hi.
      destruct A as [A|[A|[A|[A|[A|A]]]]]; injection A as -> ->; try lia;
      destruct B as [B|[B|[B|[B|[B|B]]]]]; injection B as -> ->; try lia;
      destruct C as [C|[C|[C|[C|[C|C]]]]]; injection C as -> ->; try lia; vm_compute; intuition discriminate.
    + intros i h Hi Hh. apply HA in Hh. cbn in Hi.
      destruct Hh as [E|[E|[E|[E|[E|E]]]]]; injection E as -> ->; try lia.
      * exists true. split; [reflexivity|]. split; [|reflexivity]. intros _ h' Hh. apply HA in Hh. destruct Hh as [E|[E|[E|[E|[E|E]]]]]; apply pair_equal_spec in E as [E ->]; try lia; vm_compute; discriminate.
      * exists false. split; [reflexivity|]. split; [discriminate|]. intros H. exfalso. apply (H 177671); [eexists; split; reflexivity|reflexivity].
      * exists false. split; [reflexivity|]. split; [discriminate|]. intros H. exfalso. apply (H 177671); [eexists; split; reflexivity|reflexivity].
      * exists false. split; [reflexivity|]. split; [discriminate|]. intros H. exfalso. apply (H 5866513); [eexists; split; reflexivity|reflexivity].
      * exists true. split; [reflexivity|]. split; [|reflexivity]. intros _ h' Hh. apply HA in Hh. destruct Hh as [E|[E|[E|[E|[E|E]]]]]; apply pair_equal_spec in E as [E ->]; lia.
    + intros i h Hi Hh. apply HA in Hh. cbn in Hi.
      destruct Hh as [E|[E|[E|[E|[E|E]]]]]; injection E as -> ->; try lia; eexists; (split; [reflexivity|]); split; vm_compute; reflexivity.
  - repeat (apply Forall_cons; [eapply wfSym_intro; [reflexivity|vm_compute; reflexivity]|]). apply Forall_nil.
  - vm_compute. reflexivity.
Qed.

(** ** C30 *)
(** [t] is a well-formed System V hash table over [tab].  Looking up a name returns a symbol (other
    than symbol 0) of that name if there is one, otherwise the undefined symbol, and ends.
    Partial: names of bytes below 0x80; see the refutation. *)
Theorem C30_sysv_lookup_partial : forall t tab st name fuel,
  wfHT t tab -> Forall (wfSym st) tab -> Forall (fun c => 0 < c < 128) name -> (length tab < fuel)%nat ->
  (exists k s, 0 < k /\ znth k tab = Some s /\ ssName s = name /\
     sysvLookup fuel (encodeHT t) (flat_map encodeSym tab) st name = Ok (k, fields s)) \/
  ((forall k s, 0 < k -> znth k tab = Some s -> ssName s <> name) /\
     sysvLookup fuel (encodeHT t) (flat_map encodeSym tab) st name = Ok (0, mkSym 0 0 0 0 0 0)).
Proof. intros. now apply sysv_find. Qed.
Print Assumptions C30_sysv_lookup_partial.
(** "a" (hash 97), "b" (98), "foo" (27999), "b" again, three buckets. *)
Definition C30_tab : list ssym := firstn 5 C29_tab.
Definition C30_ht : htab := mkHT [2; 1; 4] [0; 0; 0; 0; 3].
Example C30_nonvacuous : wfHT C30_ht C30_tab /\ Forall (wfSym C29_st) C30_tab /\
  map (sysvLookup 20 (encodeHT C30_ht) (flat_map encodeSym C30_tab) C29_st) [[97]; [98]; [102; 111; 111]; [99]; [100]] =
  [Ok (1, mkSym 1 18 0 12 4096 16); Ok (4, mkSym 7 17 0 24 8200 8); Ok (2, mkSym 3 18 0 12 4112 32); Ok (0, mkSym 0 0 0 0 0 0); Ok (0, mkSym 0 0 0 0 0 0)].
Proof.
  split; [|split].
  - constructor; [split; reflexivity|reflexivity|reflexivity| |].
    + cbn [htBuckets htChains app C30_ht]. change (zlen _) with 5. repeat (constructor; [lia|]). constructor.
    + intros b v H. zcases H.
      * exists [2]. split; [apply CNext with 0; [lia|reflexivity|constructor]|]. intros i s Hi Hs. zcases Hs; try lia; vm_compute; intuition discriminate.
      * exists [1]. split; [apply CNext with 0; [lia|reflexivity|constructor]|]. intros i s Hi Hs. zcases Hs; try lia; vm_compute; intuition discriminate.
      * exists [4; 3]. split; [apply CNext with 3; [lia|reflexivity|]; apply CNext with 0; [lia|reflexivity|constructor]|].
        intros i s Hi Hs. zcases Hs; try lia; vm_compute; intuition discriminate.
  - repeat (apply Forall_cons; [eapply wfSym_intro; [reflexivity|vm_compute; reflexivity]|]). apply Forall_nil.
  - vm_compute. reflexivity.
Qed.
(** Refuted: a name with a byte from 0x80 on is hashed wrongly, and not found. *)
Theorem C30_high_bytes_refuted : exists t tab st name,
  wfHT t tab /\ Forall (wfSym st) tab /\ isName name /\ (exists k s, 0 < k /\ znth k tab = Some s /\ ssName s = name) /\
  forall fuel, (2 <= fuel)%nat -> sysvLookup fuel (encodeHT t) (flat_map encodeSym tab) st name = Ok (0, mkSym 0 0 0 0 0 0).
Proof.
  exists (mkHT [0; 0; 0; 0; 1; 0; 0] [0; 0]), [mkSS [] 0 0 0 0 0 0; mkSS [200] 1 18 0 1 4096 8], [0; 200; 0], [200].
  split; [|split; [|split; [|split]]].
  - constructor; [split; reflexivity|reflexivity|reflexivity| |].
    + cbn [htBuckets htChains app]. change (zlen _) with 2. repeat (constructor; [lia|]). constructor.
    + intros b v H. zcases H; try (exists []; split; [constructor|]; intros i s Hi Hs; zcases Hs; try lia; vm_compute; intuition discriminate).
      exists [1]. split; [apply CNext with 0; [lia|reflexivity|constructor]|]. intros i s Hi Hs. zcases Hs; try lia; vm_compute; intuition discriminate.
  - repeat (apply Forall_cons; [eapply wfSym_intro; [reflexivity|vm_compute; reflexivity]|]). apply Forall_nil.
  - repeat constructor; lia.
  - exists 1. eexists. split; [lia|]. split; reflexivity.
  - intros fuel Hf. destruct fuel as [|[|f]]; [lia|lia|]. vm_compute. reflexivity.
Qed.
Print Assumptions C30_high_bytes_refuted.
(** A malformed table (a chain that returns to itself) makes the lookup of an absent name run forever. *)
Theorem C30_cyclic_chain_never_ends : exists hash syms st name, forall fuel, sysvLookup fuel hash syms st name = OutOfFuel.
Proof.
  exists (encodeHT (mkHT [1] [0; 1])), (flat_map encodeSym (firstn 2 C29_tab)), C29_st, [98].
  intros fuel. unfold sysvLookup. remember (mkSymHash (encodeHT (mkHT [1] [0; 1]))) as s eqn:Es. vm_compute in Es. subst s. cbn [bind].
  unfold sysvFind. cbn [shNbucket Z.eqb Pos.eqb]. remember (bucketAt _ _) as b eqn:Eb. vm_compute in Eb. subst b. cbn [bind].
  induction fuel as [|f IH]; [reflexivity|]. cbn [sysvLoop Z.eqb]. remember (readSym _ (1 * 24)) as y eqn:Ey. vm_compute in Ey. subst y. cbn [bind].
  remember (beq _ _) as z eqn:Ez. vm_compute in Ez. subst z. remember (chainAt _ 1) as c eqn:Ec. vm_compute in Ec. subst c. cbn [bind]. exact IH.
Qed.
Print Assumptions C30_cyclic_chain_never_ends.

(** ** C31 *)
(** [phdrs] are the loadable segments in file order: non-empty, disjoint, within the 64-bit address
    space (one may end at its very top).  [hdrs] is what sorting by address made of them.  After any
    history of lookups, the answer for any address is the segment containing it, or none if there is
    none.  Partial: non-empty segments; see the refutation. *)
Theorem C31_segment_lookup_partial : forall phdrs hdrs history a,
  Permutation phdrs hdrs -> StronglySorted (fun x y => p_vaddr x <= p_vaddr y) hdrs ->
  Forall segOk phdrs -> NoDup phdrs -> (forall x y, In x phdrs -> In y phdrs -> x = y \/ segDisjoint x y) ->
  Forall (fun a => 0 <= a < 2 ^ 64) history -> 0 <= a < 2 ^ 64 ->
  match snd (getSegment hdrs (segHistory hdrs history) a) with
  | Some h => In h phdrs /\ p_vaddr h <= a < p_vaddr h + p_memsz h
  | None => forall h, In h phdrs -> ~ p_vaddr h <= a < p_vaddr h + p_memsz h
  end.
Proof.
  intros phdrs hdrs hist a P S O N D Hh Ha.
  assert (I : forall x, In x hdrs <-> In x phdrs) by (intros x; split; apply Permutation_in; [now apply Permutation_sym|exact P]).
  assert (O' : Forall segOk hdrs) by (rewrite Forall_forall in *; intros x Hx; apply O, I, Hx).
  assert (N' : NoDup hdrs) by (eapply Permutation_NoDup; eauto).
  assert (D' : forall x y, In x hdrs -> In y hdrs -> x = y \/ segDisjoint x y) by (intros; apply D; now apply I).
  destruct (getSegment_spec hdrs O' S N' D' _ a (segHistory_ok hdrs O' S N' D' hist Hh) Ha) as [_ R].
  destruct (snd (getSegment hdrs (segHistory hdrs hist) a)) as [h|].
  - destruct R as [R1 R2]. split; [now apply I|exact R2].
  - intros h Hin. apply R, I, Hin.
Qed.
Print Assumptions C31_segment_lookup_partial.
Definition C31_ph : list phdr := [mkPh 1 0 4096 512 4096; mkPh 1 0 0 4096 4096; mkPh 1 0 18446744073709547520 0 4096].
Definition C31_sorted : list phdr := [mkPh 1 0 0 4096 4096; mkPh 1 0 4096 512 4096; mkPh 1 0 18446744073709547520 0 4096].
Example C31_nonvacuous : Permutation C31_ph C31_sorted /\ StronglySorted (fun x y => p_vaddr x <= p_vaddr y) C31_sorted /\
  Forall segOk C31_ph /\ NoDup C31_ph /\ (forall x y, In x C31_ph -> In y C31_ph -> x = y \/ segDisjoint x y) /\
  map (fun a => option_map p_vaddr (snd (getSegment C31_sorted (segHistory C31_sorted [0; 5000; 99999]) a))) [0; 4095; 4096; 8191; 8192; 18446744073709551615] =
  [Some 0; Some 0; Some 4096; Some 4096; None; Some 18446744073709547520].
Proof.
  split; [apply perm_swap|]. split; [repeat constructor; cbn; lia|]. split; [repeat constructor; cbn; lia|]. split.
  - repeat constructor; cbn; intuition discriminate.
  - split; [|vm_compute; reflexivity]. intros x y [<-|[<-|[<-|[]]]] [<-|[<-|[<-|[]]]]; (now left) || (right; unfold segDisjoint; cbn; lia).
Qed.
(** Refuted: an empty segment next to a segment containing the address hides it; and an empty segment
    at address 0 is returned for an address it does not contain. *)
Theorem C31_empty_segment_refuted :
  (exists hdrs a h, StronglySorted (fun x y => p_vaddr x <= p_vaddr y) hdrs /\ (forall x y, In x hdrs -> In y hdrs -> x = y \/ segDisjoint x y) /\
     In h hdrs /\ p_vaddr h <= a < p_vaddr h + p_memsz h /\ snd (getSegment hdrs None a) = None) /\
  (exists hdrs a h, StronglySorted (fun x y => p_vaddr x <= p_vaddr y) hdrs /\ (forall x y, In x hdrs -> In y hdrs -> x = y \/ segDisjoint x y) /\
     snd (getSegment hdrs None a) = Some h /\ ~ p_vaddr h <= a < p_vaddr h + p_memsz h).
Proof.
  split.
  - exists [mkPh 1 0 4096 0 4096; mkPh 1 0 4096 0 0], 6144, (mkPh 1 0 4096 0 4096).
    split; [repeat constructor; cbn; lia|]. split; [|split; [now left|split; [cbn; lia|vm_compute; reflexivity]]].
    intros x y [<-|[<-|[]]] [<-|[<-|[]]]; (now left) || (right; unfold segDisjoint; cbn; lia).
  - exists [mkPh 1 0 0 0 0; mkPh 1 0 4096 0 4096], 6144, (mkPh 1 0 0 0 0).
    split; [repeat constructor; cbn; lia|]. split; [|split; [vm_compute; reflexivity|cbn; lia]].
    intros x y [<-|[<-|[]]] [<-|[<-|[]]]; (now left) || (right; unfold segDisjoint; cbn; lia).
Qed.
Print Assumptions C31_empty_segment_refuted.

(** ** C32 *)
(** Each PT_NOTE segment holds the encoding of a non-empty sequence of notes.  Iterating yields every
    note of every segment once, in order, with its name, type and descriptor.
    Partial: segments that are not empty, and notes with a name; see the refutations. *)
Theorem C32_segment_notes_partial : forall file phs nss fuel, zlen file + 32 < W64 ->
  Forall2 (fun ph ns => ns <> [] /\ wfNotes ns /\ at_ file (p_offset ph) (flat_map encodeNote ns) /\ p_filesz ph = zlen (flat_map encodeNote ns)) phs nss ->
  (length (concat nss) < fuel)%nat ->
  segNotes fuel file phs 0 = Ok (map (fun n => mkNd (snName n) (snType n) (snDesc n)) (concat nss)).
Proof.
  intros file phs nss fuel Hf H Hl. replace fuel with ((length (concat nss) + 1) + (fuel - length (concat nss) - 1))%nat by lia.
  apply segNotes_mono. exact (segs_walk file Hf phs nss H 0).
Qed.
Print Assumptions C32_segment_notes_partial.
(** The same for a debug image, whose notes are found in its SHT_NOTE sections (all but section 0). *)
Theorem C32_section_notes_partial : forall file secs shnum s0 nss fuel, zlen file + 32 < W64 ->
  znth 0 secs = Some s0 -> sh_type s0 = 0 -> shnum <= zlen secs ->
  Forall2 (fun ph ns => ns <> [] /\ wfNotes ns /\ at_ file (p_offset ph) (flat_map encodeNote ns) /\ p_filesz ph = zlen (flat_map encodeNote ns))
    (map toPh (filter (fun s => sh_type s =? 7) (ztake (shnum - 1) (zdrop 1 secs)))) nss ->
  (length (concat nss) < fuel)%nat ->
  debugNotes fuel file secs shnum = Ok (map (fun n => mkNd (snName n) (snType n) (snDesc n)) (concat nss)).
Proof.
  intros file secs shnum s0 nss fuel Hf H0 T0 Hn H Hl. rewrite (debugNotes_seg file secs shnum s0 H0 T0 Hn).
  assert (E : notesAt secs shnum 1 = map toPh (filter (fun s => sh_type s =? 7) (ztake (shnum - 1) (zdrop 1 secs)))).
  { unfold notesAt. destruct (Z_le_dec shnum 1) as [L|L]. { rewrite ztake_neg by lia. now replace (Z.to_nat (shnum - 1)) with O by lia. }
    rewrite ztake_firstn, zdrop_skipn by lia. assert (Hlen : (1 + Z.to_nat (shnum - 1) <= length secs)%nat) by (unfold zlen in Hn; lia).
    change (Z.to_nat 1) with 1%nat. change 1 with (Z.of_nat 1) at 2. revert Hlen. generalize (Z.to_nat (shnum - 1)) 1%nat. clear.
    induction n as [|n IH]; intros k Hk; [reflexivity|]. cbn [noteSecs]. rewrite znth_nth_error by lia. rewrite Nat2Z.id.
    destruct (nth_error secs k) as [s|] eqn:E; [|apply nth_error_None in E; lia].
    assert (Es : skipn k secs = s :: skipn (S k) secs).
    { clear -E. revert secs E. induction k as [|k IH]; intros [|x l] E; try discriminate; cbn in *; [congruence|]. now apply IH. }
    rewrite Es. cbn [firstn filter]. replace (Z.of_nat k + 1) with (Z.of_nat (S k)) by lia. rewrite IH by lia. now destruct (sh_type s =? 7). }
  rewrite E. now apply C32_segment_notes_partial.
Qed.
Print Assumptions C32_section_notes_partial.
(** On any file and any program headers, the iteration ends. *)
Theorem C32_terminates : forall file phs, exists n, forall fuel, (n <= fuel)%nat -> segNotes fuel file phs 0 <> OutOfFuel.
Proof.
  intros file phs. exists (Z.to_nat (noteBudget phs)). intros fuel Hf. apply segNotes_ends; [lia|]. destruct phs as [|ph r]; [cbn in *; lia|].
  pose proof (noteBudget_pos (ph :: r)). lia.
Qed.
Print Assumptions C32_terminates.
Definition C32_n1 := mkSN [71; 78; 85] 3 [1; 2; 3; 4; 5] [] [0; 0; 0].
Definition C32_n2 := mkSN [67; 79; 82; 69] 1 [7; 8; 9] [0; 0; 0] [].
Definition C32_file : list Z := repeat 9 40 ++ flat_map encodeNote [C32_n1; C32_n2] ++ repeat 8 13 ++ flat_map encodeNote [C32_n2].
Example C32_nonvacuous :
  Forall2 (fun ph ns => ns <> [] /\ wfNotes ns /\ at_ C32_file (p_offset ph) (flat_map encodeNote ns) /\ p_filesz ph = zlen (flat_map encodeNote ns))
    [mkPh 4 40 0 47 0; mkPh 4 100 0 23 0] [[C32_n1; C32_n2]; [C32_n2]] /\
  segNotes 10 C32_file [mkPh 4 40 0 47 0; mkPh 4 100 0 23 0] 0 = Ok [mkNd [71; 78; 85] 3 [1; 2; 3; 4; 5]; mkNd [67; 79; 82; 69] 1 [7; 8; 9]; mkNd [67; 79; 82; 69] 1 [7; 8; 9]] /\
  debugNotes 10 C32_file [mkSh [] 0 0 0 0; mkSh [97] 1 0 0 4; mkSh [98] 7 0 40 47; mkSh [99] 7 0 100 23] 4 =
    Ok [mkNd [71; 78; 85] 3 [1; 2; 3; 4; 5]; mkNd [67; 79; 82; 69] 1 [7; 8; 9]; mkNd [67; 79; 82; 69] 1 [7; 8; 9]].
Proof.
  assert (W1 : wfNote C32_n1) by (unfold wfNote; repeat split; try (cbn; lia); repeat constructor; unfold isByte; lia).
  assert (W2 : wfNote C32_n2) by (unfold wfNote; repeat split; try (cbn; lia); repeat constructor; unfold isByte; lia).
  split; [|split; vm_compute; reflexivity]. constructor; [|constructor; [|constructor]].
  - split; [discriminate|]. split; [|split; [split; [cbn; lia|]; eexists; cbn [p_offset]; vm_compute; reflexivity|reflexivity]].
    cbn [wfNotes]. split; [exact W1|]. split; [vm_compute; discriminate|]. split; [reflexivity|]. split; [exact W2|]. split; [vm_compute; discriminate|]. split; [congruence|exact I].
  - split; [discriminate|]. split; [|split; [split; [cbn; lia|]; exists []; vm_compute; reflexivity|reflexivity]].
    cbn [wfNotes]. split; [exact W2|]. split; [vm_compute; discriminate|]. split; [congruence|exact I].
Qed.
(** Refuted: one empty note segment makes the iteration fail, though the other has a note. *)
Theorem C32_empty_segment_refuted : exists file phs ns,
  Forall2 (fun ph ns => wfNotes ns /\ at_ file (p_offset ph) (flat_map encodeNote ns) /\ p_filesz ph = zlen (flat_map encodeNote ns)) phs ns /\
  concat ns <> [] /\ forall fuel, (1 <= fuel)%nat -> segNotes fuel file phs 0 = Throw.
Proof.
  exists C32_file, [mkPh 4 0 0 0 0; mkPh 4 100 0 23 0], [[]; [C32_n2]]. split; [|split; [discriminate|]].
  - constructor; [|constructor; [|constructor]].
    + split; [exact I|]. split; [|reflexivity]. split; [cbn; lia|]. eexists. reflexivity.
    + split; [|split; [split; [cbn; lia|]; exists []; vm_compute; reflexivity|reflexivity]].
      cbn [wfNotes]. split; [unfold wfNote; repeat split; try (cbn; lia); repeat constructor; unfold isByte; lia|].
      split; [vm_compute; discriminate|]. split; [congruence|exact I].
  - intros [|f] Hf; [lia|]. vm_compute. reflexivity.
Qed.
Print Assumptions C32_empty_segment_refuted.
(** Refuted: a note without a name (namesz 0) is given the text of its descriptor as its name. *)
Theorem C32_unnamed_refuted : exists file phs desc,
  at_ file 0 (leBytes 4 0 ++ leBytes 4 (zlen desc) ++ leBytes 4 1 ++ desc) /\ phs = [mkPh 4 0 0 (12 + zlen desc) 0] /\
  forall fuel, (2 <= fuel)%nat -> segNotes fuel file phs 0 = Ok [mkNd [65; 66] 1 desc].
Proof.
  exists (leBytes 4 0 ++ leBytes 4 4 ++ leBytes 4 1 ++ [65; 66; 0; 0]), [mkPh 4 0 0 16 0], [65; 66; 0; 0].
  split; [split; [lia|]; exists []; reflexivity|]. split; [reflexivity|]. intros [|[|f]] Hf; [lia|lia|]. vm_compute. reflexivity.
Qed.
Print Assumptions C32_unnamed_refuted.

(** ** C33 *)
(** A symbol is eligible for an address and type: it is of the type (any, for STT_NOTYPE), its
    [value, value+size) contains the address and its section is allocated.  The lookup in one table
    returns the first eligible symbol and its name, or nothing if there is none. *)
Theorem C33_findSym : forall strings secs addr type syms,
  Forall symOk syms -> 0 <= addr < 2 ^ 64 ->
  match findSym strings secs addr type syms with
  | Some (c, nm) => exists l1 l2, syms = l1 ++ c :: l2 /\ eligible secs addr type c /\ nm = untilNul (zdrop (st_name c) strings) /\
                     Forall (fun x => ~ eligible secs addr type x) l1
  | None => Forall (fun x => ~ eligible secs addr type x) syms
  end.
Proof. intros. now apply (findSym_spec strings secs addr type syms). Qed.
Print Assumptions C33_findSym.
(** Over .symtab, .dynsym and those of the embedded debug data, to any depth. *)
Theorem C33_findSymbolByAddress : forall o addr type,
  Forall (fun t => Forall symOk (snd t)) (tables o) -> 0 <= addr < 2 ^ 64 ->
  match findSymbolByAddress o addr type with
  | Some (c, nm) => exists secs strings syms, In (secs, strings, syms) (tables o) /\ In c syms /\ eligible secs addr type c /\ nm = untilNul (zdrop (st_name c) strings)
  | None => forall secs strings syms c, In (secs, strings, syms) (tables o) -> In c syms -> ~ eligible secs addr type c
  end.
Proof. intros o addr type H Ha. exact (findByAddr_spec addr type Ha (S (objSize o)) o (le_n _) H). Qed.
Print Assumptions C33_findSymbolByAddress.
Definition C33_secs : list shdr := [mkSh [] 0 0 0 0; mkSh [46; 116] 1 6 0 0; mkSh [46; 99] 1 0 0 0].
Definition C33_syms : list esym := [undef; mkSym 1 2 0 1 4096 0; mkSym 1 18 0 2 4096 64; mkSym 1 17 0 1 4096 64; mkSym 3 18 0 1 4096 64].
Example C33_nonvacuous : Forall symOk C33_syms /\
  findSym [0; 97; 0; 98; 0] C33_secs 4159 2 C33_syms = Some (mkSym 3 18 0 1 4096 64, [98]) /\
  findSym [0; 97; 0; 98; 0] C33_secs 4096 0 C33_syms = Some (mkSym 1 17 0 1 4096 64, [97]) /\
  findSym [0; 97; 0; 98; 0] C33_secs 4160 2 C33_syms = None /\
  findSymbolByAddress (mkObj C33_secs [] [] [] [] (Some (mkObj C33_secs [] [] C33_syms [0; 97; 0; 98; 0] None))) 4100 2 = Some (mkSym 3 18 0 1 4096 64, [98]).
Proof. split; [repeat constructor; cbn; lia|]. repeat split. Qed.

(** ** C34 *)
(** [hit secs type m i]: section [i] is called [m] and is of the type asked for.  The section returned
    for a name is one called by the name or one of its aliases (compressed, .dwo), or the null section
    0.  Partial: the name is not a proper suffix of ".dwo". *)
Theorem C34_sound_partial : forall secs type s0 n fuel, znth 0 secs = Some s0 -> sh_type s0 = 0 -> safeName n -> (4 <= fuel)%nat ->
  exists i, getSection fuel secs n type = Ok i /\ (i = 0 \/ exists m, aliasOf n m /\ hit secs type m i).
Proof.
  intros secs type s0 n f H0 T0 Hs Hf. destruct (getSection_cands secs type s0 H0 T0 f n Hf Hs) as (o & E & _ & H & _).
  exists (o2z o). split; [exact E|]. destruct o as [i|]; [right; now apply H|now left].
Qed.
Print Assumptions C34_sound_partial.
(** If there is a section of the very name and type, that one is returned; if there is one (with
    content) under an alias, one under some alias is returned.  Section names are distinct. *)
Theorem C34_complete_partial : forall secs type s0 n fuel, znth 0 secs = Some s0 -> sh_type s0 = 0 -> NoDup (map sh_nm secs) -> safeName n -> (4 <= fuel)%nat ->
  (forall i, hit secs type n i -> getSection fuel secs n type = Ok i) /\
  (forall m i, aliasOf n m -> hit secs type m i -> secTrue secs i = true ->
     exists m' j, getSection fuel secs n type = Ok j /\ aliasOf n m' /\ hit secs type m' j).
Proof.
  intros secs type s0 n f H0 T0 ND Hs Hf. destruct (getSection_cands secs type s0 H0 T0 f n Hf Hs) as (o & E & He & H & Hc). split.
  - intros i Hi. destruct (lookup1 secs type n) as [k|] eqn:El; [|now apply (lookup1_none secs type n ND El i) in Hi].
    rewrite E, (He k eq_refl). cbn [o2z]. f_equal. apply lookup1_hit in El. destruct El as (s & E1 & E2 & _), Hi as (s' & E3 & E4 & _).
    pose proof (znth_some _ _ _ E1). pose proof (znth_some _ _ _ E3). rewrite znth_nth_error in E1, E3 by lia.
    assert (Z.to_nat k = Z.to_nat i); [|lia]. apply (proj1 (NoDup_nth_error _) ND); [rewrite map_length; apply nth_error_Some; congruence|].
    rewrite (map_nth_error sh_nm _ _ E1), (map_nth_error sh_nm _ _ E3). congruence.
  - intros m i Ha Hh Ht. specialize (Hc ND m i Ha Hh Ht). destruct o as [j|]; [|congruence]. destruct (H j eq_refl) as (m' & A & B). eauto.
Qed.
Print Assumptions C34_complete_partial.
Definition C34_info : list Z := dotDebug ++ [105].
Example C34_nonvacuous : let secs n := [mkSh [] 0 0 0 0; mkSh n 1 0 0 0] in
  safeName C34_info /\ NoDup (map sh_nm (secs C34_info)) /\
  map (fun n => getSection 4 (secs n) C34_info 1) [C34_info; zname C34_info; dwoname C34_info; zname (dwoname C34_info); C34_info ++ [1]] = [Ok 1; Ok 1; Ok 1; Ok 1; Ok 0] /\
  getSection 4 (secs C34_info) C34_info 3 = Ok 0.
Proof. cbv zeta. split; [repeat split; discriminate|]. split; [repeat constructor; cbn; intuition discriminate|]. split; vm_compute; reflexivity. Qed.
(** Refuted: looking up an absent name that is a proper suffix of ".dwo", such as the empty name,
    reads before the start of the name. *)
Theorem C34_short_name_refuted : exists secs, (exists s0, znth 0 secs = Some s0 /\ sh_type s0 = 0) /\
  forall fuel, (1 <= fuel)%nat -> getSection fuel secs [] 1 = UB /\ getSection fuel secs [111] 1 = UB.
Proof.
  exists [mkSh [] 0 0 0 0]. split; [eexists; split; reflexivity|]. intros [|f] Hf; [lia|]. split; vm_compute; reflexivity.
Qed.
Print Assumptions C34_short_name_refuted.

(** ** C90: sections of the separate debug image *)
(** A section with content in the image itself is preferred; a section the image has no content for
    under any alias is the one of the debug image (the very name, if it has that); with no debug image
    it is the null section.  Partial: as C34. *)
Theorem C90_debug_sections_partial : forall secs d type s0 d0 n fuel,
  znth 0 secs = Some s0 -> sh_type s0 = 0 -> NoDup (map sh_nm secs) -> znth 0 d = Some d0 -> sh_type d0 = 0 -> NoDup (map sh_nm d) ->
  safeName n -> (4 <= fuel)%nat ->
  (forall o i, hit secs type n i -> secTrue secs i = true -> getDebugSection fuel secs o n type = Ok (false, i)) /\
  ((forall m i, aliasOf n m -> hit secs type m i -> secTrue secs i = false) ->
   (forall i, hit d type n i -> getDebugSection fuel secs (Some d) n type = Ok (true, i)) /\
   (forall m i, aliasOf n m -> hit d type m i -> secTrue d i = true ->
      exists m' j, getDebugSection fuel secs (Some d) n type = Ok (true, j) /\ aliasOf n m' /\ hit d type m' j) /\
   getDebugSection fuel secs None n type = Ok (false, 0)).
Proof.
  intros secs d type s0 d0 n f H0 T0 ND H1 T1 NDd Hs Hf. destruct (C34_complete_partial secs type s0 n f H0 T0 ND Hs Hf) as [A1 A2].
  destruct (C34_complete_partial d type d0 n f H1 T1 NDd Hs Hf) as [B1 B2]. split.
  - intros o i Hi Hu. unfold getDebugSection. rewrite (A1 i Hi). cbn [bind]. now rewrite Hu.
  - intros No. destruct (C34_sound_partial secs type s0 n f H0 T0 Hs Hf) as (k & E & K).
    assert (U : secTrue secs k = false). { destruct K as [-> |(m & X & Y)]; [unfold secTrue; rewrite H0, T0; reflexivity|now apply (No m)]. }
    unfold getDebugSection. rewrite E. cbn [bind]. rewrite U. split; [|split; [|reflexivity]].
    + intros i Hi. now rewrite (B1 i Hi).
    + intros m i Ha Hh Hu. destruct (B2 m i Ha Hh Hu) as (m' & j & E' & A' & Y). exists m', j. rewrite E'. auto.
Qed.
Print Assumptions C90_debug_sections_partial.
Example C90_nonvacuous : let secs := [mkSh [] 0 0 0 0; mkSh C34_info 8 0 0 0] in let d := [mkSh [] 0 0 0 0; mkSh [46] 1 0 0 0; mkSh C34_info 1 0 0 0] in
  hit d 0 C34_info 2 /\ (forall i, hit secs 0 C34_info i -> secTrue secs i = false) /\ getDebugSection 4 secs (Some d) C34_info 0 = Ok (true, 2).
Proof.
  cbv zeta. split; [eexists; split; [reflexivity|]; split; [reflexivity|vm_compute; auto]|]. split; [|vm_compute; reflexivity].
  intros i (s & E & Nm & _). zcases E; [discriminate|reflexivity].
Qed.
(** Refuted: an image whose section of the very name has no content (as in a stripped copy) and which
    has the content under an alias: with no debug image it is not found. *)
Theorem C90_empty_shadows_alias_refuted : let secs := [mkSh [] 0 0 0 0; mkSh C34_info 8 0 0 0; mkSh (zname C34_info) 1 0 0 0] in
  hit secs 0 (zname C34_info) 2 /\ secTrue secs 2 = true /\ getDebugSection 4 secs None C34_info 0 = Ok (false, 0).
Proof. cbv zeta. split; [eexists; split; [reflexivity|]; split; [reflexivity|vm_compute; auto]|]. split; vm_compute; reflexivity. Qed.
Print Assumptions C90_empty_shadows_alias_refuted.
