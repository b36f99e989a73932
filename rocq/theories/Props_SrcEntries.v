(** Property C179, from the root entries of the units. *)
From Coq Require Import Ascii String.
From Verif Require Import Base Leb LebSpec DwarfReader Cfi CfiSpec CfiProofs ExprProofs Lines LinesSpec LinesProofs Aranges ArangesSpec ArangesProofs Die DieAttr DieAttrSpec DieAttrProofs Dump DumpUnit DumpUnitProofs Props_Lines Props_Aranges Props_Die SrcAddr SrcAddrSpec SrcAddrProofs RootRead Props_RootRead Props_SrcAddr.
Open Scope Z_scope.

(** As [addressMap], with what the units' root entries at [l] say in place of what was read of them. *)
Definition entriesMap (ents : Z -> option entry) (units : Z -> uenv) (sc : secs) (fuel : nat) (sec : option (list Z)) (l : list (Z * Z)) (sets : list aset) (sus : list sunit) (ivs : list ival) : Prop :=
  match sec with
  | Some d => d = flat_map encodeSet sets /\ Forall isByte d /\ zlen d + 32 < W64 /\ (length d < fuel)%nat
  | None => sets = []
  end /\ Forall wfSet sets /\ Forall2 (says ents units sc) l sus /\
  ivs = flat_map setIvals sets ++ flat_map pcIval sus ++ flat_map rangeIvals sus /\ consistent ivs /\
  Forall (fun r => iEnd r - iStart r <= iStart r) (flat_map rangeIvals sus).
Lemma entries_map ents units sc nf fuel sec l sets sus ivs h : (length (sRanges sc) < nf)%nat -> (length (sRnglists sc) < nf)%nat ->
  entriesMap ents units sc fuel sec l sets sus ivs ->
  exists us, snd (readRoots ents units sc nf (caHistory ents units sc nf (fun _ => None) h) l) = Ok us /\ addressMap fuel sec us sets sus ivs.
Proof.
  intros F4 F5 (M1 & M2 & M3 & M4 & M5 & M6). destruct (C24_units_read ents units sc nf h l sus F4 F5 M3) as (us & E & R). exists us. split; [exact E|]. unfold addressMap. tauto.
Qed.

(** The whole way from bytes and entries: the unit's address ranges are read of its root entry, the address found in them, the unit's line table
    decoded and the row's line and file answered, after any earlier questions.  Partial: as [C179_source_v4_partial]. *)
Theorem C179_from_entries_v4_partial : forall arsec lr sets sus ivs roots ents units sc data se verbose nf fuel h h' a i e addrs off long ver maxOps p lens dirs files prog,
  entriesMap ents units sc fuel arsec lr sets sus ivs -> In i ivs -> ivCovers i a ->
  unitIs roots ents units sc (iUnit i) e addrs -> admits sc (units (eUnit e)) addrs e a -> linesFrom e off ->
  (length (sRanges sc) < nf)%nat -> (length (sRnglists sc) < nf)%nat ->
  Forall isByte data -> zlen data + 32 < W64 -> 2 <= ver < 5 -> (long = true -> 2 < ver) -> isByte maxOps -> wfParams p lens ->
  Forall (wfLn p) prog -> (existsb isFixed prog = true -> pMin p = 1) -> (length data < fuel)%nat ->
  (long = false -> zlen data < 4294967280) ->
  Forall (fun s => s <> [] /\ isText s) dirs -> Forall wfFile files -> Forall (fun f => sDir f <= zlen dirs) files ->
  at_ data off (encodeUnit long ver (fixedPart ver maxOps p lens ++ tables4 dirs files) (encodeProg prog)) ->
  closed prog -> rowsIn 0 (zlen files) (matrix p (sreg0 p) prog) ->
  exists us, snd (readRoots ents units sc nf (caHistory ents units sc nf (fun _ => None) h') lr) = Ok us /\
  exists l, snd (infoSource arsec us roots ents units sc (Some data) se verbose nf fuel
      (srcHistory arsec us roots ents units sc (Some data) se verbose nf fuel srcState0 h) a) = Ok l /\
  ((exists r name dir, l = [(if verbose then dir ++ [47] ++ name else name, rLine r)] /\ covered rAddr rEnd (matrix p (sreg0 p) prog) a r /\
      named4 dirs files (rFile r) name dir) \/
   (l = [] /\ forall r, ~ covered rAddr rEnd (matrix p (sreg0 p) prog) a r)).
Proof.
  intros arsec lr sets sus ivs roots ents units sc data se verbose nf fuel h h' a i e addrs off long ver maxOps p lens dirs files prog M. intros.
  destruct (entries_map ents units sc nf fuel arsec lr sets sus ivs h' ltac:(assumption) ltac:(assumption) M) as (us & E & AM).
  exists us. split; [exact E|]. now apply (C179_source_v4_partial arsec us sets sus ivs roots ents units sc data se verbose nf fuel h a i e addrs off long ver maxOps p lens dirs files prog).
Qed.
Print Assumptions C179_from_entries_v4_partial.
(** An address of the map that the unit's entry excludes has no source, nor has one in no interval (and not within the s addresses before the end of a range from s). *)
Theorem C179_from_entries_none_partial : forall arsec lr sets sus ivs roots ents units sc data se verbose nf fuel h h' a,
  entriesMap ents units sc fuel arsec lr sets sus ivs -> (length (sRanges sc) < nf)%nat -> (length (sRnglists sc) < nf)%nat ->
  (exists i e addrs, In i ivs /\ ivCovers i a /\ unitIs roots ents units sc (iUnit i) e addrs /\ excludes sc (units (eUnit e)) addrs e a) \/
  ((forall i, In i (flat_map rangeIvals sus) -> ~ (iEnd i - iStart i <= a < iEnd i)) /\ 0 <= a /\ forall i, In i (flat_map setIvals sets ++ flat_map pcIval sus) -> ~ ivCovers i a) ->
  exists us, snd (readRoots ents units sc nf (caHistory ents units sc nf (fun _ => None) h') lr) = Ok us /\
  snd (infoSource arsec us roots ents units sc (Some data) se verbose nf fuel
      (srcHistory arsec us roots ents units sc (Some data) se verbose nf fuel srcState0 h) a) = Ok [].
Proof.
  intros arsec lr sets sus ivs roots ents units sc data se verbose nf fuel h h' a M F4 F5 D.
  destruct (entries_map ents units sc nf fuel arsec lr sets sus ivs h' F4 F5 M) as (us & E & AM). exists us. split; [exact E|].
  destruct D as [(i & e & addrs & Hi & Ha & U & X)|(N & A0 & X)].
  - now apply (C179_excluded arsec us sets sus ivs roots ents units sc data se verbose nf fuel h a i e addrs).
  - now apply (C179_uncovered_partial arsec us sets sus ivs).
Qed.
Print Assumptions C179_from_entries_none_partial.

(** The map of C24's example ([C24_sets]) with the root entries at 11 and 211 of C179's example; the line table is C23's. *)
Definition C179_entrySus : list sunit := [mkSU 0 (Some (4096, HighSize 150)) []; mkSU 200 None []].
Example C179_entries_nonvacuous : let sets : list aset := [] in
  let ivs := flat_map setIvals sets ++ flat_map pcIval C179_entrySus ++ flat_map rangeIvals C179_entrySus in
  entriesMap C179_ents C25_units C25_secs 200 None [(0, 11); (200, 211)] sets C179_entrySus ivs /\ In (mkIv 4096 4246 0) ivs /\ ivCovers (mkIv 4096 4246 0) 4103 /\
  match snd (readRoots C179_ents C25_units C25_secs 99 (fun _ => None) [(0, 11); (200, 211)]) with
  | Ok us => map (fun a => snd (infoSource None us C179_roots C179_ents C25_units C25_secs (Some C179_data) (fun _ => C23_env) true 99 200 srcState0 a)) [4096; 4103; 4136; 4246; 5000] =
      [Ok [([46; 47; 97; 46; 99], 10)]; Ok [([46; 47; 97; 46; 99], 8)]; Ok [([97; 47; 98; 46; 104], 7)]; Ok []; Ok []]
  | _ => False
  end.
Proof.
  pose proof C25_nonvacuous as (T & _). cbv zeta. split; [|split; [now left|split; [unfold ivCovers; cbn; lia|vm_compute; reflexivity]]].
  split; [reflexivity|]. split; [constructor|]. split.
  - constructor; [|constructor; [|constructor]].
    + exists (mkEntry 0 0x11 [(0x10, 0x17, 0); (0x11, 0x01, 0); (0x12, 0x06, 0)] [VWord 2; VWord 4096; VWord 150]), [4096; 8192; 12288].
      split; [reflexivity|]. split; [split; [reflexivity|repeat constructor; cbn; lia]|]. split; [exact T|].
      split; [unfold hasNo; cbn; lia|]. split; [unfold hasNo; cbn; lia|]. split; [reflexivity|]. split.
      * exists 0x01, (VWord 4096). split; [exists 1%nat, 0; split; reflexivity|]. split; [left; split; reflexivity|]. exists 0x06. split; [cbn; tauto|exists 2%nat, 0; split; reflexivity].
      * left. split; [unfold hasNo; cbn; lia|reflexivity].
    + exists (mkEntry 200 0x11 [(0x10, 0x17, 0)] [VWord 2]), [4096; 8192; 12288].
      split; [reflexivity|]. split; [split; [reflexivity|repeat constructor; cbn; lia]|]. split; [exact T|].
      split; [unfold hasNo; cbn; lia|]. split; [unfold hasNo; cbn; lia|]. split; [reflexivity|]. split; [left; unfold hasNo; cbn; lia|].
      left. split; [unfold hasNo; cbn; lia|reflexivity].
  - split; [reflexivity|]. split; [split|constructor].
    + repeat constructor; cbn; unfold W64; lia.
    + intros i j Hi Hj. cbn in Hi, Hj. destruct Hi as [<-|[]], Hj as [<-|[]]. now left.
Qed.
