(** C120-C122: the offset in the function, inlined calls, the lines of a frame. *)
From Coq Require Import Ascii String.
From Verif Require Import Base DwarfReader MapsSpec CfiSpec Regs Cfi Expr Unwind Json Lines Die DieAttr DieAttrSpec DieAttrProofs Args ArgsSpec ArgsProofs.
From Verif Require Import FrameText FrameTextSpec FrameTextProofs FrameTextProofs2 Props_FrameText.

(** ** C120: the offset in the function *)
Lemma low_ok ents units s addrs fn form v o' e' start :
  (forall x e, ents x = Some e -> wfEntry e /\ 0 <= eUnit e) -> (forall x e, ents x = Some e -> hasNo e 0x31 \/ hasNo e 0x47) ->
  Lookup ents 0x11 fn (Some (o', form, v)) -> ents o' = Some e' -> unitTable s (units (eUnit e')) addrs -> addrIs addrs form v start ->
  exists N, forall fuel, (N <= fuel)%nat -> lowPc ents units s fuel fn = Ok (Some start).
Proof.
  intros W One L E T A. destruct (lookup_ok ents W 0x11 fn _ One L) as (N & HN). exists N. intros fuel Hf. unfold lowPc. rewrite (HN fuel Hf). cbn [bind]. rewrite E.
  destruct (addr_form ents units s fuel addrs _ _ _ _ T A) as [_ ->]. reflexivity.
Qed.
Lemma low_none ents units s fn :
  (forall x e, ents x = Some e -> wfEntry e /\ 0 <= eUnit e) -> (forall x e, ents x = Some e -> hasNo e 0x31 \/ hasNo e 0x47) ->
  Lookup ents 0x11 fn None -> exists N, forall fuel, (N <= fuel)%nat -> lowPc ents units s fuel fn = Ok None.
Proof. intros W One L. destruct (lookup_ok ents W 0x11 fn _ One L) as (N & HN). exists N. intros fuel Hf. unfold lowPc. now rewrite (HN fuel Hf). Qed.

(** The address the frame's code is looked up by is [ip]; the function starts at [start] (DW_AT_low_pc, or else the start of its
    first range; or, without debug information, the symbol's value): the offset is the difference.
    Partial: for a caller [ip] is not the address shown, see [C120_call_frame_refuted]; a function whose first range is
    not its lowest gets an absurd offset, see [C120_ranges_refuted]. *)
Theorem C120_offset_partial : forall ents par str units s treeAt fn sym ip start,
  (forall x e, ents x = Some e -> wfEntry e /\ 0 <= eUnit e) ->
  (forall x e, ents x = Some e -> hasNo e 0x31 \/ hasNo e 0x47) ->
  0 <= start <= ip -> ip < W64 - 1 ->
  (exists addrs o' e' form v, Lookup ents 0x11 fn (Some (o', form, v)) /\ ents o' = Some e' /\ unitTable s (units (eUnit e')) addrs /\ addrIs addrs form v start) ->
  exists N, forall fuel c c' pf, (N <= fuel)%nat -> printable ents par str units s treeAt fuel c false (Some fn) sym ip = (c', Ok pf) -> pfOffset pf = ip - start.
Proof.
  intros ents par str units s treeAt fn sym ip start W One Hs Hi (addrs & o' & e' & form & v & L & E & T & A).
  destruct (low_ok ents units s addrs fn form v o' e' start W One L E T A) as (N & HN). exists N. intros fuel c c' pf Hf H. unfold printable in H.
  destruct (buildName ents par str fuel (Some fn) true) as [n [b| | |]]; try discriminate.
  unfold dieOffset in H. rewrite (HN fuel Hf) in H. rewrite u64_id in H by (unfold isU64; lia).
  destruct (inlinedAt ents units s treeAt fuel fuel c fn ip) as [c2 [l| | |]]; inversion H; subst.
  cbn [pfOffset]. unfold noOffset. replace (ip - start =? W64 - 1) with false by lia. reflexivity.
Qed.
Print Assumptions C120_offset_partial.
(** The same from the first range, in any history of the range cache, and from the symbol. *)
Theorem C120_offset_ranges_partial : forall ents par str units s treeAt fuel h fn sym ip start fin rs e c' pf,
  ip < W64 - 1 -> 0 <= start <= ip -> ents fn = Some e -> ownAttr e 0x11 = None ->
  lowPc ents units s fuel fn = Ok None -> (exists a, attribute ents fuel fn 0x55 false = Ok (Some a)) ->
  rangesOf ents units s fuel fn (match uLow (units (eUnit e)) with Some l => l | None => 0 end) = Ok ((start, fin) :: rs) ->
  printable ents par str units s treeAt fuel (caHistory ents units s fuel (fun _ => None) h) false (Some fn) sym ip = (c', Ok pf) -> pfOffset pf = ip - start.
Proof.
  intros ents par str units s treeAt fuel h fn sym ip start fin rs e c' pf Hi Hs E O Lw (a & Ha) R H.
  assert (C : cacheOk ents units s fuel (caHistory ents units s fuel (fun _ => None) h)) by (apply caHistory_ok; intros o r X; discriminate X).
  set (c := caHistory ents units s fuel (fun _ => None) h) in *.
  unfold printable in H. destruct (buildName ents par str fuel (Some fn) true) as [n [b| | |]]; try discriminate.
  unfold dieOffset in H. rewrite Lw in H. unfold dieRanges in H. rewrite Ha, Lw in H.
  destruct (unitRanges_ok ents units s fuel c fn e 0 C E) as [U1 _]; [unfold callBase; now rewrite O|].
  unfold realBase in U1. rewrite Z.eqb_refl in U1. rewrite R in U1.
  destruct (unitRanges ents units s fuel c fn 0) as [c1 r]. cbn [snd] in U1. subst r. cbn [fst] in H. rewrite u64_id in H by (unfold isU64; lia).
  destruct (inlinedAt ents units s treeAt fuel fuel c1 fn ip) as [c2 [l| | |]]; inversion H; subst.
  cbn [pfOffset]. unfold noOffset. replace (ip - start =? W64 - 1) with false by lia. reflexivity.
Qed.
Print Assumptions C120_offset_ranges_partial.
Theorem C120_offset_symbol : forall ents par str units s treeAt fuel c (nodie : bool) ip start name fn, 0 <= start <= ip -> ip < W64 ->
  (nodie = true \/ fn = None) ->
  printable ents par str units s treeAt fuel c nodie fn (Some (start, name)) ip = (c, Ok (mkPF [] (ip - start) [])) /\
  printable ents par str units s treeAt fuel c nodie fn None ip = (c, Ok (mkPF [] noOffset [])).
Proof.
  intros ents par str units s treeAt fuel c nodie ip start name fn Hs Hi H. unfold printable.
  assert (X : (if nodie then None else fn) = None) by (destruct H as [->| ->]; [reflexivity|now destruct nodie]). rewrite X.
  cbn [pfOffset pfName pfInlined]. rewrite Z.eqb_refl. rewrite u64_id by (unfold isU64; lia). split; reflexivity.
Qed.
Print Assumptions C120_offset_symbol.
Definition C120_units (u : Z) : uenv := mkUenv 5 8 8 12 None.
Definition C120_secs : secs := mkSecs None [] [].
Definition C120_tree (o : Z) : option ftree := if o =? 50 then Some (FT 50 [FT 60 []]) else if o =? 60 then Some (FT 60 []) else None.
Example C120_nonvacuous :
  (exists N, forall fuel c c' pf, (N <= fuel)%nat -> printable C119_ents C119_par C119_str C120_units C120_secs C120_tree fuel c false (Some 50) None 4120 = (c', Ok pf) -> pfOffset pf = 24) /\
  snd (printable C119_ents C119_par C119_str C120_units C120_secs C120_tree 20 (fun _ => None) false (Some 50) None 4120) = Ok (mkPF (lit "ns::C::f") 24 [60]) /\
  snd (printable C119_ents C119_par C119_str C120_units C120_secs C120_tree 20 (fun _ => None) false (Some 50) None 4100) = Ok (mkPF (lit "ns::C::f") 4 []).
Proof.
  split; [|split; vm_compute; reflexivity].
  apply (C120_offset_partial C119_ents C119_par C119_str C120_units C120_secs C120_tree 50 None 4120 4096); [intros; now apply (C119_wf x)|intros; now apply (C119_wf x)|lia|unfold W64; lia|].
  exists [], 50. do 3 eexists. split; [eapply LOwn; [reflexivity|exists 0%nat, 0; split; reflexivity]|]. split; [reflexivity|]. split; [reflexivity|]. left. split; reflexivity.
Qed.
(** Refuted: a caller's frame is looked up by the address before the return address (C21) but shown with the return address: the address shown
    less the offset shown is one more than the start of the function. *)
Theorem C120_call_frame_refuted : forall ents units s treeAt par str p f reloc fn sym start fuel c c' pf,
  scopeIP p f = u64 (rawIP f - 1) -> 0 <= reloc -> 0 <= start -> reloc + start + 1 <= rawIP f < W64 -> lowPc ents units s fuel fn = Ok (Some start) ->
  printable ents par str units s treeAt fuel c false (Some fn) sym (u64 (scopeIP p f - reloc)) = (c', Ok pf) -> pfOffset pf <> noOffset ->
  rawIP f - pfOffset pf = reloc + start + 1.
Proof.
  intros ents units s treeAt par str p f reloc fn sym start fuel c c' pf Sc Hr Hs Hip L H Hn. rewrite Sc in H. rewrite (u64_id (rawIP f - 1)) in H by (unfold isU64; lia).
  rewrite (u64_id (rawIP f - 1 - reloc)) in H by (unfold isU64; lia). unfold printable in H.
  destruct (buildName ents par str fuel (Some fn) true) as [n [b| | |]]; try discriminate.
  unfold dieOffset in H. rewrite L in H. rewrite (u64_id (rawIP f - 1 - reloc - start)) in H by (unfold isU64; lia).
  destruct (inlinedAt ents units s treeAt fuel fuel c fn (rawIP f - 1 - reloc)) as [c2 [l| | |]]; inversion H; subst.
  cbn [pfOffset] in *. unfold noOffset in *. replace (rawIP f - 1 - reloc - start =? W64 - 1) with false in * by lia. cbn [pfOffset] in *. lia.
Qed.
Print Assumptions C120_call_frame_refuted.
(** Refuted: a function of two ranges, the second below the first. *)
Definition C120_cold (o : Z) : option entry := if o =? 50 then Some (mkEntry 10 0x2e [(0x55, 0x17, 0)] [VWord 0]) else if o =? 10 then Some (mkEntry 10 0x11 [] []) else None.
Theorem C120_ranges_refuted :
  let s := mkSecs None (encodeRanges4 [R4Pair 8192 8448; R4Pair 4096 4112]) [] in let units := fun _ : Z => mkUenv 4 8 0 0 None in
  snd (containsAddress C120_cold units s 9 (fun _ => None) 50 4100) = Ok YES /\
  snd (printable C120_cold (fun _ => 10) C119_str units s (fun o => Some (FT o [])) 9 (fun _ => None) false (Some 50) None 4100) = Ok (mkPF [] (W64 + 4100 - 8192) []).
Proof. vm_compute. split; reflexivity. Qed.
Print Assumptions C120_ranges_refuted.

(** ** C121: inlined calls *)
(** The inlined calls shown for an address are exactly the inlined subroutines below the function that cover
    the address, from the outermost in, each once, and finding them ends.  [cov] says of each entry below whether it
    covers the address (C25); an entry that excludes the address hides what is below it.
    Partial: the entries of an address are on one branch; what [cov] says of range lists is not right at their ends (C25_range_end_refuted), so
    that the code after an inlined call may be attributed to it, see [C121_range_end_refuted]. *)
Theorem C121_inlined_partial : forall ents units s treeAt fuel h a cov t n,
  (forall o ks, subTree (FT o ks) t -> treeAt o = Some (FT o ks)) ->
  (forall o, inF o t -> snd (containsAddress ents units s fuel (fun _ => None) o a) = Ok (cov o)) ->
  oneBranch cov (tagOf ents) 0x1d t -> cov (offOf t) <> NO -> (tsize t <= n)%nat ->
  snd (inlinedAt ents units s treeAt n fuel (caHistory ents units s fuel (fun _ => None) h) (offOf t) a) = Ok (hitsBelow cov (tagOf ents) 0x1d t).
Proof.
  intros ents units s treeAt fuel h a cov t n HT HC Hb HN Hn.
  assert (C : cacheOk ents units s fuel (caHistory ents units s fuel (fun _ => None) h)) by (apply caHistory_ok; intros o r X; discriminate X).
  exact (inlined_ok ents units s treeAt fuel a cov n t _ Hn C HT HC Hb HN).
Qed.
Print Assumptions C121_inlined_partial.
(** 50: a function at [4096, 4352) with a block 51 without addresses holding the inlined call 60 at [4112, 4176), and in that the
    inlined call 62 at [4120, 4128); another inlined call 64 at [4200, 4208). *)
Definition C121_ents (o : Z) : option entry :=
  let I l n := Some (mkEntry 10 0x1d [(0x11, 0x01, 0); (0x12, 0x06, 0)] [VWord l; VWord n]) in
  if o =? 50 then Some (mkEntry 10 0x2e [(0x11, 0x01, 0); (0x12, 0x06, 0)] [VWord 4096; VWord 256])
  else if o =? 51 then Some (mkEntry 10 0x0b [] []) else if o =? 60 then I 4112 64 else if o =? 62 then I 4120 8 else if o =? 64 then I 4200 8 else None.
Definition C121_t : ftree := FT 50 [FT 51 [FT 60 [FT 62 []]]; FT 64 []].
Definition C121_treeAt (o : Z) : option ftree :=
  if o =? 50 then Some C121_t else if o =? 51 then Some (FT 51 [FT 60 [FT 62 []]]) else if o =? 60 then Some (FT 60 [FT 62 []]) else if o =? 62 then Some (FT 62 []) else if o =? 64 then Some (FT 64 []) else None.
Definition C121_cov (a o : Z) : contains := match snd (containsAddress C121_ents C120_units C120_secs 9 (fun _ => None) o a) with Ok x => x | _ => NO end.
Ltac subs := repeat match goal with
  | H : subTree _ (FT _ _) |- _ => inversion H; subst; clear H
  | H : In _ (_ :: _) |- _ => destruct H as [<-|H]
  | H : In _ [] |- _ => destruct H
  | H : inF _ (FT _ _) |- _ => inversion H; subst; clear H
  end.
Example C121_nonvacuous : let t := C121_t in let cov := C121_cov 4124 in
  (forall o ks, subTree (FT o ks) t -> C121_treeAt o = Some (FT o ks)) /\
  (forall o, inF o t -> snd (containsAddress C121_ents C120_units C120_secs 9 (fun _ => None) o 4124) = Ok (cov o)) /\
  oneBranch cov (tagOf C121_ents) 0x1d t /\ cov (offOf t) <> NO /\
  hitsBelow cov (tagOf C121_ents) 0x1d t = [60; 62] /\
  snd (inlinedAt C121_ents C120_units C120_secs C121_treeAt 9 9 (fun _ => None) 50 4124) = Ok [60; 62] /\
  snd (inlinedAt C121_ents C120_units C120_secs C121_treeAt 9 9 (fun _ => None) 50 4112) = Ok [60] /\
  snd (inlinedAt C121_ents C120_units C120_secs C121_treeAt 9 9 (fun _ => None) 50 4200) = Ok [64].
Proof.
  cbv zeta. split; [|split; [|split; [|split; [vm_compute; congruence|split; [vm_compute; reflexivity|split; [vm_compute; reflexivity|split; vm_compute; reflexivity]]]]]].
  - intros o ks H. unfold C121_t in H. subs; reflexivity.
  - intros o H. unfold C121_t in H. subs; reflexivity.
  - intros o ks H. unfold C121_t in H. subs; repeat constructor; (left; vm_compute; reflexivity) || (right; vm_compute; reflexivity).
Qed.
(** Refuted: the first address after the code of an inlined call that has a range list is shown as part of the call. *)
Definition C121_rng (o : Z) : option entry :=
  if o =? 50 then Some (mkEntry 10 0x2e [(0x11, 0x01, 0); (0x12, 0x06, 0)] [VWord 4096; VWord 256])
  else if o =? 60 then Some (mkEntry 10 0x1d [(0x55, 0x17, 0)] [VWord 0]) else None.
Theorem C121_range_end_refuted :
  let s := mkSecs None (encodeRanges4 [R4Pair 4112 4120; R4Pair 4130 4140]) [] in let units := fun _ : Z => mkUenv 4 8 0 0 None in
  rangesAre s (units 10) [] 0 0 [(4112, 4120); (4130, 4140)] /\
  snd (inlinedAt C121_rng units s C120_tree 9 9 (fun _ => None) 50 4120) = Ok [60].
Proof.
  cbv zeta. split; [|vm_compute; reflexivity]. split; [lia|]. split; [repeat constructor; cbn; unfold W64; lia|]. cbn [uVer Z.ltb Z.compare Pos.compare Pos.compare_cont].
  split; [|split; [vm_compute; reflexivity|]].
  - apply Forall_forall. intros b Hb. assert (F : forallb (fun b => (0 <=? b) && (b <? 256)) (encodeRanges4 [R4Pair 4112 4120; R4Pair 4130 4140]) = true) by (vm_compute; reflexivity).
    rewrite forallb_forall in F. specialize (F b Hb). unfold isByte. lia.
  - exists [], [R4Pair 4112 4120; R4Pair 4130 4140], []. cbn [sRanges]. rewrite app_nil_r. split; [reflexivity|]. split; [reflexivity|]. split; [repeat constructor; cbn; unfold W64; lia|]. reflexivity.
Qed.
Print Assumptions C121_range_end_refuted.

(** ** C122: the lines of a frame *)
(** What is written for a name: the function's, marked as a signal trampoline; without debug information the symbol's, marked. *)
Inductive nameShown (f : frameIn) (p : fplace) : list Z -> Prop :=
| nsDie : fiName f <> [] -> nameShown f p (fiName f ++ if fiTramp f then lit "*" else [])
| nsSym y : fiName f = [] -> fpSym p = Some y -> nameShown f p (y ++ (if fiTramp f then lit "*" else []) ++ if fpDie p then lit "%" else lit "!")
| nsNone : fiName f = [] -> fpSym p = None -> nameShown f p (lit "<unknown>" ++ if fiTramp f then lit "*" else []).
Definition offShown (f : frameIn) (t : option (list Z)) : Prop :=
  match t with Some s => 0 <= fiOffset f < W64 - 1 /\ canonical 10 s (fiOffset f) | None => fiOffset f = noOffset end.
Definition inImageShown (o : fopts) (f : frameIn) (p : fplace) (t : option (list Z)) : Prop :=
  match t with Some s => foVerbose o = true /\ canonical 16 s (fiIP f - fpReloc p) | None => foVerbose o = false end.
Definition viaShown (o : fopts) (f : frameIn) (t : option (list Z)) : Prop := t = if foVerbose o then Some (fiMech f) else None.
(** A frame in an image whose code has a known source line: one line for each inlined call, innermost first, and one for the function,
    each at its place: the innermost at the source line of the address, every other where the call before it was made.
    Partial: with inlined calls this needs the line information and the source to be shown, see
    [C122_nosrc_refuted], [C122_noline_refuted], and valid call files, see [C122_call_file_refuted]. *)
Theorem C122_frame_lines_partial : forall o no f p src rest not ipt name args off inImg via q ns sites,
  decimal not no -> 0 <= no < 2 ^ 31 -> numeral 16 ipt (fiIP f) -> length ipt = 16%nat -> 0 <= fpReloc p <= fiIP f -> fiIP f < W64 ->
  foNosrc o = false -> foNodie o = false -> fiPlace f = Some p -> fpArgs p = (args, Ok tt) ->
  fiSource f = src :: rest -> written src q -> fst src <> [] ->
  Forall2 (fun i x => siteOk o i (fst x) (snd x)) (rev (fiInlined f)) (combine ns sites) -> length ns = length sites -> Forall (fun c => fst c <> []) sites ->
  nameShown f p name -> offShown f off -> inImageShown o f p inImg -> viaShown o f via ->
  dumpFrame o no f = (inlineTexts not ns q sites ++ mainText not ipt name args off (fpImage p) inImg (Some (last sites q)) via, Ok tt).
Proof.
  intros o no f p src rest not ipt name args off inImg via q ns sites Hno Rno Hip Lip Hr Wip Hs Hd Hp Ha Hsrc Wr Ne F L Nes Nm Of Im Vi.
  unfold dumpFrame. rewrite Hs, Hd, Hsrc, Hp, Ha.
  destruct (inlined_lines o no not Hno Rno (rev (fiInlined f)) src q ns sites Hs Wr F L) as (src' & E & (W1 & W2 & W3)). rewrite E.
  assert (Ne' : fst src' <> []).
  { rewrite <- W1. destruct Wr as (Wq & _). clear E F W1 W2 W3 L.
    assert (X : In (last sites q) (q :: sites)).
    { destruct sites as [|x r]; [left; reflexivity|right]. pattern (x :: r) at 2. rewrite (app_removelast_last q (l := x :: r)) by discriminate. apply in_or_app. right. left. reflexivity. }
    destruct X as [<-|X]; [congruence|]. rewrite Forall_forall in Nes. now apply Nes. }
  rewrite (intText_dec not no) by (assumption || lia). rewrite (hex16_ok ipt (fiIP f) Hip Lip) by lia.
  assert (Zs : zlen (fst src') =? 0 = false) by (destruct (fst src'); [congruence|]; rewrite zlen_cons; pose proof (zlen_nonneg l); lia).
  rewrite Zs. rewrite (intText_dec (snd (last sites q)) (snd src')) by (assumption || lia).
  assert (Eo : (if fiOffset f =? noOffset then [] else txt "+" ++ decText 20 (fiOffset f)) = match off with Some t => lit "+" ++ t | None => [] end).
  { destruct off as [t|]; cbn [offShown] in Of; [|rewrite Of, Z.eqb_refl; reflexivity]. unfold noOffset. replace (fiOffset f =? W64 - 1) with false by lia. f_equal.
    apply decText_ok; [apply Of|lia]. }
  rewrite Eo.
  assert (Ei : (if foVerbose o then txt "@0x" ++ hexText 16 (u64 (fiIP f - fpReloc p)) else []) = match inImg with Some t => lit "@0x" ++ t | None => [] end).
  { destruct inImg as [t|]; cbn [inImageShown] in Im; [|now rewrite Im]. destruct Im as [-> Im]. rewrite u64_id by (unfold isU64; lia). f_equal. apply hexText_ok; [exact Im|lia]. }
  rewrite Ei.
  assert (Ev : (if foVerbose o then txt " via " ++ fiMech f else []) = match via with Some t => lit " via " ++ t | None => [] end) by (unfold viaShown in Vi; rewrite Vi; now destruct (foVerbose o)).
  rewrite Ev.
  assert (En : (if negb (zlen (fiName f) =? 0) then (fiName f, if fiTramp f then txt "*" else []) else match fpSym p with
              | Some y => (y, (if fiTramp f then txt "*" else []) ++ (if fpDie p then txt "%" else txt "!"))
              | None => (txt "<unknown>", if fiTramp f then txt "*" else []) end) = (if negb (zlen (fiName f) =? 0) then fiName f else match fpSym p with Some y => y | None => txt "<unknown>" end,
              if negb (zlen (fiName f) =? 0) then (if fiTramp f then txt "*" else []) else match fpSym p with Some y => (if fiTramp f then txt "*" else []) ++ (if fpDie p then txt "%" else txt "!") | None => if fiTramp f then txt "*" else [] end)).
  { destruct (negb (zlen (fiName f) =? 0)); [reflexivity|]. destruct (fpSym p); reflexivity. }
  rewrite En. clear En.
  assert (En : (if negb (zlen (fiName f) =? 0) then fiName f else match fpSym p with Some y => y | None => txt "<unknown>" end) ++
    (if negb (zlen (fiName f) =? 0) then (if fiTramp f then txt "*" else []) else match fpSym p with Some y => (if fiTramp f then txt "*" else []) ++ (if fpDie p then txt "%" else txt "!") | None => if fiTramp f then txt "*" else [] end) = name).
  { destruct Nm as [Nf|y Nf Y|Nf Y].
    - assert (zlen (fiName f) =? 0 = false) by (destruct (fiName f); [congruence|]; rewrite zlen_cons; pose proof (zlen_nonneg l); lia). rewrite H. reflexivity.
    - rewrite Nf, Y. reflexivity.
    - rewrite Nf, Y. reflexivity. }
  unfold andThen, emit. cbn [fst snd]. f_equal. f_equal. unfold mainText, atText. rewrite W1. change lit with txt. rewrite <- En. unfold column, padLeft.
  rewrite <- !app_assoc. reflexivity.
Qed.
Print Assumptions C122_frame_lines_partial.
(** Outside every image. *)
Theorem C122_no_image : forall o no f not ipt, decimal not no -> 0 <= no < 2 ^ 31 -> numeral 16 ipt (fiIP f) -> length ipt = 16%nat -> 0 <= fiIP f < W64 ->
  fiPlace f = None -> fiInlined f = [] -> foVerbose o = false ->
  dumpFrame o no f = (lit "#" ++ column not ++ lit " 0x" ++ ipt ++ lit " no information for frame" ++ [10], Ok tt).
Proof.
  intros o no f not ipt Hno Rno Hip Lip R Hp Hi Hv. unfold dumpFrame. rewrite Hp, Hi, Hv. cbn [rev inlinedLines].
  rewrite (intText_dec not no) by (assumption || lia). rewrite (hex16_ok ipt (fiIP f) Hip Lip) by lia.
  assert (X : forall s : list Z * Z, (if foNodie o then (emit [], s) else (emit [], s)) = (emit [], s)) by (intros; now destruct (foNodie o)). rewrite X.
  unfold andThen, emit, column, padLeft. cbn [fst snd app]. f_equal. change lit with txt. cbn [app]. rewrite <- !app_assoc. reflexivity.
Qed.
Print Assumptions C122_no_image.
(** A thread's frames are written one after another, numbered from 0, after the thread's line. *)
Theorem C122_numbering : forall o h fs ts, Forall2 (fun x t => dumpFrame o (Z.of_nat (fst x)) (snd x) = (t, Ok tt)) (combine (seq 0 (length fs)) fs) ts ->
  dumpStack o h fs = (stackHead h ++ List.concat ts, Ok tt).
Proof.
  intros o h fs ts F. unfold dumpStack. unfold andThen, emit. cbn [fst snd].
  assert (G : forall k, Forall2 (fun x t => dumpFrame o (Z.of_nat (fst x)) (snd x) = (t, Ok tt)) (combine (seq k (length fs)) fs) ts -> dumpFrames o (Z.of_nat k) fs = (List.concat ts, Ok tt)).
  { clear F. revert ts. induction fs as [|f fs IH]; intros ts k F; inversion F as [|? t ? ts' H F']; subst; [reflexivity|].
    cbn [dumpFrames]. cbn [fst snd] in H. rewrite H. unfold andThen. cbn [fst snd]. replace (Z.of_nat k + 1) with (Z.of_nat (S k)) by lia. rewrite (IH ts' (S k) F'). reflexivity. }
  pose proof (G 0%nat F) as G0. change (Z.of_nat 0) with 0 in G0. rewrite G0. reflexivity.
Qed.
Print Assumptions C122_numbering.

(** Nonvacuity and refutations. *)
Lemma num_of base c cs d ds v : digitOf base c d -> Forall2 (digitOf base) cs ds -> fold_left (fun a x => a * base + x) ds d = v -> numeral base (c :: cs) v.
Proof.
  intros H F <-. assert (G : forall p a, numeral base p a -> numeral base (p ++ cs) (fold_left (fun a x => a * base + x) ds a)).
  { clear H c d. induction F as [|c d cs ds H F IH]; intros p a N; [now rewrite app_nil_r|]. cbn [fold_left]. change (c :: cs) with ([c] ++ cs). rewrite app_assoc. apply IH. now constructor. }
  apply (G [c] d). now constructor.
Qed.
(** A function called [main] with an inlined call of [g] on line 7 of b.c, at line 3 of a.c. *)
Definition C122_li : lineInfo := mkLI [lit "/src"] [mkFile (lit "a.c") 0 0 0; mkFile (lit "b.c") 0 0 0] [] true 13 [].
Definition C122_place : fplace := mkPlace (lit "/bin/x") 4096 (Some (lit "main")) true (lit "argc=1", Ok tt).
Definition C122_frame (src : list (list Z * Z)) (file : Z) : frameIn :=
  mkFrameIn 8192 false (lit "CFI") (Some C122_place) src (lit "main") 32 [mkInl (lit "g", Ok true) (Some C122_li) file 7].
Example C122_nonvacuous :
  dumpFrame (mkFO false false true) 1 (C122_frame [(lit "a.c", 3)] 1) =
    (inlineTexts (lit "1") [lit "g"] (lit "a.c", lit "3") [(lit "/src/b.c", lit "7")] ++
     mainText (lit "1") (lit "0000000000002000") (lit "main") (lit "argc=1") (Some (lit "32")) (lit "/bin/x") (Some (lit "1000")) (Some (lit "/src/b.c", lit "7")) (Some (lit "CFI")), Ok tt) /\
  dumpFrame (mkFO false false false) 1 (C122_frame [(lit "a.c", 3)] 1) =
    (lit "#1  inlined            in g at a.c:3" ++ [10] ++ lit "#1  0x0000000000002000 in main(argc=1)+32 in /bin/x at b.c:7" ++ [10], Ok tt).
Proof.
  split; [|vm_compute; reflexivity].
  apply (C122_frame_lines_partial (mkFO false false true) 1 (C122_frame [(lit "a.c", 3)] 1) C122_place (lit "a.c", 3) [] (lit "1") (lit "0000000000002000") (lit "main") (lit "argc=1")
           (Some (lit "32")) (Some (lit "1000")) (Some (lit "CFI")) (lit "a.c", lit "3") [lit "g"] [(lit "/src/b.c", lit "7")]).
  - left. split; [lia|]. split; [|discriminate]. apply (num_of 10 49 [] 1 []); [unfold digitOf; lia|constructor|reflexivity].
  - lia.
  - apply (num_of 16 48 (lit "000000000002000") 0 [0; 0; 0; 0; 0; 0; 0; 0; 0; 0; 0; 2; 0; 0; 0]); [unfold digitOf; lia|repeat (constructor; [unfold digitOf; cbn; lia|]); constructor|reflexivity].
  - reflexivity.
  - cbn. lia.
  - reflexivity.
  - reflexivity.
  - reflexivity.
  - reflexivity.
  - reflexivity.
  - reflexivity.
  - split; [reflexivity|]. split; [|cbn; lia]. left. split; [cbn; lia|]. split; [|discriminate]. apply (num_of 10 51 [] 3 []); [unfold digitOf; lia|constructor|reflexivity].
  - discriminate.
  - constructor; [|constructor]. apply (SiteOk _ _ _ true C122_li (lit "/src/b.c")); [reflexivity|reflexivity| |].
    + exists (mkFile (lit "b.c") 0 0 0), (lit "/src"). split; [reflexivity|]. split; reflexivity.
    + split; [reflexivity|]. split; [|cbn; lia]. left. split; [cbn; lia|]. split; [|discriminate]. apply (num_of 10 55 [] 7 []); [unfold digitOf; lia|constructor|reflexivity].
  - reflexivity.
  - constructor; [discriminate|constructor].
  - change (lit "main") with (fiName (C122_frame [(lit "a.c", 3)] 1) ++ if fiTramp (C122_frame [(lit "a.c", 3)] 1) then lit "*" else []). now apply nsDie.
  - split; [cbn; unfold W64; lia|]. split; [|discriminate]. apply (num_of 10 51 [50] 3 [2]); [unfold digitOf; lia|repeat constructor; unfold digitOf; lia|reflexivity].
  - split; [reflexivity|]. split; [|discriminate]. apply (num_of 16 49 [48; 48; 48] 1 [0; 0; 0]); [unfold digitOf; lia|repeat (constructor; [unfold digitOf; lia|]); constructor|reflexivity].
  - reflexivity.
Qed.
(** Refuted: without source lines (the option nosrc), or when the unit has no line table, the inlined calls are not on lines of their own. *)
Theorem C122_nosrc_refuted :
  dumpFrame (mkFO true false false) 1 (C122_frame [] 1) =
    (lit "#1  inlined            in g#1  0x0000000000002000 in main(argc=1)+32 in /bin/x" ++ [10], Ok tt) /\
  forall o no n b file line src, snd (fst (inlinedLine o no (mkInl (n, Ok b) None file line) src)) = Ok tt /\
    last (fst (fst (inlinedLine o no (mkInl (n, Ok b) None file line) src))) 32 = last (lit " in " ++ n) 32.
Proof.
  split; [vm_compute; reflexivity|]. intros o no n b file line src. unfold inlinedLine. cbn [inName inLines].
  assert (X : forall a q : list Z, q <> [] -> last (a ++ q) 32 = last q 32).
  { clear. intros a q Hq. induction a as [|x a IH]; [reflexivity|]. cbn [app last]. destruct (a ++ q) eqn:E; [destruct a; [cbn in E; congruence|discriminate]|]. exact IH. }
  destruct (foNosrc o); cbn [fst snd emit]; (split; [reflexivity|]); rewrite <- !app_assoc;
    rewrite !app_assoc; rewrite <- (app_assoc _ (txt " in ") n); apply X; discriminate.
Qed.
Print Assumptions C122_nosrc_refuted.
(** Refuted: where the line of the address is not known, the place of the innermost inlined call is shown as no file, line -1. *)
Theorem C122_noline_refuted :
  dumpFrame (mkFO false false false) 1 (C122_frame [] 1) =
    (lit "#1  inlined            in g at :-1" ++ [10] ++ lit "#1  0x0000000000002000 in main(argc=1)+32 in /bin/x at b.c:7" ++ [10], Ok tt).
Proof. vm_compute. reflexivity. Qed.
Print Assumptions C122_noline_refuted.
(** Refuted: a file number (read from the debug information) that is not in the line table indexes outside it. *)
Theorem C122_call_file_refuted : forall o no n b li file line src, foNosrc o = false -> ~ 0 <= file < zlen (liFiles li) ->
  snd (fst (inlinedLine o no (mkInl (n, Ok b) (Some li) file line) src)) = UB.
Proof.
  intros o no n b li file line src Hs Hf. unfold inlinedLine. cbn [inName inLines inFile]. rewrite Hs.
  destruct (znth file (liFiles li)) eqn:E; [|reflexivity]. exfalso. apply Hf. apply (znth_some _ _ _ E).
Qed.
Print Assumptions C122_call_file_refuted.
