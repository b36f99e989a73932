(** Specification of frame sections: DWARF 6.4.1 (.debug_frame) and the LSB's .eh_frame and .eh_frame_hdr. *)
From Verif Require Import Base CfiSpec Frames.

(** How an address is written: format and what it is relative to; its code. *)
Definition encCode (e : efmt * eapp) : Z := fmtCode (fst e) + appCode (snd e).
(** The address that [v], written at the address [pos], stands for; [rel] is the base of data relative values. *)
Definition target (e : efmt * eapp) (pos rel v : Z) : Z :=
  (v + match snd e with AAbs => 0 | APcrel => pos | ATextrel | ADatarel => rel end) mod 2 ^ 64.
Definition encOk (e : efmt * eapp) (v : Z) : Prop := fst e <> FAbs /\ fmtRange (fst e) v.

(** The initial length of an entry whose length is [n], in the 32-bit and the 64-bit format; the size of the field after it; where what follows that begins. *)
Definition lenBytes (big : bool) (n : Z) : list Z := if big then leBytes 4 4294967295 ++ leBytes 8 n else leBytes 4 n.
Definition idWidth (big : bool) : nat := if big then 8%nat else 4%nat.
Definition headLen (big : bool) : Z := if big then 20 else 8.

(** ** CIEs *)
(** Augmentations: encoding of addresses, of the LSDA, the personality routine, signal frame. *)
Inductive aug : Type := AugR (e : efmt * eapp) | AugL (code : Z) | AugP (e : efmt * eapp) (indirect : bool) (v : Z) | AugS.
Definition augLetter (a : aug) : Z := match a with AugR _ => 82 | AugL _ => 76 | AugP _ _ _ => 80 | AugS => 83 end.
Definition augBytes (a : aug) : list Z :=
  match a with
  | AugR e => [encCode e]
  | AugL c => [c]
  | AugP e i v => encCode e + (if i then 128 else 0) :: fmtBytes (fst e) v
  | AugS => []
  end.
Definition augOk (a : aug) : Prop :=
  match a with
  | AugR e => fst e <> FAbs
  | AugL c => isByte c
  | AugP e _ v => encOk e v
  | AugS => True
  end.
(** A CIE: augmentations, if it has the letter z; then letters that are not known, with their data; whether it is in the 64-bit format. *)
Record scie : Type := mkSC { scVersion : Z; scAugs : option (list aug * list Z * list Z); scCode : Z; scData : Z; scRar : Z; scInsns : list Z; scBig : bool }.
Definition augText (c : scie) : list Z := match scAugs c with None => [] | Some (l, letters, _) => 122 :: map augLetter l ++ letters end.
Definition augData (c : scie) : list Z := match scAugs c with None => [] | Some (l, _, bs) => let d := flat_map augBytes l ++ bs in uleb (zlen d) ++ d end.
(** The last R counts; without one, addresses are 8 bytes. *)
Definition scEnc (c : scie) : efmt * eapp :=
  match scAugs c with
  | None => (FUdata8, AAbs)
  | Some (l, _, _) => fold_left (fun e a => match a with AugR e' => e' | _ => e end) l (FUdata8, AAbs)
  end.
Definition scSignal (c : scie) : bool := match scAugs c with None => false | Some (l, _, _) => existsb (fun a => match a with AugS => true | _ => false end) l end.
(** The last L counts; 0 without one. *)
Definition scLsda (c : scie) : Z := match scAugs c with None => 0 | Some (l, _, _) => fold_left (fun k a => match a with AugL k' => k' | _ => k end) l 0 end.
Definition scHasZ (c : scie) : bool := match scAugs c with None => false | Some _ => true end.
Definition cieBody (eh : bool) (c : scie) : list Z :=
  leBytes (idWidth (scBig c)) (if eh then 0 else if scBig c then 2 ^ 64 - 1 else 4294967295) ++ [scVersion c] ++ augText c ++ [0] ++ (if scVersion c >=? 4 then [8; 0] else []) ++
  uleb (scCode c) ++ sleb (scData c) ++ [scRar c] ++ augData c ++ scInsns c.
Definition cieBytes (eh : bool) (c : scie) : list Z := lenBytes (scBig c) (zlen (cieBody eh c)) ++ cieBody eh c.
Definition unknownText (letters : list Z) : Prop :=
  Forall (fun b => 0 < b < 256) letters /\ match letters with [] => True | b :: _ => ~ In b [122; 80; 76; 82; 83] end.
Definition scOk (eh : bool) (c : scie) : Prop :=
  (scVersion c = 1 \/ scVersion c = 3 \/ scVersion c = 4) /\ 0 <= scCode c < 2 ^ 32 /\ - 2 ^ 31 <= scData c < 2 ^ 31 /\ 0 <= scRar c < 128 /\
  (if scBig c then eh = false else zlen (cieBody eh c) < 4294967280) /\
  match scAugs c with None => True | Some (l, letters, bs) => Forall augOk l /\ unknownText letters /\ (letters = [] -> bs = []) end.

(** ** FDEs *)
Record sfde : Type := mkSF { sfCie : Z; sfLoc : Z; sfRange : Z; sfAug : list Z; sfInsns : list Z; sfBig : bool }.
Definition fdeBody (eh : bool) (off : Z) (c : scie) (f : sfde) : list Z :=
  leBytes (idWidth (sfBig f)) (if eh then off + 4 - sfCie f else sfCie f) ++
  fmtBytes (fst (scEnc c)) (sfLoc f) ++ fmtBytes (fst (scEnc c)) (sfRange f) ++
  (if scHasZ c then uleb (zlen (sfAug f)) ++ sfAug f else []) ++ sfInsns f.
Definition fdeBytes (eh : bool) (off : Z) (c : scie) (f : sfde) : list Z := lenBytes (sfBig f) (zlen (fdeBody eh off c f)) ++ fdeBody eh off c f.
Definition sfOk (eh : bool) (off : Z) (c : scie) (f : sfde) : Prop :=
  encOk (scEnc c) (sfLoc f) /\ encOk (scEnc c) (sfRange f) /\ 0 <= sfRange f /\ (if sfBig f then eh = false else zlen (fdeBody eh off c f) < 4294967280) /\
  (scHasZ c = false -> sfAug f = []) /\
  (if eh then 0 < off + 4 - sfCie f < 2 ^ 32 else if sfBig f then sfCie f <> 4294967295 else 0 <= sfCie f < 4294967295).
(** The code an FDE at [off] in a section at [sa] is for. *)
Definition fdeStart (sa off : Z) (c : scie) (f : sfde) : Z := target (scEnc c) (sa + (off + headLen (sfBig f))) sa (sfLoc f).

(** ** Sections: entries by offset *)
Inductive entry : Type := ECie (c : scie) | EFde (f : sfde).
Definition cieOf (es : list (Z * entry)) (o : Z) : option scie :=
  match find (fun e => fst e =? o) es with Some (_, ECie c) => Some c | _ => None end.
Definition entryBytes (eh : bool) (es : list (Z * entry)) (o : Z) (e : entry) : list Z :=
  match e with
  | ECie c => cieBytes eh c
  | EFde f => match cieOf es (sfCie f) with Some c => fdeBytes eh o c f | None => [] end
  end.
Definition entryOk (eh : bool) (es : list (Z * entry)) (o : Z) (e : entry) : Prop :=
  match e with
  | ECie c => scOk eh c
  | EFde f => exists c, cieOf es (sfCie f) = Some c /\ sfOk eh o c f
  end.
(** The entries [es] follow each other from [off] to the end of the section or a terminator. *)
Fixpoint layout (eh : bool) (all : list (Z * entry)) (data : list Z) (off : Z) (es : list (Z * entry)) : Prop :=
  match es with
  | [] => off = zlen data \/ exists rest, zdrop off data = [0; 0; 0; 0] ++ rest
  | (o, e) :: r => o = off /\ (exists rest, zdrop off data = entryBytes eh all o e ++ rest) /\ layout eh all data (off + zlen (entryBytes eh all o e)) r
  end.
Definition section (eh : bool) (data : list Z) (es : list (Z * entry)) : Prop :=
  Forall isByte data /\ zlen data < 2 ^ 63 /\ Forall (fun x => entryOk eh es (fst x) (snd x)) es /\ layout eh es data 0 es.

(** ** What is read of them *)
Definition lies (data : list Z) (off : Z) (l : list Z) : Prop := 0 <= off /\ exists rest, zdrop off data = l ++ rest.
(** [c'] is the CIE [c] and its instructions lie between its [cInsns] and [cEnd]. *)
Definition isCie (data : list Z) (c' : cie) (c : scie) : Prop :=
  cVersion c' = scVersion c /\ cAug c' = augText c /\ cEnc c' = encCode (scEnc c) /\ cCode c' = scCode c /\ cData c' = scData c /\ cRar c' = scRar c /\
  cSignal c' = scSignal c /\ cLsda c' = scLsda c /\ lies data (cInsns c') (scInsns c) /\ cEnd c' = cInsns c' + zlen (scInsns c).
(** [f'] is the FDE [f] found at [o]; its instructions follow its length, its CIE, the code it is for and its augmentation. *)
Definition isFde (data : list Z) (sa : Z) (es : list (Z * entry)) (f' : fdeE) (x : Z * sfde) : Prop :=
  exists c, cieOf es (sfCie (snd x)) = Some c /\ fLoc f' = fdeStart sa (fst x) c (snd x) /\ fRange f' = sfRange (snd x) /\ fAug f' = sfAug (snd x) /\
  fCie f' = sfCie (snd x) /\ lies data (fInsns f') (sfInsns (snd x)) /\ fEnd f' = fInsns f' + zlen (sfInsns (snd x)) /\
  fInsns f' = fst x + headLen (sfBig (snd x)) + zlen (fmtBytes (fst (scEnc c)) (sfLoc (snd x))) + zlen (fmtBytes (fst (scEnc c)) (sfRange (snd x))) +
              zlen (if scHasZ c then uleb (zlen (sfAug (snd x))) ++ sfAug (snd x) else []).
Definition fdesOf (es : list (Z * entry)) : list (Z * sfde) := flat_map (fun x => match snd x with EFde f => [(fst x, f)] | ECie _ => [] end) es.
(** The code an FDE covers. *)
Definition startOf (sa : Z) (es : list (Z * entry)) (x : Z * sfde) : Z :=
  match cieOf es (sfCie (snd x)) with Some c => fdeStart sa (fst x) c (snd x) | None => 0 end.
Definition covers (sa : Z) (es : list (Z * entry)) (x : Z * sfde) (a : Z) : Prop := startOf sa es x <= a < startOf sa es x + sfRange (snd x).
(** No two FDEs are for the same code, and none runs past the end of the address space. *)
Definition disjointFdes (sa : Z) (es : list (Z * entry)) (fs : list (Z * sfde)) : Prop :=
  Forall (fun x => 0 < sfRange (snd x) /\ startOf sa es x + sfRange (snd x) < 2 ^ 64) fs /\
  ForallOrdPairs (fun x y => startOf sa es x + sfRange (snd x) <= startOf sa es y \/ startOf sa es y + sfRange (snd y) <= startOf sa es x) fs.

(** ** .eh_frame_hdr: version, encodings, pointer to .eh_frame, number of FDEs, and a table of code
    address and FDE address. *)
Record shdr : Type := mkSH { shPtrEnc : efmt * eapp; shPtr : Z; shCountFmt : efmt; shTabEnc : efmt * eapp; shTab : list (Z * Z) }.
Definition hdrBytes (h : shdr) : list Z :=
  [1; encCode (shPtrEnc h); encCode (shCountFmt h, AAbs); encCode (shTabEnc h)] ++
  fmtBytes (fst (shPtrEnc h)) (shPtr h) ++ fmtBytes (shCountFmt h) (zlen (shTab h)) ++
  flat_map (fun e => fmtBytes (fst (shTabEnc h)) (fst e) ++ fmtBytes (fst (shTabEnc h)) (snd e)) (shTab h).
(** The table, of a header at [ha], has fixed size entries, absolute or relative to the header, and lists
    the FDEs [fs] in order of the code they are for. *)
Definition hdrOk (sa : Z) (es : list (Z * entry)) (ha : Z) (h : shdr) (fs : list (Z * sfde)) : Prop :=
  encOk (shPtrEnc h) (shPtr h) /\ encOk (shCountFmt h, AAbs) (zlen (shTab h)) /\
  In (fst (shTabEnc h)) [FUdata2; FUdata4; FUdata8; FSdata2; FSdata4; FSdata8] /\ (snd (shTabEnc h) = AAbs \/ snd (shTabEnc h) = ADatarel) /\
  Forall2 (fun e x => encOk (shTabEnc h) (fst e) /\ encOk (shTabEnc h) (snd e) /\
                      target (shTabEnc h) 0 ha (fst e) = startOf sa es x /\ target (shTabEnc h) 0 ha (snd e) = (sa + fst x) mod 2 ^ 64) (shTab h) fs /\
  ForallOrdPairs (fun x y => startOf sa es x <= startOf sa es y) fs.

(** ** Histories: a user looks addresses up and lists all FDEs, in any order *)
Inductive fop : Type := Look (a : Z) | ListAll.
Inductive reply : Type := RLook (r : res (option fdeE)) | RList (r : res (list (option fdeE))).
Fixpoint replies (data : list Z) (eh : bool) (sa : Z) (fuel : nat) (k : cfi) (ops : list fop) : list reply :=
  match ops with
  | [] => []
  | Look a :: r => let (k', x) := find_fde data eh sa fuel k a in RLook x :: replies data eh sa fuel k' r
  | ListAll :: r => let (k', x) := get_fdes data eh sa fuel k in RList x :: replies data eh sa fuel k' r
  end.
(** The right answers: of a lookup, the FDE of [fs] that covers the address, or none if there is none; of a
    list, all of [fs] in order of the code they are for. *)
Definition rightReply (data : list Z) (sa : Z) (es : list (Z * entry)) (fs : list (Z * sfde)) (o : fop) (r : reply) : Prop :=
  match o, r with
  | Look a, RLook (Ok (Some f')) => exists x, In x fs /\ covers sa es x a /\ isFde data sa es f' x
  | Look a, RLook (Ok None) => forall x, In x fs -> ~ covers sa es x a
  | ListAll, RList (Ok l) => exists fs', (forall x, In x fs' <-> In x fs) /\ length fs' = length fs /\
      ForallOrdPairs (fun x y => startOf sa es x <= startOf sa es y) fs' /\ Forall2 (fun s x => exists f', s = Some f' /\ isFde data sa es f' x) l fs'
  | _, _ => False
  end.
