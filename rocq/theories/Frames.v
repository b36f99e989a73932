(** Model of reading a frame section: CIE and FDE constructors, full decoding, and lazy lookup through
    .eh_frame_hdr (dwarf_frame.cc:88-269, 299-383).  The image is 64 bit.  A failed assert ends the
    program; it is represented by [UB]. *)
From Verif Require Import Base DwarfReader Cfi.

(** CIE dwarf.h:509-530 *)
Record cie : Type := mkC { cVersion : Z; cAug : list Z; cEnc : Z; cCode : Z; cData : Z; cRar : Z; cLsda : Z; cSignal : bool; cInsns : Z; cEnd : Z }.
(** FDE dwarf.h:497-507; the CIE by its offset. *)
Record fdeE : Type := mkF { fLoc : Z; fRange : Z; fAug : list Z; fInsns : Z; fEnd : Z; fCie : Z }.

Section Frames.
(** The section's contents, whether it is .eh_frame, and its address. *)
Context (data : list Z) (eh : bool) (sa : Z).

(** CIE::CIE 346-373: the loop over the augmentation: z 122, P 80, L 76, R 82, S 83. *)
Record augst : Type := mkAug { aEnc : Z; aLsda : Z; aSig : bool; aEnd : Z; aOff : Z }.
Fixpoint augLoop (aug : list Z) (s : augst) : res augst :=
  match aug with
  | [] => Ok s
  | c :: r =>
      if c =? 122 then
        let* (n, o) := getuleb data (aOff s) in augLoop r (mkAug (aEnc s) (aLsda s) (aSig s) (u64 (n + o)) o)
      else if c =? 80 then
        let* (e, o) := getu8 data (aOff s) in
        let* (_, _, o') := decodeAddress data o e sa sa in
        augLoop r (mkAug (aEnc s) (aLsda s) (aSig s) (aEnd s) o')
      else if c =? 76 then
        let* (e, o) := getu8 data (aOff s) in augLoop r (mkAug (aEnc s) e (aSig s) (aEnd s) o)
      else if c =? 82 then
        let* (e, o) := getu8 data (aOff s) in augLoop r (mkAug e (aLsda s) (aSig s) (aEnd s) o)
      else if c =? 83 then augLoop r (mkAug (aEnc s) (aLsda s) true (aEnd s) (aOff s))
      else if c =? 0 then augLoop r s
      else Ok s
  end.
(** CIE::CIE 317-383.  Simplification: the address and segment sizes of version 4 are skipped, as they are
    not used.  codeAlign is an unsigned and dataAlign an int (dwarf.h:553-554). *)
Definition readCIE (off end_ : Z) : res cie :=
  let* (v, o1) := getu8 data off in
  let (aug, o2) := getstring data o1 in
  let* o3 := if v >=? 4 then let* (_, o) := getu8 data o2 in let* (_, o') := getu8 data o in Ok o' else Ok o2 in
  let* (code, o4) := getuleb data o3 in
  let* (dat, o5) := getsleb data o4 in
  let* (rar, o6) := getu8 data o5 in
  let* s := augLoop aug (mkAug 4 0 false o6 o6) in
  Ok (mkC v aug (aEnc s) (u32 code) (s32 dat) rar (aLsda s) (aSig s) (if aOff s =? aEnd s then aOff s else aEnd s) end_).
(** FDE::FDE 299-315 *)
Fixpoint bytesLoop (n : nat) (off : Z) : res (list Z * Z) :=
  match n with
  | O => Ok ([], off)
  | S k => let* (b, o) := getu8 data off in let* (r, o') := bytesLoop k o in Ok (b :: r, o')
  end.
Definition readFDE (c : cie) (off cieOff end_ : Z) : res fdeE :=
  let* (loc, indirect, o1) := decodeAddress data off (cEnc c) sa sa in
  if indirect : bool then Throw
  else
    let* (rng, _, o2) := decodeAddress data o1 (Z.land (cEnc c) 15) sa sa in
    let* (aug, o3) := (match cAug c with
                       | z :: _ => if z =? 122 then let* (n, o) := getuleb data o2 in bytesLoop (Z.to_nat n) o else Ok ([], o2)
                       | [] => Ok ([], o2)
                       end) in
    Ok (mkF loc rng aug o3 end_ cieOff).

(** CFI::cies *)
Definition cies : Type := list (Z * cie).
Definition cieFind (o : Z) (cs : cies) : option cie := option_map snd (find (fun e => fst e =? o) cs).
Inductive put : Type := PEnd | PCie (next : Z) | PFde (f : fdeE) (next : Z).
(** CFI::putFDEorCIE 107-128 (putCIE 98-103 keeps a CIE that is there).  The CIEs read so far stay, even
    if reading on fails. *)
Fixpoint putEntry (fuel : nat) (cs : cies) (off : Z) : cies * res put :=
  match fuel with
  | O => (cs, OutOfFuel)
  | S f =>
      match decodeHdr data eh off with
      | Ok (next, co, o) =>
          if next =? 0 then (cs, Ok PEnd)
          else if co =? W64 - 1 then
            match readCIE o next with
            | Ok c => ((if cieFind off cs then cs else cs ++ [(off, c)]), Ok (PCie next))
            | Throw => (cs, Throw)
            | UB => (cs, UB)
            | OutOfFuel => (cs, OutOfFuel)
            end
          else
            let '(cs1, r) := match cieFind co cs with
                             | Some _ => (cs, Ok tt)
                             | None => match putEntry f cs co with
                                       | (c', Ok (PCie _)) => (c', Ok tt)
                                       | (c', Ok _) => (c', UB)
                                       | (c', Throw) => (c', Throw)
                                       | (c', UB) => (c', UB)
                                       | (c', OutOfFuel) => (c', OutOfFuel)
                                       end
                             end in
            match r with
            | Ok _ => match cieFind co cs1 with
                      | None => (cs1, Throw)
                      | Some c => (cs1, let* fd := readFDE c o co next in Ok (PFde fd next))
                      end
            | Throw => (cs1, Throw)
            | UB => (cs1, UB)
            | OutOfFuel => (cs1, OutOfFuel)
            end
      | Throw => (cs, Throw)
      | UB => (cs, UB)
      | OutOfFuel => (cs, OutOfFuel)
      end
  end.

(** The constructor's full decoding 205-219 (reader.empty(): the cursor equals the size, dwarf.h:978). *)
Fixpoint allLoop (fuel : nat) (cs : cies) (off : Z) : res (cies * list fdeE) :=
  match fuel with
  | O => OutOfFuel
  | S f =>
      if off =? zlen data then Ok (cs, [])
      else match putEntry fuel cs off with
           | (cs', Ok PEnd) => Ok (cs', [])
           | (cs', Ok (PCie next)) => allLoop f cs' next
           | (cs', Ok (PFde fd next)) => let* (cs'', l) := allLoop f cs' next in Ok (cs'', fd :: l)
           | (_, Throw) => Throw
           | (_, UB) => UB
           | (_, OutOfFuel) => OutOfFuel
           end
  end.
(** std::sort by location.  The order of entries with equal locations is unspecified; here it is that
    of the section. *)
Fixpoint sortIn (x : fdeE) (l : list fdeE) : list fdeE :=
  match l with
  | [] => [x]
  | y :: r => if fLoc y <? fLoc x then y :: sortIn x r else x :: y :: r
  end.
Definition sortF (l : list fdeE) : list fdeE := fold_right sortIn [] l.
Definition decodeAll (fuel : nat) : res (cies * list fdeE) := let* (cs, l) := allLoop fuel [] 0 in Ok (cs, sortF l).

(** ** Lazily through .eh_frame_hdr *)
(** sizeForEncoding 88-95 *)
Definition encSize (e : Z) : Z :=
  let k := Z.land e 15 in
  if (k =? 2) || (k =? 10) then 2 else if (k =? 3) || (k =? 11) then 4 else if (k =? 4) || (k =? 12) then 8 else 0.
(** A CFI object: the CIEs, the FDEs read so far, and the search table (its contents, encoding, and the
    address of .eh_frame_hdr) unless everything has been read. *)
Record cfi : Type := mkCfi { kCies : cies; kFdes : list (option fdeE); kTable : option (list Z); kEnc : Z; kHdr : Z }.
(** CFI::CFI 139-220 for a section that exists.  [hdr]: .eh_frame_hdr and its address, if there is one (and
    NO_EH_FRAME_HDR is not set).  DW_EH_PE_omit (255) never equals a value masked with 15 (176). *)
Definition makeCfi (fuel : nat) (hdr : option (list Z * Z)) : res cfi :=
  let full := let* (cs, l) := decodeAll fuel in Ok (mkCfi cs (map Some l) None 0 0) in
  match (if eh then hdr else None) with
  | None => full
  | Some (h, ha) =>
      let* (_, o1) := getu8 h 0 in
      let* (pe, o2) := getu8 h o1 in
      let* (ce, o3) := getu8 h o2 in
      let* (te, o4) := getu8 h o3 in
      if (Z.land te 15 =? 255) || (Z.land ce 15 =? 255) then full
      else if encSize te =? 0 then full
      else
        let* (_, _, o5) := decodeAddress h o4 pe sa ha in
        let* (n, _, o6) := decodeAddress h o5 ce sa 0 in
        Ok (mkCfi [] (repeat None (Z.to_nat n)) (Some (zdrop o6 h)) te ha)
  end.
Fixpoint setNth {A} (l : list A) (i : nat) (x : A) : list A :=
  match l, i with
  | [], _ => []
  | _ :: r, O => x :: r
  | y :: r, S k => y :: setNth r k x
  end.
(** CFI::ensureFDE 223-238 *)
Definition ensure (fuel : nat) (k : cfi) (i : Z) : cfi * res fdeE :=
  match znth i (kFdes k) with
  | None => (k, UB)
  | Some (Some f) => (k, Ok f)
  | Some None =>
      match kTable k with
      | None => (k, UB)
      | Some t =>
          match (let* (a, _, o) := decodeAddress t (encSize (kEnc k) * 2 * i) (kEnc k) sa (kHdr k) in
                 let* (p, _, _) := decodeAddress t o (kEnc k) sa (kHdr k) in Ok (a, p)) with
          | Ok (a, p) =>
              match putEntry fuel (kCies k) (u64 (p - sa)) with
              | (cs, Ok (PFde f _)) =>
                  (mkCfi cs (setNth (kFdes k) (Z.to_nat i) (Some f)) (kTable k) (kEnc k) (kHdr k), if a =? fLoc f then Ok f else UB)
              | (cs, Ok _) => (mkCfi cs (kFdes k) (kTable k) (kEnc k) (kHdr k), UB)
              | (cs, Throw) => (mkCfi cs (kFdes k) (kTable k) (kEnc k) (kHdr k), Throw)
              | (cs, UB) => (mkCfi cs (kFdes k) (kTable k) (kEnc k) (kHdr k), UB)
              | (cs, OutOfFuel) => (mkCfi cs (kFdes k) (kTable k) (kEnc k) (kHdr k), OutOfFuel)
              end
          | Throw => (k, Throw)
          | UB => (k, UB)
          | OutOfFuel => (k, OutOfFuel)
          end
      end
  end.
(** CFI::findFDE 249-269 *)
Fixpoint findLoop (n : nat) (fuel : nat) (k : cfi) (addr start end_ : Z) : cfi * res (option fdeE) :=
  match n with
  | O => (k, OutOfFuel)
  | S n' =>
      if start <? end_ then
        let mid := start + (end_ - start) / 2 in
        match ensure fuel k mid with
        | (k', Ok e) =>
            if fLoc e <=? addr then
              if addr <? u64 (fLoc e + fRange e) then (k', Ok (Some e))
              else findLoop n' fuel k' addr (mid + 1) end_
            else findLoop n' fuel k' addr start mid
        | (k', Throw) => (k', Throw)
        | (k', UB) => (k', UB)
        | (k', OutOfFuel) => (k', OutOfFuel)
        end
      else (k, Ok None)
  end.
Definition find_fde (fuel : nat) (k : cfi) (addr : Z) : cfi * res (option fdeE) :=
  findLoop (S (length (kFdes k))) fuel k addr 0 (zlen (kFdes k)).
(** CFI::ensureFDEs 240-247 and getFDEs 130-133 *)
Fixpoint ensureLoop (n : nat) (fuel : nat) (k : cfi) (i : Z) : cfi * res unit :=
  match n with
  | O => (k, Ok tt)
  | S n' => match ensure fuel k i with
            | (k', Ok _) => ensureLoop n' fuel k' (i + 1)
            | (k', Throw) => (k', Throw)
            | (k', UB) => (k', UB)
            | (k', OutOfFuel) => (k', OutOfFuel)
            end
  end.
Definition get_fdes (fuel : nat) (k : cfi) : cfi * res (list (option fdeE)) :=
  match kTable k with
  | None => (k, Ok (kFdes k))
  | Some _ => match ensureLoop (length (kFdes k)) fuel k 0 with
              | (k', Ok _) => let k'' := mkCfi (kCies k') (kFdes k') None (kEnc k') (kHdr k') in (k'', Ok (kFdes k''))
              | (k', Throw) => (k', Throw)
              | (k', UB) => (k', UB)
              | (k', OutOfFuel) => (k', OutOfFuel)
              end
  end.
End Frames.
