(** Model of the printing of a frame's arguments: RemoteValue and ArgPrint, process.cc:457-680, and of
    the frames of a stack around it (dumpStackText process.cc:711-713, pstack.cc:45-48). *)
From Verif Require Import Base DwarfReader DwarfReaderProofs Regs Cfi Expr Json.

(** Text written, and how the writing ended. *)
Definition wr : Type := list Z * res unit.
Definition emit (t : list Z) : wr := (t, Ok tt).
Definition andThen (a b : wr) : wr :=
  match snd a with Ok _ => (fst a ++ fst b, snd b) | _ => a end.

(** [os << intmax_t] in decimal; [os << p] for a pointer to void: 0 for a null pointer, otherwise 0x and lower case
    hexadecimal digits. *)
Fixpoint decText (fuel : nat) (v : Z) : list Z :=
  match fuel with
  | O => []
  | S f => if v <? 10 then [48 + v] else decText f (v / 10) ++ [48 + v mod 10]
  end.
Definition intText (v : Z) : list Z := if v <? 0 then 45 :: decText 20 (- v) else decText 20 v.
Definition ptrText (v : Z) : list Z := if v =? 0 then [48] else [48; 120] ++ hexText 16 v.

(** What the code asks of a type's DIE: tag, name, DW_AT_byte_size, DW_AT_encoding, and the DIE
    DW_AT_type refers to; DIEs are known by their offsets. *)
Record tdie : Type := mkT { tTag : Z; tName : list Z; tSize : option Z; tEnc : option Z; tRef : option Z }.

Section Print.
(** The process's memory; Reader::readString of its reader (Reader.v); the debug information's types;
    [os << double], [os << float] of the bytes; the text of an exception. *)
Context (m : memory) (str : Z -> res (list Z)) (types : Z -> option tdie) (dblText fltText : list Z -> list Z) (what : list Z).

(** removeCV process.cc:457-464 (typedef 22, const 38, volatile 53); [None]: the null DIE. *)
Fixpoint removeCV (fuel : nat) (t : option Z) : res (option Z) :=
  match fuel with
  | O => OutOfFuel
  | S f =>
      match t with
      | None => Ok None
      | Some k => match types k with
                  | None => Ok None
                  | Some d => if (tTag d =? 22) || (tTag d =? 38) || (tTag d =? 53) then removeCV f (tRef d) else Ok (Some k)
                  end
      end
  end.
(** RemoteValue's constructor 482-509: the contents of [buf].  A short read leaves the rest 0; [error]
    is set but never looked at. *)
Definition rvBuf (addr : Z) (isValue : bool) (d : tdie) : list Z :=
  if isValue then [addr mod 256; addr / 256 mod 256; addr / 65536 mod 256; addr / 16777216 mod 256;
                   addr / 4294967296 mod 256; addr / 1099511627776 mod 256; addr / 281474976710656 mod 256; addr / 72057594037927936 mod 256]
  else
    let size := match tSize d with
                | Some n => n
                | None => if (tTag d =? 16) || (tTag d =? 15) then 8 else 0
                end in
    let got := prefix m addr (Z.to_nat size) in
    got ++ repeat 0 (Z.to_nat size - length got).
Definition nullTxt : list Z := [40; 110; 117; 108; 108; 41].                                            (* (null) *)
Definition unknownTxt : list Z := [60; 117; 110; 107; 110; 111; 119; 110; 32; 118; 97; 108; 117; 101; 32; 116; 121; 112; 101; 62]. (* <unknown value type> *)
Definition trueTxt : list Z := [116; 114; 117; 101].
Definition falseTxt : list Z := [102; 97; 108; 115; 101].
Definition nullptrTxt : list Z := [45; 62; 110; 117; 108; 108; 112; 116; 114].                          (* ->nullptr *)
Definition unprintableTxt : list Z := [60; 117; 110; 112; 114; 105; 110; 116; 97; 98; 108; 101; 32; 116; 121; 112; 101; 32]. (* <unprintable type  *)
Definition charTxt : list Z := [99; 104; 97; 114].
(** operator<< for DW_TAG_base_type 521-611: encodings address 1, boolean 2, float 4, signed 5,
    signed_char 6, unsigned 7, unsigned_char 8.  Reading more bytes than [buf] has is undefined. *)
Definition baseText (d : tdie) (buf : list Z) : wr :=
  match tEnc d with
  | None => ([], Throw)
  | Some enc =>
      let number (_ : unit) :=
        if zlen buf =? 1 then emit [nth 0 buf 0]                       (* a signed char: the character *)
        else if (zlen buf =? 2) || (zlen buf =? 4) || (zlen buf =? 8) then emit (intText (leSigned buf))
        else emit unknownTxt in
      if enc =? 1 then (if zlen buf <? 8 then ([], UB) else emit (ptrText (leValue (ztake 8 buf))))
      else if enc =? 2 then emit (if existsb (fun b => negb (b =? 0)) buf then trueTxt else falseTxt)
      else if (enc =? 5) || (enc =? 6) then number tt
      else if (enc =? 7) || (enc =? 8) then number tt                  (* through the same signed pointers *)
      else if enc =? 4 then (if zlen buf =? 8 then emit (dblText buf) else if zlen buf =? 4 then emit (fltText buf) else emit [])
      else emit unknownTxt
  end.
(** operator<< for RemoteValue 512-635; [t] is the type as removeCV left it. *)
Fixpoint rvText (fuel : nat) (addr : Z) (isValue : bool) (t : option Z) : wr :=
  match fuel with
  | O => ([], OutOfFuel)
  | S f =>
      match t with
      | None => ([], UB)                                               (* attribute() of the null DIE *)
      | Some k =>
          match types k with
          | None => ([], UB)
          | Some d =>
              let buf := rvBuf addr isValue d in
              if addr =? 0 then emit nullTxt
              else if tTag d =? 36 then baseText d buf
              else if (tTag d =? 16) || (tTag d =? 15) then
                if zlen buf <? 8 then ([], UB)
                else
                  let ptr := leValue (ztake 8 buf) in
                  andThen (emit (ptrText ptr))
                    (match removeCV f (tRef d) with
                     | Ok None => emit []
                     | Ok (Some k') =>
                         match types k' with
                         | None => emit []
                         | Some d' =>
                             if list_eq_dec Z.eq_dec (tName d') charTxt then
                               match str ptr with
                               | Ok s => emit ([32; 34] ++ s ++ [34])
                               | Throw => ([], Throw)
                               | UB => ([], UB)
                               | OutOfFuel => ([], OutOfFuel)
                               end
                             else if ptr =? 0 then emit nullptrTxt
                             else andThen (emit [45; 62]) (rvText f ptr false (Some k'))
                         end
                     | Throw => ([], Throw) | UB => ([], UB) | OutOfFuel => ([], OutOfFuel)
                     end)
              else emit (unprintableTxt ++ tName d ++ [62])
          end
      end
  end.

(** A formal parameter: name, type, the outcome of evaluating DW_AT_location if it has one (the value
    and ExpressionStack::isValue), and DW_AT_const_value. *)
Record param : Type := mkParam { pName : list Z; pType : option Z; pLoc : option (res (Z * bool)); pConst : option Z }.
Inductive child : Type := Param (p : param) | OtherDie.
(** The body of the loop 647-672: an exception of [eval] is not caught, one of the printing is. *)
Definition valueText (fuel : nat) (p : param) : wr :=
  match pType p with
  | None => emit []
  | Some t =>
      match pLoc p with
      | Some (Ok (addr, isv)) =>
          andThen (emit [61])
            (match removeCV fuel (Some t) with
             | Ok t' => match rvText fuel addr isv t' with
                        | (s, Throw) => emit (s ++ [60] ++ what ++ [62])
                        | w => w
                        end
             | Throw => ([], Throw) | UB => ([], UB) | OutOfFuel => ([], OutOfFuel)
             end)
      | Some Throw => ([], Throw)
      | Some UB => ([], UB)
      | Some OutOfFuel => ([], OutOfFuel)
      | None => match pConst p with Some v => emit (61 :: intText v) | None => emit [] end
      end
  end.
Fixpoint argsText (fuel : nat) (sep : list Z) (cs : list child) : wr :=
  match cs with
  | [] => emit []
  | OtherDie :: r => argsText fuel sep r
  | Param p :: r => andThen (emit (sep ++ pName p)) (andThen (valueText fuel p) (argsText fuel [44; 32] r))
  end.
(** The frames of a stack, each with the text before "(" and after ")" (dumpFrameText 776-792).
    Simplification: those texts are given. *)
Record ftext : Type := mkFT { ftBefore : list Z; ftArgs : list child; ftAfter : list Z }.
Definition frameText (fuel : nat) (f : ftext) : wr :=
  andThen (emit (ftBefore f ++ [40])) (andThen (argsText fuel [] (ftArgs f)) (emit (41 :: ftAfter f))).
Fixpoint stackText (fuel : nat) (fs : list ftext) : wr :=
  match fs with
  | [] => emit []
  | f :: r => andThen (frameText fuel f) (stackText fuel r)
  end.
End Print.

(** Evaluating an exprloc location (dwarfproc.cc:200-205, process.cc:656-660): the value and isValue. *)
Definition evalLoc (fuel : nat) (data : list Z) (e : env) (off end_ : Z) : res (Z * bool) :=
  let* (v, s) := evalLoop fuel data e end_ off (est0 []) in Ok (v, isVal s).
