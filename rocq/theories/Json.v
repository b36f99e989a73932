(** Model of JSON string output: libpstack/json.h:185-245.  A string is the list of its bytes (0-255); so is the text
    written to the stream. *)
From Verif Require Import Base.

(** std::hex << v: lower-case digits without leading zeros; 64-bit values have at most 16 *)
Definition hexChar (d : Z) : Z := if d <? 10 then 48 + d else 97 + (d - 10).
Fixpoint hexText (fuel : nat) (v : Z) : list Z :=
  match fuel with
  | O => []
  | S f => if v <? 16 then [hexChar v] else hexText f (v / 16) ++ [hexChar (v mod 16)]
  end.
(** setfill('0') << setw(4) *)
Definition padTo4 (s : list Z) : list Z := repeat 48 (4 - length s) ++ s.
(** json.h:222-227: the loop clearing the leading ones of the first byte of a sequence and counting them.  mask is an int
    from 0x80 down, so at most nine tests are made. *)
Fixpoint leadLoop (fuel : nat) (mask v count : Z) : Z * Z :=
  match fuel with
  | O => (count, v)
  | S f => if Z.land mask v =? 0 then (count, v) else leadLoop f (Z.shiftr mask 1) (Z.land v (Z.lnot mask)) (count + 1)
  end.
Definition leadByte (c : Z) : Z * Z := leadLoop 9 128 c 0.
(** json.h:228-233: while (--count).  Reading past the end of the view is undefined. *)
Fixpoint contBytes (n : nat) (v : Z) (l : list Z) : res (Z * list Z) :=
  match n with
  | O => Ok (v, l)
  | S n' => match l with
            | [] => UB
            | c :: r => if negb (Z.land c 192 =? 128) then Throw else contBytes n' (u64 (Z.lor (Z.shiftl v 6) (Z.land c 63))) r
            end
  end.
(** operator << (Escape) json.h:196-239 *)
Fixpoint escape (fuel : nat) (l : list Z) : res (list Z) :=
  match fuel with
  | O => OutOfFuel
  | S f =>
      match l with
      | [] => Ok []
      | c :: r =>
          let plain s := let* t := escape f r in Ok (s ++ t) in
          if c =? 8 then plain [92; 98]
          else if c =? 12 then plain [92; 102]
          else if c =? 10 then plain [92; 110]
          else if c =? 34 then plain [92; 34]
          else if c =? 92 then plain [92; 92]
          else if c =? 13 then plain [92; 114]
          else if c =? 9 then plain [92; 116]
          else if c <? 32 then plain ([92; 117] ++ hexText 16 c)
          else if negb (Z.land c 128 =? 0) then
            let (count, v) := leadByte c in
            let* (v, r) := contBytes (Z.to_nat (count - 1)) v r in
            let* t := escape f r in
            Ok ([92; 117] ++ padTo4 (hexText 16 v) ++ t)
          else plain [c]
      end
  end.
(** operator << (JSON<Stringish>) json.h:241-245 *)
Definition printString (l : list Z) : res (list Z) := let* t := escape (S (length l)) l in Ok ([34] ++ t ++ [34]).
