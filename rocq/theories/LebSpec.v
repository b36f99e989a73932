(** Independent specification of LEB128 (DWARF 5, section 7.6 and appendix C). *)
From Verif Require Import Base.

(** Value of a digit string: seven bits per byte, least significant first. *)
Fixpoint digits7 (bs : list Z) : Z :=
  match bs with [] => 0 | b :: r => b mod 128 + 128 * digits7 r end.

(** Encoders as given in DWARF 5 appendix C, figure C.1 / C.2. The first argument bounds the
    number of bytes; 10 is enough for 64-bit values. *)
Fixpoint encodeU (n : nat) (v : Z) : list Z :=
  match n with
  | O => []
  | S k => if v <? 128 then [v] else (v mod 128 + 128) :: encodeU k (v / 128)
  end.
Fixpoint encodeS (n : nat) (v : Z) : list Z :=
  match n with
  | O => []
  | S k => let byte := v mod 128 in let v' := v / 128 in
           if ((v' =? 0) && (byte <? 64)) || ((v' =? -1) && (64 <=? byte)) then [byte]
           else (byte + 128) :: encodeS k v'
  end.

(** A complete encoding: continuation bytes then one final byte. *)
Definition continuation (b : Z) : Prop := 128 <= b < 256.
Definition final (b : Z) : Prop := 0 <= b < 128.
