(** Specification: UTF-8 (RFC 3629), UTF-16 (RFC 2781) and JSON strings (RFC 8259 section 7). *)
From Verif Require Import Base.

Definition scalar (cp : Z) : Prop := 0 <= cp < 1114112 /\ ~ (55296 <= cp < 57344).
Definition utf8 (cp : Z) : list Z :=
  if cp <? 128 then [cp]
  else if cp <? 2048 then [192 + cp / 64; 128 + cp mod 64]
  else if cp <? 65536 then [224 + cp / 4096; 128 + cp / 64 mod 64; 128 + cp mod 64]
  else [240 + cp / 262144; 128 + cp / 4096 mod 64; 128 + cp / 64 mod 64; 128 + cp mod 64].
Definition utf16 (cp : Z) : list Z :=
  if cp <? 65536 then [cp] else [55296 + (cp - 65536) / 1024; 56320 + (cp - 65536) mod 1024].

Definition isHex (c d : Z) : Prop := 0 <= d < 16 /\ (c = 48 + d /\ d < 10 \/ c = 97 + (d - 10) /\ 10 <= d \/ c = 65 + (d - 10) /\ 10 <= d).
(** the two-character escapes: the letter and what it stands for *)
Definition shortEscape : list (Z * Z) := [(34, 34); (92, 92); (47, 47); (98, 8); (102, 12); (110, 10); (114, 13); (116, 9)].
(** the characters of a string literal between the quotes, and the UTF-16 text they stand for *)
Inductive jsonChars : list Z -> list Z -> Prop :=
| JNil : jsonChars [] []
| JPlain cp b t : scalar cp -> 32 <= cp -> cp <> 34 -> cp <> 92 -> jsonChars b t -> jsonChars (utf8 cp ++ b) (utf16 cp ++ t)
| JShort x cp b t : In (x, cp) shortEscape -> jsonChars b t -> jsonChars (92 :: x :: b) (cp :: t)
| JHex a b c d da db dc dd r t : isHex a da -> isHex b db -> isHex c dc -> isHex d dd -> jsonChars r t ->
    jsonChars (92 :: 117 :: a :: b :: c :: d :: r) (4096 * da + 256 * db + 16 * dc + dd :: t).
Definition jsonString (lit text : list Z) : Prop := exists b, lit = [34] ++ b ++ [34] /\ jsonChars b text.
