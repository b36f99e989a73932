(** Specification: JSON texts (RFC 8259 sections 2 to 7).  Numbers are integers: fractions and exponents are left out. *)
From Coq Require Import Ascii String.
From Verif Require Import Base Json JsonSpec MapsSpec ArgsSpec FrameTextSpec JsonDoc.
(* from JsonDoc only [jval], the values that are given to the printers *)

(** A JSON value; the text of a string is UTF-16 (JsonSpec), the members of an object are in the order written. *)
Inductive jvalue : Type :=
| XNull | XBool (b : bool) | XNum (n : Z) | XStr (t : list Z) | XArr (l : list jvalue) | XObj (l : list (list Z * jvalue)).

Definition isWs (c : Z) : Prop := c = 32 \/ c = 9 \/ c = 10 \/ c = 13.
Definition ws (l : list Z) : Prop := Forall isWs l.

Inductive jsonDoc : list Z -> jvalue -> Prop :=
| DNull : jsonDoc (lit "null") XNull
| DTrue : jsonDoc (lit "true") (XBool true)
| DFalse : jsonDoc (lit "false") (XBool false)
| DNum t n : decimal t n -> jsonDoc t (XNum n)
| DStr t s : jsonString t s -> jsonDoc t (XStr s)
| DArrEmpty w : ws w -> jsonDoc ([91] ++ w ++ [93]) (XArr [])
| DArr b l : jsonElems b l -> jsonDoc ([91] ++ b ++ [93]) (XArr l)
| DObjEmpty w : ws w -> jsonDoc ([123] ++ w ++ [125]) (XObj [])
| DObj b l : jsonMembers b l -> jsonDoc ([123] ++ b ++ [125]) (XObj l)
(** values with space around them, and commas between *)
with jsonElems : list Z -> list jvalue -> Prop :=
| ElLast w t w' v : ws w -> jsonDoc t v -> ws w' -> jsonElems (w ++ t ++ w') [v]
| ElCons w t w' v b l : ws w -> jsonDoc t v -> ws w' -> jsonElems b l -> jsonElems (w ++ t ++ w' ++ [44] ++ b) (v :: l)
with jsonMembers : list Z -> list (list Z * jvalue) -> Prop :=
| MeLast w k kt w1 w2 t w3 v : ws w -> jsonString k kt -> ws w1 -> ws w2 -> jsonDoc t v -> ws w3 -> jsonMembers (w ++ k ++ w1 ++ [58] ++ w2 ++ t ++ w3) [(kt, v)]
| MeCons w k kt w1 w2 t w3 v b l : ws w -> jsonString k kt -> ws w1 -> ws w2 -> jsonDoc t v -> ws w3 -> jsonMembers b l ->
    jsonMembers (w ++ k ++ w1 ++ [58] ++ w2 ++ t ++ w3 ++ [44] ++ b) ((kt, v) :: l).

(** The text of a string in memory (UTF-8) that JSON can carry through pstack (see C41 for the others): its UTF-16 form *)
Definition plainText (s t : list Z) : Prop :=
  exists cps, Forall scalar cps /\ Forall (fun c => c < 65536 /\ (c < 32 -> c = 8 \/ c = 9 \/ c = 10 \/ c = 12 \/ c = 13)) cps /\
  s = flat_map utf8 cps /\ t = flat_map utf16 cps.

(** What the printed values stand for *)
Inductive means : jval -> jvalue -> Prop :=
| mNull : means VNull XNull
| mBool b : means (VBool b) (XBool b)
| mInt n : - 2 ^ 63 <= n < 2 ^ 64 -> means (VInt n) (XNum n)
| mStr s t : plainText s t -> means (VStr s) (XStr t)
| mList l x : meanL l x -> means (VList l) (XArr x)
| mMap l x : meanM l x -> means (VMap l) (XObj x)
| mObj l x : meanM l x -> means (VObj l) (XObj x)
| mSeq l x : meanL l x -> means (VSeq l) (XArr x)
with meanL : list jval -> list jvalue -> Prop :=
| mlNil : meanL [] []
| mlCons v x l y : means v x -> meanL l y -> meanL (v :: l) (x :: y)
with meanM : list (list Z * jval) -> list (list Z * jvalue) -> Prop :=
| mmNil : meanM [] []
| mmCons k t v x l y : plainText k t -> means v x -> meanM l y -> meanM ((k, v) :: l) ((t, x) :: y).
