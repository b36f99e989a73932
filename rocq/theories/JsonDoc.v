(** Model of JSON documents: libpstack/json.h.  [jval] is what is given to operator <<: the C++ type chooses the printer. *)
From Coq Require Import Ascii String.
From Verif Require Import Base Json Args FrameText.

(** [VNull] JsonNull or an empty optional (json.h:301-315; a full optional prints as its value), [VBool], [VInt] (66-81: any integer, the stream in its
    default state), [VStr] (241-245), [VList] a container (150-161, 171-187), [VMap] a container of pairs whose first is a string (135-147),
    [VObj] what a JObject writes (259-287) and a pair (291-297); [VSeq] the list that dump.cc:219-234 and 440-480
    write by hand, which closes without a space. *)
Inductive jval : Type :=
| VNull | VBool (b : bool) | VInt (n : Z) | VStr (s : list Z) | VList (l : list jval) | VMap (l : list (list Z * jval)) | VObj (l : list (list Z * jval)) | VSeq (l : list jval).

(** The text of a value; a string may throw in the middle (C41), which ends everything.  [sep] is the separator before the next element. *)
Fixpoint jprint (v : jval) : res (list Z) :=
  match v with
  | VNull => Ok (txt "null")
  | VBool b => Ok (if b then txt "true" else txt "false")
  | VInt n => Ok (intText n)
  | VStr s => printString s
  | VList l =>
      let* t := (fix items (sep : list Z) (l : list jval) : res (list Z) :=
        match l with
        | [] => Ok []
        | v :: r => let* a := jprint v in let* b := items [44; 10] r in Ok (sep ++ a ++ b)
        end) [] l in
      Ok (txt "[ " ++ t ++ txt " ]")
  | VMap l =>
      let* t := (fix members (sep : list Z) (l : list (list Z * jval)) : res (list Z) :=
        match l with
        | [] => Ok []
        | (k, v) :: r => let* a := printString k in let* b := jprint v in let* c := members [44; 10] r in Ok (sep ++ (a ++ [58] ++ b) ++ c)
        end) [] l in
      Ok ([123] ++ t ++ [125])
  | VObj l =>
      let* t := (fix members (sep : list Z) (l : list (list Z * jval)) : res (list Z) :=
        match l with
        | [] => Ok []
        | (k, v) :: r => let* a := printString k in let* b := jprint v in let* c := members [44; 32] r in Ok (sep ++ (a ++ [58] ++ b) ++ c)
        end) [] l in
      Ok (txt "{ " ++ t ++ txt " }")
  | VSeq l =>
      let* t := (fix items (sep : list Z) (l : list jval) : res (list Z) :=
        match l with
        | [] => Ok []
        | v :: r => let* a := jprint v in let* b := items [44; 10] r in Ok (sep ++ a ++ b)
        end) [] l in
      Ok (txt "[ " ++ t ++ txt "]")
  end.
