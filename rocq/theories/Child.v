(** Model of startChild, pstack.cc:53-150: run a command, watch the signals it gets, show its stack at
    the first that will terminate it. *)
From Verif Require Import Base Maps.

(** ** The command line, 58-69 *)
(** std::string::find(c, off), and substr(off, count). *)
Fixpoint findFrom (c : Z) (s : list Z) (off : nat) (at_ : nat) : option nat :=
  match s with
  | [] => None
  | x :: r => if (off <=? at_)%nat && (x =? c) then Some at_ else findFrom c r off (1 + at_)
  end.
Definition substr (s : list Z) (off count : nat) : list Z := firstn count (skipn off s).
(** The loop; [cmd.substr(off, pos)] passes the position where a count is wanted. *)
Fixpoint splitArgs (fuel : nat) (cmd : list Z) (off : nat) : res (list (list Z)) :=
  match fuel with
  | O => OutOfFuel
  | S f =>
      match findFrom 32 cmd off 0 with
      | None => Ok [skipn off cmd]
      | Some pos => let* r := splitArgs f cmd (pos + 1) in Ok (substr cmd off pos :: r)
      end
  end.

(** ** The signal masks, 110-123 *)
(** fgets with a buffer of 4096: at most 4095 bytes, up to and including a newline. *)
Fixpoint fgets (n : Z) (l : list Z) : list Z * list Z :=
  match l with
  | [] => ([], [])
  | c :: r => if n <=? 0 then ([], l) else if c =? 10 then ([c], r) else let (a, b) := fgets (n - 1) r in (c :: a, b)
  end.
(** strtoull(s, 0, 16).  Simplification: leading white space, a sign and "0x" are not modelled; the
    kernel writes 16 digits. *)
Fixpoint strtoullHex (v : Z) (l : list Z) : Z :=
  match l with
  | [] => v
  | c :: r => match hexDigit c with
              | Some d => strtoullHex (Z.min (v * 16 + d) (W64 - 1)) r
              | None => v
              end
  end.
Fixpoint startsWith (p l : list Z) : option (list Z) :=
  match p, l with
  | [], _ => Some l
  | x :: p', y :: l' => if x =? y then startsWith p' l' else None
  | _, [] => None
  end.
Definition sigBlkTxt : list Z := [83; 105; 103; 66; 108; 107; 58; 9].
Definition sigCgtTxt : list Z := [83; 105; 103; 67; 103; 116; 58; 9].
Definition sigIgnTxt : list Z := [83; 105; 103; 73; 103; 110; 58; 9].
Record masks : Type := mkMasks { mBlk : Z; mIgn : Z; mCgt : Z }.
Fixpoint readMasks (fuel : nat) (file : list Z) (m : masks) : res masks :=
  match fuel with
  | O => OutOfFuel
  | S f =>
      match file with
      | [] => Ok m
      | _ =>
          let (line, rest) := fgets 4095 file in
          readMasks f rest
            (match startsWith sigBlkTxt line with
             | Some t => mkMasks (strtoullHex 0 t) (mIgn m) (mCgt m)
             | None => match startsWith sigCgtTxt line with
                       | Some t => mkMasks (mBlk m) (mIgn m) (strtoullHex 0 t)
                       | None => match startsWith sigIgnTxt line with
                                 | Some t => mkMasks (mBlk m) (strtoullHex 0 t) (mCgt m)
                                 | None => m
                                 end
                       end
             end)
      end
  end.

(** ** One stop, 124-138 *)
(** [1 << (sig - 1)] as an int, converted to unsigned long: shifting by 32 or more is undefined. *)
Definition sigBit (sig : Z) : res Z :=
  if (1 <=? sig) && (sig <=? 31) then Ok (2 ^ (sig - 1))
  else if sig =? 32 then Ok (W64 - 2 ^ 31)
  else UB.
Inductive action : Type := ShowAndKill | Continue (sig : Z).
Definition onStop (sig : Z) (m : masks) : res action :=
  let handled := Z.lor (Z.lor (Z.lor (mBlk m) (mCgt m)) (mIgn m)) (2 ^ (5 - 1)) in
  let contsig := if (sig =? 19) || (sig =? 5) then 0 else sig in
  let* b := sigBit sig in
  if Z.land b handled =? 0 then Ok ShowAndKill else Ok (Continue contsig).

(** ** The loop, 96-146 *)
(** What [wait] reports of the child: stopped by a signal (with what /proc/<pid>/status then says), or
    ended. *)
Inductive event : Type := Stopped (sig : Z) (status : list Z) | Ended.
Fixpoint watch (evs : list event) : res (list action) :=
  match evs with
  | [] => Ok []
  | Ended :: _ => Ok []
  | Stopped sig status :: r =>
      let* m := readMasks (1 + length status) status (mkMasks (W64 - 1) (W64 - 1) (W64 - 1)) in
      let* a := onStop sig m in
      let* l := watch r in
      Ok (a :: l)
  end.
