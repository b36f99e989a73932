(** Model of ReaderArray<T, cachesize> (libpstack/reader.h:228-318) for T of [sz] bytes. *)
From Verif Require Import Base Reader.

Section Array.
Variable rd : Z -> Z -> res (list Z).   (* the underlying reader's read() *)
Variable rsz : Z.                       (* the underlying reader's size() *)
Variable sz : Z.                        (* sizeof(T) *)
Variable cachesize : Z.
Variable base : Z.

(** reader.h:236-240. [abuf] holds the bytes delivered by the last refill; slots of the array
    beyond them are not reachable through [cacheEnd] and are not modelled. *)
Record astate : Type := mkA { cacheStart : Z; cacheEnd : Z; abuf : list Z }.
Definition ainit : astate := mkA 0 0 [].

(** Constructor reader.h:287-294: [eof] or an exception. *)
Definition arrayEof : res Z :=
  if negb (rsz =? offMax) && negb (rsz mod sz =? 0) then Throw
  else Ok (u64 (rsz - base) / sz).

(** getitem reader.h:308-318. If [rd] itself throws, the fields are left as they were
    (simplification: a reader that throws has not touched the buffer). *)
Definition getitem (s : astate) (idx : Z) : astate * res (list Z) :=
  if (cacheStart s >? idx) || (idx >=? cacheEnd s) then
    match rd (u64 (idx * sz + base)) (u64 (cachesize * sz)) with
    | Ok bs =>
        let s' := mkA idx (idx + zlen bs / sz) bs in
        if zlen bs <? sz then (s', Throw) else (s', Ok (ztake sz bs))
    | Throw => (s, Throw)
    | UB => (s, UB)
    | OutOfFuel => (s, OutOfFuel)
    end
  else (s, Ok (ztake sz (zdrop ((idx - cacheStart s) * sz) (abuf s)))).

(** for (auto &x : array): begin() is index 0, the sentinel compares idx == eof
    (reader.h:266-268, 283-284). [n] is eof - idx. *)
Fixpoint iterate (n : nat) (s : astate) (idx : Z) : astate * res (list (list Z)) :=
  match n with
  | O => (s, Ok [])
  | S k => match getitem s idx with
           | (s', Ok x) => match iterate k s' (idx + 1) with
                           | (s'', Ok r) => (s'', Ok (x :: r))
                           | (s'', e) => (s'', e)
                           end
           | (s', Throw) => (s', Throw)
           | (s', UB) => (s', UB)
           | (s', OutOfFuel) => (s', OutOfFuel)
           end
  end.

(** An arbitrary sequence of accesses; the outcomes in order. *)
Fixpoint accesses (s : astate) (idxs : list Z) : list (res (list Z)) :=
  match idxs with
  | [] => []
  | i :: r => let '(s', x) := getitem s i in x :: accesses s' r
  end.
End Array.
