(** Model of canal.cc: glob matching (42-69), the symbol store (71-129), findString (170-196) and search (198-246). *)
From Verif Require Import Base.

(** ** globmatchR canal.cc:42-63.  The lists are what is left of the two C strings, the terminating 0 included; reading past it is
    undefined.  The inner loop for '*' is [globStar]. *)
Fixpoint globR (fuel : nat) (p n : list Z) : res bool :=
  match fuel with
  | O => OutOfFuel
  | S f =>
      match p with
      | [] => UB
      | c :: p' =>
          if c =? 42 then globStar f p' n
          else match n with
               | [] => UB
               | d :: n' => if negb (d =? c) then Ok false else if c =? 0 then Ok true else globR f p' n'
               end
      end
  end
with globStar (fuel : nat) (p n : list Z) : res bool :=
  match fuel with
  | O => OutOfFuel
  | S f =>
      let* b := globR f p n in
      if b then Ok true
      else match n with
           | [] => UB
           | d :: n' => if d =? 0 then Ok false else globStar f p n'
           end
  end.
(** globmatch canal.cc:65-69: c_str() of both *)
Definition globmatch (fuel : nat) (pattern name : list Z) : res bool := globR fuel (pattern ++ [0]) (name ++ [0]).

(** ** ListedSymbol canal.cc:71-85: the value and size of the ELF symbol, the object's load address, and a name; [count] is kept in the store *)
Record lsym : Type := mkLs { lsValue : Z; lsSize : Z; lsBase : Z; lsName : list Z }.
(** canal.cc:84 *)
Definition memaddr (s : lsym) : Z := u64 (lsValue s + lsBase s).
(** SymbolStore canal.cc:87-113: std::map from end address to symbol and count, as a list sorted by key *)
Definition store := list (Z * (lsym * Z)).
(** std::map::emplace: nothing happens if the key is there *)
Fixpoint emplace (k : Z) (v : lsym * Z) (s : store) : store :=
  match s with
  | [] => [(k, v)]
  | (k', v') :: r => if k <? k' then (k, v) :: s else if k =? k' then s else (k', v') :: emplace k v r
  end.
(** canal.cc:91-93 *)
Definition storeAdd (s : store) (y : lsym) : store := emplace (u64 (memaddr y + lsSize y)) (y, 0) s.
(** std::map::lower_bound *)
Fixpoint mapLowerBound (a : Z) (s : store) : option (Z * (lsym * Z)) :=
  match s with [] => None | (k, v) :: r => if k <? a then mapLowerBound a r else Some (k, v) end.
(** canal.cc:95-103: the key of the symbol found, if any *)
Definition storeFind (m : Z -> lsym -> bool) (s : store) (a : Z) : option (Z * lsym) :=
  match mapLowerBound a s with Some (k, (y, _)) => if m a y then Some (k, y) else None | None => None end.
(** OffsetFreeSymbolMatcher canal.cc:115-120 *)
Definition matchFree (a : Z) (y : lsym) : bool := (memaddr y <=? a) && (u64 (memaddr y + lsSize y) >? a).
(** OffsetBoundSymbolMatcher canal.cc:122-129 *)
Definition matchBound (off : Z) (a : Z) (y : lsym) : bool := u64 (memaddr y + off) =? a.

(** sym->count++ *)
Fixpoint bump (k : Z) (s : store) : store :=
  match s with
  | [] => []
  | (k', (y, n)) :: r => if k' =? k then (k', (y, n + 1)) :: r else (k', (y, n)) :: bump k r
  end.
(** search canal.cc:198-246 over the words of a segment starting at [loc], without python.  The words are those of a ReaderArray
    (see ReaderArray.v); the exception handler around the loop is not modelled.  Printed: for the range search the address of each match. *)
Fixpoint searchRanges (ws : Z) (ranges : list (Z * Z)) (loc : Z) (words : list Z) : list Z :=
  match words with
  | [] => []
  | p :: r => flat_map (fun rg => if (p >=? fst rg) && (p <? snd rg) then [loc] else []) ranges ++ searchRanges ws ranges (loc + ws) r
  end.
(** the other branch: the store afterwards and the (symbol name, address, offset) lines that -s prints *)
Fixpoint searchSyms (m : Z -> lsym -> bool) (ws : Z) (s : store) (loc : Z) (words : list Z) : store * list (list Z * Z * Z) :=
  match words with
  | [] => (s, [])
  | p :: r =>
      match storeFind m s p with
      | Some (k, y) => let (s', o) := searchSyms m ws (bump k s) (loc + ws) r in (s', (lsName y, loc, u64 (p - memaddr y)) :: o)
      | None => searchSyms m ws s (loc + ws) r
      end
  end.

(** ** findString canal.cc:170-196.  [mem] is the process's memory; every read is satisfied in full (a short one would end in the
    assertion).  Printed addresses are collected. *)
Section FindString.
Variable mem : Z -> Z.
Definition memRead (a n : Z) : list Z := map (fun i => mem (a + Z.of_nat i)) (seq 0 (Z.to_nat n)).
(** std::search: the index of the first occurrence, or the length of the text *)
Fixpoint isPrefix (s t : list Z) : bool :=
  match s, t with
  | [], _ => true
  | _, [] => false
  | a :: s', b :: t' => (a =? b) && isPrefix s' t'
  end.
Fixpoint stdSearch (t s : list Z) : Z :=
  match t with
  | [] => 0
  | _ :: r => if isPrefix s t then 0 else 1 + stdSearch r s
  end.
(** canal.cc:183-189: the search starts from the beginning of the buffer every time, and the loop ends only if the result is the end of
    the whole buffer *)
Fixpoint findLoop (fuel : nat) (bufsize : Z) (filled findstr : list Z) (memPos : Z) (out : list Z) : res (list Z) :=
  match fuel with
  | O => OutOfFuel
  | S f => let found := stdSearch filled findstr in
           if found =? bufsize then Ok out
           else findLoop f bufsize filled findstr memPos (out ++ [u64 (memPos + found)])
  end.
(** canal.cc:175-195.  [filled] is the first corestrPos bytes of the buffer; the memmove only changes the first findstr.size()-1 bytes,
    which are part of those; corestrPos itself never goes down. *)
Fixpoint findSegment (fuel : nat) (bufsize : Z) (findstr : list Z) (segEnd fileEnd memPos : Z) (filled out : list Z) : res (list Z) :=
  match fuel with
  | O => OutOfFuel
  | S f =>
      if memPos <? segEnd then
        let freeCorestr := bufsize - zlen filled in
        let remainingSegment := u64 (fileEnd - memPos) in
        let readsize := Z.min remainingSegment freeCorestr in
        let filled := filled ++ memRead memPos readsize in
        let* out := findLoop f bufsize filled findstr memPos out in
        let filled := if zlen filled >=? zlen findstr
                      then ztake (zlen findstr - 1) (zdrop (zlen filled - zlen findstr + 1) filled) ++ zdrop (zlen findstr - 1) filled
                      else filled in
        findSegment f bufsize findstr segEnd fileEnd (u64 (u64 (memPos + readsize) + readsize)) filled out
      else Ok out
  end.
Definition findString (fuel : nat) (segStart segEnd fileEnd : Z) (findstr : list Z) : res (list Z) :=
  findSegment fuel (Z.max 4096 (zlen findstr * 4)) findstr segEnd fileEnd segStart [] [].
End FindString.
