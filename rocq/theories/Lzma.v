(** Model of LzmaReader (libpstack/lzmareader.h, lzma.cc).  liblzma itself is a parameter: the index is the list of its blocks, and for each block it
    is given what decoding it does.  Simplification: the constructor's decoding of the footer and of the index (lzma.cc:68-91) is not modelled. *)
From Verif Require Import Base.

(** What reading and decoding a block does (lzma.cc:113-133): it fails before the output vector is sized (unreadable input, bad block header); it fails in
    block_buffer_decode; or it yields bytes, at most as many as the index says. *)
Inductive decoded : Type := BadHeader | BadData | Good (data : list Z).
Record lblock : Type := mkLB { lbSize : Z; lbDec : decoded }.
Definition zeros (n : Z) : list Z := repeat 0 (Z.to_nat n).

(** lzma_index_iter_locate: the block containing the offset, and its uncompressed offset; lzma.cc:107-110 *)
Fixpoint locate (bs : list lblock) (start off : Z) : option (Z * lblock) :=
  match bs with
  | [] => None
  | b :: r => if (start <=? off) && (off <? start + lbSize b) then Some (start, b) else locate r (start + lbSize b) off
  end.
(** LzmaReader::size lzma.cc:93-97 *)
Definition lzSize (bs : list lblock) : Z := fold_right (fun b acc => lbSize b + acc) 0 bs.

(** lzBlocks lzmareader.h:24 *)
Fixpoint lookupBlock (c : list (Z * list Z)) (k : Z) : list Z :=
  match c with [] => [] | (k', v) :: r => if k =? k' then v else lookupBlock r k end.
(** the vector for the block, lzma.cc:111-134; std::map::operator[] creates an empty vector *)
Definition getBlock (c : list (Z * list Z)) (start : Z) (b : lblock) : list (Z * list Z) * res (list Z) :=
  match lookupBlock c start with
  | (_ :: _) as v => (c, Ok v)
  | [] =>
      match lbDec b with
      | BadHeader => ((start, []) :: c, Throw)
      | BadData => ((start, zeros (lbSize b)) :: c, Throw)
      | Good d =>
          if zlen d >? lbSize b then ((start, zeros (lbSize b)) :: c, Throw)
          else let v := d ++ zeros (lbSize b - zlen d) in ((start, v) :: c, Ok v)
      end
  end.
(** LzmaReader::read lzma.cc:99-143 *)
Fixpoint lzRead (fuel : nat) (bs : list lblock) (c : list (Z * list Z)) (off size : Z) : list (Z * list Z) * res (list Z) :=
  match fuel with
  | O => (c, OutOfFuel)
  | S f =>
      if size =? 0 then (c, Ok [])
      else
        match locate bs 0 off with
        | None => (c, Throw)
        | Some (start, b) =>
            match getBlock c start b with
            | (c, Ok v) =>
                let blockOff := off - start in
                let amount := Z.min (zlen v - blockOff) size in
                let (c, r) := lzRead f bs c (u64 (off + amount)) (size - amount) in
                (c, let* rest := r in Ok (ztake amount (zdrop blockOff v) ++ rest))
            | (c, Throw) => (c, Throw)
            | (c, UB) => (c, UB)
            | (c, OutOfFuel) => (c, OutOfFuel)
            end
        end
  end.
(** a history of reads *)
Fixpoint lzRun (fuel : nat) (bs : list lblock) (c : list (Z * list Z)) (h : list (Z * Z)) : list (Z * list Z) :=
  match h with [] => c | (off, size) :: r => lzRun fuel bs (fst (lzRead fuel bs c off size)) r end.
