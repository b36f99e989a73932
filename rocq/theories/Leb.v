(** Model of readleb128<T> (libpstack/reader.h:320-340) for T = uintmax_t / intmax_t. *)
From Verif Require Import Base.

(** The loop.  [bs] is the data from the current iterator position on; [eos] is what
    dereferencing the iterator past the data does: an exception for ReaderArray iterators
    (Reader::readULEB128/readSLEB128 reader.cc:272-284; reader.h:308-318), undefined behaviour for
    raw pointers (AbstractMemReader, reader.cc:286-296).
    [T(byte & 0x7f) << shift]: undefined for shift >= 64, otherwise modulo 2^64 (C++20). The
    accumulator is kept as its 64-bit pattern; [n] counts [it - start]. *)
Fixpoint lebLoop (signed : bool) (eos : res (Z * Z)) (bs : list Z) (shift acc n : Z) : res (Z * Z) :=
  match bs with
  | [] => eos
  | b :: r =>
      if shift >=? 64 then UB
      else
        let acc' := Z.lor acc (u64 (Z.shiftl (Z.land b 127) shift)) in
        let shift' := shift + 7 in
        if Z.land b 128 =? 0 then
          let v := if signed && (shift' <? 64) && negb (Z.land b 64 =? 0)
                   then Z.lor acc' (u64 (Z.shiftl (W64 - 1) shift')) else acc' in
          Ok (if signed then s64 v else v, n + 1)
        else lebLoop signed eos r shift' acc' (n + 1)
  end.

Definition readULEB (eos : res (Z * Z)) (bs : list Z) : res (Z * Z) := lebLoop false eos bs 0 0 0.
Definition readSLEB (eos : res (Z * Z)) (bs : list Z) : res (Z * Z) := lebLoop true eos bs 0 0 0.
