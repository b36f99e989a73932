(** Model of the ELF symbol hash tables: elf.cc and libpstack/elf.h. *)
From Verif Require Import Base Reader ReaderSpec DwarfReader.

(** elf_hash elf.cc:25-37.  [auto c : text] is a [char], signed on the x86-64 target, and is
    converted to uint32_t by the addition. *)
Definition elfHashStep (h c : Z) : Z :=
  let h1 := u32 (u32 (Z.shiftl h 4) + s8 c) in
  let g := Z.land h1 4026531840 in
  let h2 := if g =? 0 then h1 else Z.lxor h1 (Z.shiftr g 24) in
  Z.land h2 (u32 (Z.lnot g)).
Definition elf_hash (text : list Z) : Z := fold_left elfHashStep text 0.

(** gnu_hash elf.cc:39-45: over the bytes of the C string up to its NUL. *)
Definition gnu_hash (s : list Z) : Z :=
  fold_left (fun h c => u32 (u32 (u32 (Z.shiftl h 5) + h) + c)) (untilNul s) 5381.

(** Sym (Elf64_Sym, elf.h via <elf.h>): name, info, other, shndx, value, size. *)
Record esym : Type := mkSym { st_name : Z; st_info : Z; st_other : Z; st_shndx : Z; st_value : Z; st_size : Z }.
(** undef() elf.cc:746-759 *)
Definition undef : esym := mkSym 0 0 0 0 0 0.
(** readObj<Sym>(off): the 24 bytes of the structure, little-endian host. *)
Definition readSym (data : list Z) (off : Z) : res esym :=
  let* b := secBytes data off 24 in
  let* (nm, o) := getu32 b 0 in
  let* (info, o) := getu8 b o in
  let* (oth, o) := getu8 b o in
  let* (shn, o) := getu16 b o in
  let* (v, o) := getuint b o 8 in
  let* (sz, o) := getuint b o 8 in
  Ok (mkSym nm info oth shn v sz).
(** strings->readString(off) on a string section: see [getstring] for the simplification. *)
Definition secString (data : list Z) (off : Z) : list Z := fst (getstring data off).

Definition beq (a b : list Z) : bool := if list_eq_dec Z.eq_dec a b then true else false.

(** GnuHash::Header elf.h:166-171 and the constructor 180-185. *)
Record ghdr : Type := mkGH { gNbuckets : Z; gSymoffset : Z; gBloomSize : Z; gBloomShift : Z }.
Definition readGhdr (hash : list Z) : res ghdr :=
  let* b := secBytes hash 0 16 in
  let* (n, o) := getu32 b 0 in
  let* (s, o) := getu32 b o in
  let* (z, o) := getu32 b o in
  let* (h, o) := getu32 b o in
  Ok (mkGH n s z h).
(** bloomoff, bucketoff, chainoff elf.h:173-175: computed as size_t, returned as uint32_t. *)
Definition bloomoff (idx : Z) : Z := u32 (u64 (16 + u64 (idx * 8))).
Definition bucketoff (g : ghdr) (idx : Z) : Z := u32 (u64 (bloomoff (gBloomSize g) + u64 (idx * 4))).
Definition chainoff (g : ghdr) (idx : Z) : Z := u32 (u64 (bucketoff g (gNbuckets g) + u64 (idx * 4))).

(** The loop of GnuHash::findSymbol elf.cc:183-192. *)
Fixpoint gnuLoop (fuel : nat) (hash syms strings : list Z) (g : ghdr) (name : list Z) (symhash idx : Z) : res (Z * esym) :=
  match fuel with
  | O => OutOfFuel
  | S f =>
      let* sym := readSym syms (idx * 24) in
      let* (chainhash, _) := getu32 hash (chainoff g (u32 (idx - gSymoffset g))) in
      if (Z.lor chainhash 1 =? Z.lor symhash 1) && beq (secString strings (st_name sym)) name then Ok (idx, sym)
      else if negb (Z.land chainhash 1 =? 0) then Ok (0, undef)
      else gnuLoop f hash syms strings g name symhash (u32 (idx + 1))
  end.
(** GnuHash::findSymbol elf.cc:166-193 on a table with header [g].  Division by a zero bloom size or
    bucket count and a shift of 32 or more are undefined. *)
Definition gnuFind (fuel : nat) (hash syms strings : list Z) (g : ghdr) (name : list Z) : res (Z * esym) :=
  let symhash := gnu_hash name in
  if gBloomSize g =? 0 then UB else
  let* (bloomword, _) := getuint hash (bloomoff ((symhash / 64) mod gBloomSize g)) 8 in
  if gBloomShift g >=? 32 then UB else
  let mask := Z.lor (Z.shiftl 1 (symhash mod 64)) (Z.shiftl 1 (Z.shiftr symhash (gBloomShift g) mod 64)) in
  if negb (Z.land bloomword mask =? mask) then Ok (0, undef)
  else if gNbuckets g =? 0 then UB
  else let* (idx, _) := getu32 hash (bucketoff g (symhash mod gNbuckets g)) in
       if idx <? gSymoffset g then Ok (0, undef)
       else gnuLoop fuel hash syms strings g name symhash idx.
(** Construct, then look up. *)
Definition gnuLookup (fuel : nat) (hash syms strings name : list Z) : res (Z * esym) :=
  let* g := readGhdr hash in gnuFind fuel hash syms strings g name.

(** SymHash::SymHash elf.cc:651-666: the section's words. *)
Fixpoint readWords (data : list Z) (n : nat) : list Z :=
  match n with
  | O => []
  | S k => match getu32 data 0 with Ok (v, _) => v :: readWords (zdrop 4 data) k | _ => [] end
  end.
Record shash : Type := mkSH { shData : list Z; shNbucket : Z; shNchain : Z }.
Definition mkSymHash (hash : list Z) : res shash :=
  let data := readWords hash (Z.to_nat (zlen hash / 4)) in
  match znth 0 data, znth 1 data with
  | Some nb, Some nc => Ok (mkSH data nb nc)
  | _, _ => UB
  end.
(** buckets\[b\] and chains\[i\]: pointers into [data] at 2 and 2 + nbucket; outside it is undefined. *)
Definition bucketAt (s : shash) (b : Z) : res Z := match znth (2 + b) (shData s) with Some v => Ok v | None => UB end.
Definition chainAt (s : shash) (i : Z) : res Z := match znth (2 + shNbucket s + i) (shData s) with Some v => Ok v | None => UB end.
(** The loop of SymHash::findSymbol elf.cc:671-676. *)
Fixpoint sysvLoop (fuel : nat) (s : shash) (syms strings : list Z) (name : list Z) (i : Z) : res (Z * esym) :=
  match fuel with
  | O => OutOfFuel
  | S f =>
      if i =? 0 then Ok (0, undef) else
      let* sym := readSym syms (i * 24) in
      if beq (secString strings (st_name sym)) name then Ok (i, sym)
      else let* n := chainAt s i in sysvLoop f s syms strings name n
  end.
(** SymHash::findSymbol elf.cc:668-678. *)
Definition sysvFind (fuel : nat) (s : shash) (syms strings name : list Z) : res (Z * esym) :=
  if shNbucket s =? 0 then UB else
  let* i := bucketAt s (elf_hash name mod shNbucket s) in
  sysvLoop fuel s syms strings name i.
Definition sysvLookup (fuel : nat) (hash syms strings name : list Z) : res (Z * esym) :=
  let* s := mkSymHash hash in sysvFind fuel s syms strings name.
