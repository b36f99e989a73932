(** Model of core-file processes: dead.cc (memory reads, registers, address space) and of
    Process::findSegment (process.cc). *)
From Verif Require Import Base Reader ReaderSpec DwarfReader ElfHash Bound ElfObj.

(** An Elf::Object as far as this file uses it: the contents of its file and its PT_LOAD headers in the
    constructor's order (elf.cc:224-231). *)
Record image : Type := mkImg { imFile : list Z; imLoads : list phdr }.

(** Object::endVA elf.cc:140-146.  [at] throws when there is no PT_LOAD header. *)
Definition endVA (o : image) : res Z :=
  match imLoads o with
  | [] => Throw
  | h :: r => let l := last r h in Ok (u64 (p_vaddr l + p_memsz l))
  end.
(** Object::getSegmentForAddress elf.cc:352-370 on an object with no remembered segment.  That the
    remembered segment makes no difference is property C31. *)
Definition segFor (o : image) (a : Z) : option phdr := snd (getSegment (imLoads o) None a).

(** Process::objects (proc.h:261), a std::map: entries in key order; an entry whose object cannot be
    found (MappedObject::object gives null) is [None]. *)
Definition objmap : Type := list (Z * option image).
(** lower_bound(addr) followed by --it: the last entry with a key below addr. *)
Fixpoint lastBelow (objs : objmap) (addr : Z) (best : option (Z * option image)) : option (Z * option image) :=
  match objs with
  | [] => best
  | (k, o) :: r => if k <? addr then lastBelow r addr (Some (k, o)) else best
  end.
(** Process::findSegment process.cc:924-938. *)
Definition findSegment (objs : objmap) (addr : Z) : res (option (Z * image * phdr)) :=
  match lastBelow objs addr None with
  | None => Ok None
  | Some (_, None) => Ok None
  | Some (k, Some o) =>
      let* e := endVA o in
      if u64 (k + e) >=? addr then
        match segFor o (u64 (addr - k)) with
        | Some h => Ok (Some (k, o, h))
        | None => Ok None
        end
      else Ok None
  end.

(** readFromHdr dead.cc:119-145 with toClear not null; gives the bytes stored at [ptr] and the new
    *toClear.  Elf::Off is unsigned long. *)
Definition readFromHdr (o : image) (h : phdr) (addr size toClear : Z) : res (list Z * Z) :=
  let off := u64 (addr - p_vaddr h) in
  let* (d, off, size) :=
    if off <? p_filesz h then
      let fileSize := Z.min (p_filesz h - off) size in
      let* d := rread (fun _ => None) (RFile (imFile o)) (u64 (p_offset h + off)) fileSize in
      if negb (zlen d =? fileSize) then Throw
      else Ok (d, u64 (off + zlen d), size - zlen d)
    else Ok ([], off, size) in
  let rv := zlen d in
  Ok (d, Z.max (if toClear >? rv then toClear - rv else 0)
               (if negb (size =? 0) && (off <? p_memsz h) then Z.min size (p_memsz h - off) else 0)).

(** memset(ptr, 0, n) *)
Definition zeros (n : Z) : list Z := repeat 0 (Z.to_nat n).
(** dead.cc:153-167: what the core itself provides at [a]: bytes stored, and [zeroes]. *)
Definition coreStage (core : option image) (a size : Z) : res (list Z * Z) :=
  match core with
  | Some c => match segFor c a with
              | Some h => readFromHdr c h a size 0
              | None => Ok ([], 0)
              end
  | None => Ok ([], 0)
  end.
(** One round of the loop in CoreReader::read dead.cc:151-187: the bytes stored from [ptr] on and
    whether the loop goes on. *)
Definition coreRound (core : option image) (objs : objmap) (a size : Z) : res (list Z * bool) :=
  let* (d1, z) := coreStage core a size in
  if negb (zlen d1 =? 0) && (z =? 0) then Ok (d1, true)
  else
    let a1 := u64 (a + zlen d1) in
    let size1 := u64 (size - zlen d1) in
    let* fs := findSegment objs a1 in
    match fs with
    | Some (k, o, h) =>
        let* (d2, z2) := readFromHdr o h (u64 (a1 - k)) size1 z in
        Ok (d1 ++ d2 ++ zeros z2, true)
    | None => Ok (d1 ++ zeros z, negb (z =? 0))
    end.
(** CoreReader::read dead.cc:147-189: all the bytes stored from the caller's [ptr] on. *)
Fixpoint coreRead (fuel : nat) (core : option image) (objs : objmap) (a size : Z) : res (list Z) :=
  match fuel with
  | O => OutOfFuel
  | S f =>
      if size =? 0 then Ok []
      else let* (bs, more) := coreRound core objs a size in
           if more then
             let* r := coreRead f core objs (u64 (a + zlen bs)) (u64 (size - zlen bs)) in Ok (bs ++ r)
           else Ok bs
  end.

(** ** Registers *)
(** CoreProcess::CoreProcess dead.cc:60-90: the notes, and lwpToPrStatusIdx as the assignments made to it
    in order.  [prPid], [prReg]: pr_pid (offset 32) and pr_reg (offset 112, 216 bytes) of the
    336-byte x86-64 prstatus_t; reading one needs all of it. *)
Definition NT_PRSTATUS : Z := 1.
Definition CORE : list Z := [67; 79; 82; 69].
Definition prSize : Z := 336.
Definition isPrstatus (n : ndesc) : bool := beq (ndName n) CORE && (ndType n =? NT_PRSTATUS).
Definition prPid (d : list Z) : Z := s32 (fold_right (fun b v => b + 256 * v) 0 (ztake 4 (zdrop 32 d))).
Definition prReg (d : list Z) : list Z := ztake 216 (zdrop 112 d).
Fixpoint lwpIndex (notes : list ndesc) (i : Z) (m : list (Z * Z)) : res (list (Z * Z)) :=
  match notes with
  | [] => Ok m
  | n :: r =>
      if isPrstatus n then
        if zlen (ndData n) <? prSize then Throw
        else lwpIndex r (i + 1) (m ++ [(prPid (ndData n), i)])
      else lwpIndex r (i + 1) m
  end.
(** lwpToPrStatusIdx.find: the last assignment to the key. *)
Fixpoint lwpFind (m : list (Z * Z)) (lwp : Z) : option Z :=
  match m with
  | [] => None
  | (k, v) :: r => match lwpFind r lwp with Some x => Some x | None => if k =? lwp then Some v else None end
  end.
(** CoreProcess::getRegs dead.cc:193-219 from note index [i] on (dead.cc:200-217); [notes] here are the
    notes from that index.  Gives the bytes stored in [data]; their number is the return value. *)
Fixpoint regsFrom (notes : list ndesc) (code size : Z) : res (list Z) :=
  match notes with
  | [] => UB
  | n :: r =>
      if ndType n =? code then
        if code =? NT_PRSTATUS then
          if zlen (ndData n) <? prSize then Throw
          else Ok (ztake (Z.min size 216) (prReg (ndData n)))
        else Ok (ztake (Z.min size (zlen (ndData n))) (ndData n))
      else match r with
           | [] => Ok []
           | n' :: _ => if isPrstatus n' then Ok [] else regsFrom r code size
           end
  end.
Definition getRegs (notes : list ndesc) (lwp code size : Z) : res (list Z) :=
  let* m := lwpIndex notes 0 [] in
  match lwpFind m lwp with
  | None => Ok []
  | Some i => regsFrom (zdrop i notes) code size
  end.

(** ** Address space *)
(** A FileEntry of the NT_FILE note with its name (dead.cc:12-16, 235-262). *)
Record fentry : Type := mkFE { feName : list Z; feStart : Z; feEnd : Z; feOff : Z }.
(** An AddressRange as addressSpace builds it (dead.cc:301-302); permissions are left out. *)
Record arange : Type := mkAR { arStart : Z; arEnd : Z; arFileEnd : Z; arOffset : Z; arInode : Z; arName : list Z }.
(** The std::map [entries] keyed by start: entries[start] = entry (dead.cc:276-277); upper_bound(v) then
    --ub (dead.cc:282-287) is the entry with the greatest start <= v, the last such assigned. *)
Fixpoint entryAtOrBelow (es : list fentry) (v : Z) (best : option fentry) : option fentry :=
  match es with
  | [] => best
  | e :: r => entryAtOrBelow r v
                (if feStart e <=? v then
                   match best with
                   | Some b => if feStart b <=? feStart e then Some e else best
                   | None => Some e
                   end
                 else best)
  end.
(** CoreProcess::addressSpace dead.cc:272-305; the page size is a parameter. *)
Definition coreRange (pg : Z) (es : list fentry) (h : phdr) : arange :=
  let plain := mkAR (p_vaddr h) (u64 (p_vaddr h + p_memsz h)) (u64 (p_vaddr h + p_filesz h)) 0 0 [] in
  match entryAtOrBelow es (p_vaddr h) None with
  | None => plain
  | Some e =>
      if (feStart e >=? p_vaddr h) && (feEnd e <=? u64 (p_vaddr h + p_memsz h))
      then mkAR (p_vaddr h) (u64 (p_vaddr h + p_memsz h)) (u64 (p_vaddr h + p_filesz h)) (u64 (feOff e * pg)) 1 (feName e)
      else plain
  end.
Definition addressSpace (pg : Z) (es : list fentry) (loads : list phdr) : list arange := map (coreRange pg es) loads.
