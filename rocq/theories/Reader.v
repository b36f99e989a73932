(** Model of the stateless readers: libpstack/reader.h and reader.cc.
    A reader is described by an inductive tree; the host process memory that memory-backed
    readers point into is the parameter [m].  A read returns the list of bytes stored in the
    caller's buffer; its length is the C++ return value. *)
From Verif Require Import Base.

(** libpstack/reader.h:43-73 [Reader] and its implementations:
    [RMem base size]     MemReader (reader.h:161-168), MmapReader (171-189),
                         MemOffsetReader (reader.cc:229-239): a pointer and a size;
    [RFile contents]     FileReader (reader.h:103-116);
    [RNull]              NullReader (191-201);
    [ROffset up o l]     OffsetReader (203-226).
    Simplification: names/descriptions are not modelled. *)
Inductive reader : Type :=
| RMem (base size : Z)
| RFile (contents : list Z)
| RNull
| ROffset (up : reader) (offset length : Z).

(** numeric_limits<Off>::max(), Off = unsigned long (reader.h:46). *)
Definition offMax : Z := W64 - 1.

(** [size()]: reader.cc:12-16, reader.h:166,178,199, reader.cc:267-270. *)
Definition rsize (r : reader) : Z :=
  match r with
  | RMem _ s => s
  | RFile c => zlen c
  | RNull => 0
  | ROffset _ _ l => l
  end.

(** [read(off, count, ptr)].
    RMem: AbstractMemReader::read reader.cc:67-75 (ptroff, 61-63, adds modulo 2^64);
    RFile: FileReader::read reader.cc:110-121; pread with an offset whose off_t value is negative
      fails with EINVAL; otherwise it is taken to return all bytes available (a signal or an I/O
      error cutting a regular-file read short is not modelled);
    RNull: reader.h:193-195;
    ROffset: OffsetReader::read reader.cc:258-265, [off + Off(count)] and [off + offset] wrap. *)
Fixpoint rread (m : memory) (r : reader) (off count : Z) : res (list Z) :=
  match r with
  | RMem base size =>
      if off >? size then Throw
      else let rc := Z.min count (size - off) in
           match memread m (u64 (base + off)) (Z.to_nat rc) with
           | Some bs => Ok bs
           | None => UB
           end
  | RFile c => if off >=? W64 / 2 then Throw else Ok (ztake count (zdrop off c))
  | RNull => Throw
  | ROffset up offset length =>
      if off >? length then Throw
      else let count' := if u64 (off + count) >? length then length - off else count in
           rread m up (u64 (off + offset)) count'
  end.

(** OffsetReader::OffsetReader reader.cc:246-256. *)
Definition mkOffset (up : reader) (offset length : Z) : reader :=
  ROffset up offset (if length =? offMax then u64 (rsize up - offset) else length).

(** [view]: Reader::view reader.cc:105-108; AbstractMemReader::view reader.cc:241-244;
    OffsetReader::view reader.h:220-223. *)
Fixpoint rview (r : reader) (off size : Z) : reader :=
  match r with
  | RMem base _ => RMem (u64 (base + off)) size
  | RFile _ | RNull => mkOffset r off size
  | ROffset up offset _ => rview up (u64 (offset + off)) size
  end.

(** C string at [a] in host memory: [string(const char * )], i.e. strlen + copy. *)
Fixpoint cstring (fuel : nat) (m : memory) (a : Z) : res (list Z) :=
  match fuel with
  | O => OutOfFuel
  | S f => match m a with
           | None => UB
           | Some c => if c =? 0 then Ok [] else let* r := cstring f m (a + 1) in Ok (c :: r)
           end
  end.

(** "(null)" *)
Definition nullText : list Z := [40; 110; 117; 108; 108; 41].

(** The loop of Reader::readString, reader.cc:93-101, over any [read] function. *)
Fixpoint readStringLoop (fuel : nat) (rd : Z -> Z -> res (list Z)) (offset s : Z) : res (list Z) :=
  match fuel with
  | O => OutOfFuel
  | S f =>
      if offset <? s then
        let* bs := rd offset 1 in
        match bs with
        | [c] => if c =? 0 then Ok []
                 else let* r := readStringLoop f rd (offset + 1) s in Ok (c :: r)
        | _ => Ok []
        end
      else Ok []
  end.

(** Reader::readString reader.cc:88-103. *)
Definition readStringGen (fuel : nat) (rd : Z -> Z -> res (list Z)) (size offset : Z) : res (list Z) :=
  if offset =? 0 then Ok nullText else readStringLoop fuel rd offset size.

(** [readString]: AbstractMemReader::readString reader.cc:83-86; Reader::readString;
    OffsetReader::readString reader.h:209-211. *)
Fixpoint rstring (fuel : nat) (m : memory) (r : reader) (off : Z) : res (list Z) :=
  match r with
  | RMem base _ => cstring fuel m (u64 (base + off))
  | RFile _ | RNull => readStringGen fuel (rread m r) (rsize r) off
  | ROffset up offset _ => rstring fuel m up (u64 (off + offset))
  end.

(** Reader::readObj(offset, object, count) reader.h:81-92 for objects of [sz] bytes;
    [count * sizeof *object] is a size_t product. *)
Definition readObj (rd : Z -> Z -> res (list Z)) (sz off count : Z) : res (list Z) :=
  if count =? 0 then Ok []
  else let* bs := rd off (u64 (count * sz)) in
       if zlen bs =? u64 (count * sz) then Ok bs else Throw.
