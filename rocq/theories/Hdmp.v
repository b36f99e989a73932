(** Model of hdmp.cc, which prints the state of the debugging allocator (heap.c) from a core or a process, and of heap.c's
    stack traces (372-390).  An exception is not caught anywhere in hdmp: [Throw] is the end of the program.  Simplifications: exceptions of the
    process's reader other than for objects (readObj) count as short reads; the order of text on std::cout and on the context's output is that of writing
    (they are the same stream unless changed, and hdmp has no option to). *)
From Coq Require Import Ascii String.
From Verif Require Import Base DwarfReader DwarfReaderProofs Json Args FrameText ElfHash Heap Load.

Definition tab : list Z := [9].
Definition nl : list Z := [10].
Definition tx (s : string) : list Z := txt s.

(** getstacktrace heap.c:372-390.  [bp] is the frame pointer; an unmapped word is a fault ([UB]); [n] is the number of entries left.  Pointers to
    pointers: a difference of 65536 is 524288 bytes. *)
Fixpoint traceLoop (n : nat) (m : memory) (bp : Z) : res (list Z) :=
  match n with
  | O => Ok []
  | S k =>
      match memread m bp 16 with
      | None => UB
      | Some w =>
          let newBp := word w 0 in
          let ip := word w 8 in
          if (newBp =? 0) || (newBp <=? bp) || ((newBp - bp) / 8 >? 65536) || (ip =? 0) then Ok [0]
          else let* r := traceLoop k m newBp in Ok (ip :: r)
      end
  end.
(** 388-389: the entries written: at most [max] of them, ended with a null entry if fewer frames. *)
Definition getstacktrace (m : memory) (bp max : Z) : res (list Z) := traceLoop (Z.to_nat (s32 max)) m bp.

(** heap.c:118-119: what is asked of the real allocator for a descriptor; 249-256: HDMP_STACKDEPTH, an int stored in a size_t *)
Definition descRequest (max : Z) : Z := u64 (56 + u64 (8 * u64 (max - 1))).
Definition stackDepth (setting : Z) : Z := u64 setting.

Section Hdmp.
(** The process's memory; Process::findSegment: the load address and the object; Elf::Object::findSymbolByAddress for functions: value and
    name; findDwarf and sourceFromAddr: files and lines. *)
Context (m : memory) (seg : Z -> res (option (Z * Z))) (sym : Z -> Z -> res (option (Z * list Z))) (src : Z -> Z -> res (list (list Z * Z))).

(** hdmp.cc:36-40 *)
Fixpoint srcText (sep : string) (l : list (list Z * Z)) : list Z :=
  match l with [] => [] | (f, n) :: r => tx " " ++ tx sep ++ tx " " ++ f ++ tx ":" ++ intText n ++ srcText "," r end.
(** hdmp.cc:19-44 for one frame; [first]: i = 0 *)
Definition frameLine (first : bool) (frame : Z) : res (list Z) :=
  let ip := if first then frame else frame - 1 in
  let* s := seg ip in
  match s with
  | None => Ok (tab ++ ptrText frame ++ nl)
  | Some (reloc, e) =>
      let* y := sym e (u64 (ip - reloc)) in
      let* l := src e (u64 (ip - reloc)) in
      Ok (tab ++ ptrText frame ++
          match y with Some (v, name) => tab ++ name ++ tx "+" ++ decText 20 (u64 (frame - reloc - v)) | None => [] end ++
          srcText "in" l ++ nl)
  end.
(** printStack hdmp.cc:17-46: the entries are those at offset [o] of the bytes [bs]; reading past them is undefined. *)
Fixpoint stackLoop (n : nat) (first : bool) (bs : list Z) (o : Z) : res (list Z) :=
  match n with
  | O => Ok nl
  | S k =>
      if zlen bs <? o + 8 then UB
      else
        let f := word bs o in
        if f =? 0 then Ok nl
        else let* t := frameLine first f in let* r := stackLoop k false bs (o + 8) in Ok (t ++ r)
  end.
Definition printStack (max : Z) (bs : list Z) (o : Z) : res (list Z) := stackLoop (Z.to_nat max) true bs o.

(** printBlocks hdmp.cc:48-72; [st]: the four bytes of the expected state.  struct memdesc: next 0, prev 8, serial 16, len 24, data 32, base 40, stack 48; its
    size is 56. *)
Fixpoint printBlocks (fuel : nat) (max : Z) (st : list Z) (addr : Z) : res (list Z) :=
  match fuel with
  | O => OutOfFuel
  | S k =>
      if addr =? 0 then Ok []
      else
        match memread m addr (Z.to_nat (u64 (56 + max * 8))) with
        | None => Ok []
        | Some d =>
            if zlen d <? 56 then UB
            else
            let data := word d 32 in
            let len := word d 24 in
            let* head := obj m (u64 (data + 8)) 4 in
            let* tail := obj m (u64 (u64 (data + 16) + len)) 4 in
            let* stk := printStack max d 48 in
            let* r := printBlocks k max st (word d 0) in
            Ok (tx "ptr=" ++ ptrText (u64 (data + 16)) ++ (if beq head st then [] else tx " BADHEAD") ++ (if beq tail st then [] else tx " BADTAIL") ++
                tx " size=" ++ decText 20 len ++ nl ++ stk ++ r)
        end
  end.

(** dumpHeap hdmp.cc:74-108.  [hdbg]: the result of resolveSymbol.  struct hdbg_info (4272 bytes): heap 0, freelist 16, freebig 48, the counts from 88, maxframes
    136, crashstack 176. *)
Definition infoSize : nat := 4272.
Record hopts : Type := mkHO { oAlloc : bool; oFree : bool; oBig : bool }.
Definition title (s : string) : list Z := nl ++ tx s ++ nl ++ nl.
Definition count (s : string) (v : Z) : list Z := tx s ++ decText 20 v ++ nl.
Definition statsText (info : list Z) : list Z :=
  tx "Allocator usage statistics:" ++ nl ++ nl ++
  count "Calls to malloc:               " (half info 88) ++ count "Calls to free:                 " (half info 92) ++
  count "Calls to calloc:               " (half info 96) ++ count "Calls to realloc:              " (half info 100) ++
  count "Calls to aligned_alloc et al:  " (half info 104).
Definition section (on : bool) (name : string) (body : res (list Z)) : res (list Z) :=
  if on then let* b := body in Ok (title name ++ b) else Ok [].
Definition dumpHeap (fuel : nat) (o : hopts) (hdbg : res Z) : res (list Z) :=
  let* a := hdbg in
  if a =? 0 then Throw
  else
    let* info := obj m a infoSize in
    let max := word info 136 in
    let* crash := printStack max info 176 in
    let* t1 := section (oAlloc o) "Currently allocated memory:" (printBlocks fuel max allocB (word info 0)) in
    let* t2 := section (oFree o) "Recently freed memory:" (printBlocks fuel max freeB (word info 16)) in
    let* t3 := section (oBig o) "Historic large allocations:" (printBlocks fuel max freeB (word info 48)) in
    Ok (statsText info ++ title "Stack at termination:" ++ crash ++ t1 ++ t2 ++ t3).
End Hdmp.

(** main hdmp.cc:110-141: the options; without any, all three.  An argument is loaded (Process::load, Main.v) and dumped; an argument that is an
    ELF file but not a core gives a null process, which is dereferenced. *)
Definition optsOf (a f b : bool) : hopts := if negb a && negb f && negb b then mkHO true true true else mkHO a f b.
Fixpoint hdmpMain {proc : Type} (load : list Z -> res (option proc)) (dump : proc -> res (list Z)) (args : list (list Z)) : wr :=
  match args with
  | [] => emit []
  | a :: r =>
      match load a with
      | Ok (Some p) => match dump p with
                       | Ok t => andThen (emit t) (hdmpMain load dump r)
                       | Throw => ([], Throw) | UB => ([], UB) | OutOfFuel => ([], OutOfFuel)
                       end
      | Ok None => ([], UB)
      | Throw => ([], Throw) | UB => ([], UB) | OutOfFuel => ([], OutOfFuel)
      end
  end.
