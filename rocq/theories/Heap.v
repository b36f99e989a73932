(** Model of the debugging allocator heap.c and heap.h.  The byte memory of the process is a function from addresses.  [Throw] is die(), which
    reports and aborts.  Simplifications: descriptors (struct memdesc) are kept in a table by address rather than in the byte memory, so the
    program under test cannot overwrite them; stack traces are not recorded; each function runs without interruption (the locks); the results
    of the real allocator are arguments. *)
From Verif Require Import Base CfiSpec ElfHash.

(** heap.h:8-12: the four bytes of mem_allocated and mem_free *)
Definition allocB : list Z := [165; 165; 165; 165].
Definition freeB : list Z := [90; 90; 90; 90].
(** heap.h:32-35: struct guard on a 64-bit machine: pointer at 0, state at 8, four bytes of padding *)
Definition guardSize : Z := 16.
(** heap.h:40-47 without list node and stack *)
Record desc : Type := mkD { dLen : Z; dData : Z; dBase : Z; dSerial : Z }.
(** heap.h:49-79, heap.c:44-65.  [hReleased] records the arguments of real_free(), in order; it is not part of the program. *)
Record hst : Type := mkH {
  hMem : Z -> Z; hDescs : Z -> option desc;
  hHeap : list Z; hFree : list Z; hPool : list Z; hBig : list Z;
  hMax : Z; hSize : Z;
  hTotal : Z; hPeak : Z; hMallocs : Z; hFrees : Z; hCallocs : Z; hReallocs : Z; hAligned : Z;
  hLevel : Z; hSerial : Z; hFill : bool;
  hBigThresh : Z; hNumBig : Z; hMaxBig : Z; hLimit : Z; hReleased : list Z }.

Definition put (m : Z -> Z) (a : Z) (l : list Z) : Z -> Z := fun x => match znth (x - a) l with Some v => v | None => m x end.
Definition get (m : Z -> Z) (a : Z) (n : nat) : list Z := map (fun i => m (a + Z.of_nat i)) (seq 0 n).
Definition updD (t : Z -> option desc) (k : Z) (d : desc) : Z -> option desc := fun x => if x =? k then Some d else t x.
(** a little-endian pointer *)
Definition ptrAt (m : Z -> Z) (a : Z) : Z := fold_right (fun b acc => b + 256 * acc) 0 (get m a 8).
(** heap.c:90-99: the length is an int *)
Definition fill (s : hst) (m : Z -> Z) (a len : Z) (pat : list Z) : Z -> Z :=
  if hFill s then put m a (map (fun i => nth (i mod 4) pat 0) (seq 0 (Z.to_nat (s32 len)))) else m.
(** heap.c:101-111 *)
Definition setState (m : Z -> Z) (d : desc) (b : list Z) : Z -> Z := put (put m (dData d + guardSize + dLen d) b) (dData d + 8) b.
(** heap.c:164-173 *)
Definition getState (m : Z -> Z) (d : desc) : res (list Z) :=
  let tail := get m (dData d + guardSize + dLen d) 4 in
  if beq tail (get m (dData d + 8) 4) then Ok tail else Throw.
(** heap.c:175-187: unsigned long is 8 bytes *)
Definition deadLong : list Z := [173; 222; 173; 222; 0; 0; 0; 0].
Definition sanityFree (s : hst) (m : Z -> Z) (d : desc) : res unit :=
  let* b := getState m d in
  if negb (beq b freeB) then Throw
  else if hFill s && negb (forallb (fun i => beq (get m (dData d + guardSize + 8 * Z.of_nat i) 8) deadLong) (seq 0 (Z.to_nat (dLen d / 4)))) then Throw
  else Ok tt.
(** heap.c:313-336: the whole heap, and the first 66 of the free list *)
Fixpoint checkAll {A} (f : A -> res unit) (l : list A) : res unit :=
  match l with [] => Ok tt | x :: r => let* _ := f x in checkAll f r end.
Definition withDesc {A} (s : hst) (id : Z) (f : desc -> res A) : res A := match hDescs s id with Some d => f d | None => UB end.
Definition assertheap (s : hst) : res unit :=
  let* _ := checkAll (fun id => withDesc s id (fun d => let* b := getState (hMem s) d in if beq b allocB then Ok tt else Throw)) (hHeap s) in
  checkAll (fun id => withDesc s id (sanityFree s (hMem s))) (firstn 66 (hFree s)).
(** use_hdmp heap.c:220-229 once started *)
Definition useHdmp (s : hst) : res unit := if hLevel s >=? 2 then assertheap s else Ok tt.

(** build_alloc heap.c:113-148.  [dnew] is what real_malloc returns for a new descriptor. *)
Definition buildAlloc (s : hst) (base guard size dnew : Z) : res hst :=
  let '(id, pool) := match hPool s with [] => (dnew, []) | x :: r => (x, r) end in
  if id =? 0 then UB
  else if guard =? 0 then UB
  else
    let m := put (hMem s) guard (leBytes 8 id) in
    let d := mkD size guard base (hSerial s) in
    let m := setState m d allocB in
    let total := u64 (hTotal s + size) in
    if (total >? hPeak s) && negb (hLimit s =? 0) && (total >? hLimit s) then Throw
    else
      Ok (mkH (fill s m (guard + guardSize) size [13; 240; 173; 186]) (updD (hDescs s) id d)
              (id :: hHeap s) (hFree s) pool (hBig s) (hMax s) (hSize s)
              total (if total >? hPeak s then total else hPeak s) (hMallocs s) (hFrees s) (hCallocs s) (hReallocs s) (hAligned s)
              (hLevel s) (u64 (hSerial s + 1)) (hFill s) (hBigThresh s) (hNumBig s) (hMaxBig s) (hLimit s) (hReleased s)).
Definition counts (s : hst) (m f c r : Z) : hst :=
  mkH (hMem s) (hDescs s) (hHeap s) (hFree s) (hPool s) (hBig s) (hMax s) (hSize s) (hTotal s) (hPeak s)
      (u32 (hMallocs s + m)) (u32 (hFrees s + f)) (u32 (hCallocs s + c)) (u32 (hReallocs s + r)) (hAligned s)
      (hLevel s) (hSerial s) (hFill s) (hBigThresh s) (hNumBig s) (hMaxBig s) (hLimit s) (hReleased s).
Definition setMem (s : hst) (m : Z -> Z) : hst :=
  mkH m (hDescs s) (hHeap s) (hFree s) (hPool s) (hBig s) (hMax s) (hSize s) (hTotal s) (hPeak s)
      (hMallocs s) (hFrees s) (hCallocs s) (hReallocs s) (hAligned s)
      (hLevel s) (hSerial s) (hFill s) (hBigThresh s) (hNumBig s) (hMaxBig s) (hLimit s) (hReleased s).
(** what malloc asks of real_malloc heap.c:419 *)
Definition mallocRequest (size : Z) : Z := u64 (guardSize + size + 4).
(** malloc heap.c:415-423; [r] is what real_malloc returns for sizeof *guard + size + sizeof (enum memstate) bytes *)
Definition malloc (s : hst) (size r dnew : Z) : res (hst * Z) :=
  let* _ := useHdmp s in
  let* s := buildAlloc (counts s 1 0 0 0) r r size dnew in
  Ok (s, r + guardSize).
(** aligned_alloc heap.c:425-442: the space before the block, and what is asked of real_aligned_alloc *)
Definition internalSpace (align : Z) : Z := u64 (align * (guardSize / align + (if guardSize mod align =? 0 then 0 else 1))).
Definition alignedRequest (align size : Z) : Z := u64 (internalSpace align + size + 4).
Definition alignedAlloc (s : hst) (align size r dnew : Z) : res (hst * Z) :=
  let* _ := useHdmp s in
  if align =? 0 then UB
  else
    let guard := r + internalSpace align - guardSize in
    let* s := buildAlloc (counts s 0 0 1 0) r guard size dnew in
    Ok (s, guard + guardSize).
(** posix_memalign heap.c:402-407 and memalign 409-413, valloc 396-400 *)
Definition posixMemalign (s : hst) (align size r dnew : Z) : res (hst * Z * Z) :=
  let* _ := useHdmp s in let* (s, p) := alignedAlloc s align size r dnew in Ok (s, p, 0).
Definition memalign (s : hst) (align size r dnew : Z) : res (hst * Z) := let* _ := useHdmp s in alignedAlloc s align size r dnew.
Definition valloc (s : hst) (size r dnew : Z) : res (hst * Z) := let* _ := useHdmp s in alignedAlloc s 4096 size r dnew.

Section WithHeadroom.
Variable headroom : Z -> bool.   (* heap.c:444-447 *)
(** free_desc heap.c:150-162 and the end of free 490-495 *)
Definition freeDesc (s : hst) (id : Z) : res hst :=
  withDesc s id (fun d =>
    let* _ := sanityFree s (hMem s) d in
    let big := (dLen d >=? hBigThresh s) && (hNumBig s <? hMaxBig s) in
    Ok (mkH (hMem s) (hDescs s) (hHeap s) (hFree s) (if big then hPool s else hPool s ++ [id]) (if big then hBig s ++ [id] else hBig s) (hMax s) (hSize s)
            (hTotal s) (hPeak s) (hMallocs s) (hFrees s) (hCallocs s) (hReallocs s) (hAligned s)
            (hLevel s) (hSerial s) (hFill s) (hBigThresh s) (if big then hNumBig s + 1 else hNumBig s) (hMaxBig s) (hLimit s)
            (if headroom (dBase d) then hReleased s else hReleased s ++ [dBase d]))).
(** free heap.c:449-496 *)
Definition free (s : hst) (p : Z) : res hst :=
  if p =? 0 then Ok s
  else
    let* _ := useHdmp s in
    let guard := p - guardSize in
    let id := ptrAt (hMem s) guard in
    withDesc s id (fun d =>
      let* b := getState (hMem s) d in
      if negb (beq b allocB) then Throw
      else if negb (dData d =? guard) then Throw
      else
        let m := setState (fill s (hMem s) (dData d + guardSize) (dLen d) [173; 222; 173; 222]) d freeB in
        let fl := id :: hFree s in
        let full := hSize s =? hMax s in
        let s := mkH m (hDescs s) (remove Z.eq_dec id (hHeap s)) (if full then removelast fl else fl) (hPool s) (hBig s) (hMax s) (if full then hSize s else hSize s + 1)
                     (u64 (hTotal s - dLen d)) (hPeak s) (hMallocs s) (u32 (hFrees s + 1)) (hCallocs s) (hReallocs s) (hAligned s)
                     (hLevel s) (hSerial s) (hFill s) (hBigThresh s) (hNumBig s) (hMaxBig s) (hLimit s) (hReleased s) in
        if full then freeDesc s (last fl 0) else Ok s).
(** realloc heap.c:498-516: p2 is never null here *)
Definition realloc (s : hst) (p size r dnew : Z) : res (hst * Z) :=
  let* _ := useHdmp s in
  let s := counts s 0 0 0 1 in
  if p =? 0 then malloc s size r dnew
  else
    withDesc s (ptrAt (hMem s) (p - guardSize)) (fun d =>
      if dLen d >=? size then Ok (s, p)
      else
        let* (s, p2) := malloc s size r dnew in
        withDesc s (ptrAt (hMem s) (p - guardSize)) (fun d =>
        let s := setMem s (put (hMem s) p2 (get (hMem s) p (Z.to_nat (if dLen d <? size then dLen d else size)))) in
        let* s := free s p in
        Ok (s, p2))).
(** calloc heap.c:518-526 *)
Definition calloc (s : hst) (n size r dnew : Z) : res (hst * Z) :=
  let* _ := useHdmp s in
  let s := counts s 0 0 1 0 in
  let size := u64 (size * n) in
  let* (s, p) := malloc s size r dnew in
  Ok (setMem s (put (hMem s) p (repeat 0 (Z.to_nat size))), p).

(** what a program does: the calls, with what the real allocator answers, and its own writes *)
Inductive hev : Type :=
| EMalloc (size r d : Z) | EAligned (align size r d : Z) | ECalloc (n size r d : Z) | ERealloc (p size r d : Z) | EFree (p : Z) | EWrite (a v : Z).
Definition hstep (s : hst) (e : hev) : res (hst * Z) :=
  match e with
  | EMalloc size r d => malloc s size r d
  | EAligned al size r d => alignedAlloc s al size r d
  | ECalloc n size r d => calloc s n size r d
  | ERealloc p size r d => realloc s p size r d
  | EFree p => let* s := free s p in Ok (s, 0)
  | EWrite a v => Ok (setMem s (put (hMem s) a [v]), 0)
  end.
Fixpoint hrun (s : hst) (es : list hev) : res hst :=
  match es with [] => Ok s | e :: r => let* (s, _) := hstep s e in hrun s r end.
End WithHeadroom.

(** use_hdmp heap.c:232-268: the state after initialisation with the given settings *)
Definition hinit (m : Z -> Z) (max level : Z) (fillOn : bool) (bigThresh maxBig limit : Z) : hst :=
  mkH m (fun _ => None) [] [] [] [] max 0 0 0 0 0 0 0 0 level 0 fillOn bigThresh 0 maxBig limit [].

(** use_hdmp heap.c:212-290 as a whole: the new value of startup and the result, given the debug level after reading the settings *)
Definition useHdmpStart (startup level : Z) : Z * bool :=
  if startup =? 0 then (0, true) else if startup =? 1 then (1, false) else (0, negb (level =? 0)).

(** ** buffer_malloc heap.c:189-204 and buffer_calloc 205-210.  [t] is malloc_total (an int); the result is the offset into the buffer *)
Definition headroomSize : Z := 65536.
Definition bufferMalloc (startup t amount : Z) : res (Z * Z) :=
  if startup =? 0 then Throw
  else
    let amount := u64 (amount + 3) / 4 * 4 in
    if u64 (amount + u64 t) >=? headroomSize then Throw
    else Ok (t, s32 (t + amount)).
Definition bufferCalloc (startup t members size : Z) : res (Z * Z) := bufferMalloc startup t (u64 (members * size)).
(** a sequence of requests before the real allocator is there *)
Fixpoint bufferRun (t : Z) (amounts : list Z) : res (list Z) :=
  match amounts with
  | [] => Ok []
  | a :: r => let* (p, t) := bufferMalloc 1 t a in let* ps := bufferRun t r in Ok (p :: ps)
  end.
