(** Model of how a process's objects are found: the auxiliary vector and program headers
    (process.cc:165-370), the link map (823-871), the NT_FILE note of a core (dead.cc:12-60, 235-262,
    307-335), and Process::load (165-215). *)
From Verif Require Import Base DwarfReader DwarfReaderProofs Reader ReaderArray Core.

(** ** The NT_FILE note, dead.cc *)
(** FileEntries::FileEntries 43-58, begin/end, iterator::fetch and operator++ 245-262, over the note's
    data (x86-64: 16 byte header, 24 byte entries; ReaderArray's default cache is 1024 / 24 entries). *)
Fixpoint entryLoop (n : nat) (fuel : nat) (m : memory) (entries names : reader) (s : astate) (idx nameoff : Z) : res (list fentry) :=
  match n with
  | O => Ok []
  | S k =>
      let* name := rstring fuel m names nameoff in
      match getitem (rread m entries) 24 42 0 s idx with
      | (s', Ok e) =>
          let* r := entryLoop k fuel m entries names s' (idx + 1) (nameoff + zlen name + 1) in
          Ok (mkFE name (leValue (ztake 8 e)) (leValue (ztake 8 (zdrop 8 e))) (leValue (ztake 8 (zdrop 16 e))) :: r)
      | (_, Throw) => Throw
      | (_, UB) => UB
      | (_, OutOfFuel) => OutOfFuel
      end
  end.
Definition fileEntries (fuel : nat) (m : memory) (data : reader) : res (list fentry) :=
  let* h := readObj (rread m data) 16 0 1 in
  let count := leValue (ztake 8 h) in
  let entries := rview data 16 (u64 (count * 24)) in
  let names := rview data (u64 (16 + u64 (count * 24))) offMax in
  let* eof := arrayEof (rsize entries) 24 0 in
  entryLoop (Z.to_nat eof) fuel m entries names ainit 0 0.

(** ** Objects *)
(** Process::objects by load address; std::map::emplace keeps an entry that is already there
    (addElfObject, process.cc:797-818).  Simplification: the build ID kept beside each name is left
    out. *)
Definition objects : Type := list (Z * list Z).
Definition addObj (os : objects) (name : list Z) (load : Z) : objects :=
  if existsb (fun e => fst e =? load) os then os else os ++ [(load, name)].
(** loadSharedObjectsFromFileNote dead.cc:307-335 (addElfObject's exceptions, which come from no
    modelled operation, are caught). *)
Fixpoint addFileEntries (es : list fentry) (os : objects) : objects :=
  match es with
  | [] => os
  | e :: r => addFileEntries r (if feOff e =? 0 then addObj os (feName e) (feStart e) else os)
  end.

Section Load.
(** The process's memory; Reader::readString of it; whether an ELF image can be read at an address;
    images by name and by build ID, the process's own executable, an image's entry point, PT_DYNAMIC
    segments (address, file size), and interpreter; what resolving _r_debug in the interpreter gives. *)
Context (m : memory) (str : Z -> res (list Z)) (vdsoOk : Z -> bool) (byName byId : list Z -> option Z) (procExe : option Z).
Context (eEntry : Z -> Z) (eDyn : Z -> list (Z * Z)) (eInterp : Z -> list Z) (rdebugSym : option Z).

(** io->readObj: all [n] bytes or an exception. *)
Definition obj (a : Z) (n : nat) : res (list Z) := match memread m a n with Some bs => Ok bs | None => Throw end.
Definition word (bs : list Z) (o : Z) : Z := leValue (ztake 8 (zdrop o bs)).
Definition half (bs : list Z) (o : Z) : Z := leValue (ztake 4 (zdrop o bs)).

(** The fields of Process this concerns (proc.h:243-270). *)
Record pst : Type := mkSt { sEntry : Z; sInterp : Z; sVdso : Z; sDtDebug : Z; sExecBase : Z; sExec : option Z; sObjs : objects }.
(** Process::Process, process.cc:151-161 *)
Definition initSt (exec : option Z) : pst :=
  mkSt (match exec with Some e => eEntry e | None => 0 end) 0 0 0 0 exec [].

(** processAUXV 249-313: the auxiliary vector.  [open]: the reader claims unbounded size (a live
    process's), so that running out of bytes is an exception.  Gives the state, name, AT_PHDR, AT_PHNUM.
    AT_NULL 0, PHDR 3, PHNUM 5, BASE 7, ENTRY 9, EXECFN 31, SYSINFO_EHDR 33. *)
Definition vdsoTxt : list Z := [40; 118; 100; 115; 111; 32; 105; 109; 97; 103; 101; 41].
Fixpoint auxLoop (fuel : nat) (open : bool) (bs : list Z) (s : pst) (name : list Z) (phOff phNum : Z) : res (pst * list Z * Z * Z) :=
  match fuel with
  | O => OutOfFuel
  | S f =>
      if (zlen bs =? 0) && negb open then Ok (s, name, phOff, phNum)
      else if zlen bs <? 16 then Throw
      else
        let ty := word bs 0 in
        let v := word bs 8 in
        let rest := zdrop 16 bs in
        if ty =? 0 then Ok (s, name, phOff, phNum)
        else if ty =? 9 then auxLoop f open rest (mkSt v (sInterp s) (sVdso s) (sDtDebug s) (sExecBase s) (sExec s) (sObjs s)) name phOff phNum
        else if ty =? 33 then
          auxLoop f open rest (if vdsoOk v then mkSt (sEntry s) (sInterp s) v (sDtDebug s) (sExecBase s) (sExec s) (addObj (sObjs s) vdsoTxt v) else s) name phOff phNum
        else if ty =? 7 then auxLoop f open rest (mkSt (sEntry s) v (sVdso s) (sDtDebug s) (sExecBase s) (sExec s) (sObjs s)) name phOff phNum
        else if ty =? 31 then
          match str v with
          | Ok t => auxLoop f open rest s t phOff phNum
          | Throw => auxLoop f open rest s name phOff phNum
          | UB => UB
          | OutOfFuel => OutOfFuel
          end
        else if ty =? 3 then auxLoop f open rest s name v phNum
        else if ty =? 5 then auxLoop f open rest s name phOff v
        else auxLoop f open rest s name phOff phNum
  end.
(** extractDtDebugFromDynamicSegment 233-247.  The array's elements are taken to be what C09 says they
    are: 16 bytes of memory each, or an exception. *)
Fixpoint dynLoop (n : nat) (a : Z) : res Z :=
  match n with
  | O => Ok 0
  | S k => let* bs := obj a 16 in
           if (word bs 0 =? 21) && negb (word bs 8 =? 0) then Ok (word bs 8) else dynLoop k (a + 16)
  end.
Definition dtDebug (vaddr filesz load : Z) : res Z :=
  if negb (filesz mod 16 =? 0) then Throw else dynLoop (Z.to_nat (filesz / 16)) (u64 (vaddr + load)).
(** The program headers 315-343: exceptions end the loop.  PT_PHDR 6, PT_NOTE 4, PT_DYNAMIC 2. *)
Fixpoint phLoop (n : nat) (phOff : Z) (a : Z) (base : Z) (notes : list Z) (dyn : option (Z * Z)) : Z * list Z * option (Z * Z) :=
  match n with
  | O => (base, notes, dyn)
  | S k =>
      match obj a 56 with
      | Ok bs =>
          let ty := half bs 0 in
          let va := word bs 16 in
          if ty =? 6 then phLoop k phOff (a + 56) (u64 (phOff - va)) notes dyn
          else if ty =? 4 then phLoop k phOff (a + 56) base (notes ++ [va]) dyn
          else if ty =? 2 then phLoop k phOff (a + 56) base notes (Some (va, word bs 32))
          else phLoop k phOff (a + 56) base notes dyn
      | _ => (base, notes, dyn)
      end
  end.
(** A vector of [n] bytes filled by io->read: what was not read stays 0.  Simplification: a reader that
    throws for an unreadable first byte (a live process's) does not occur. *)
Definition filled (a n : Z) : list Z := let got := prefix m a (Z.to_nat n) in got ++ repeat 0 (Z.to_nat n - length got).
(** 348-369: the build ID of the first note of each PT_NOTE segment. *)
Fixpoint noteLoop (notes : list Z) (base : Z) : res (option (list Z)) :=
  match notes with
  | [] => Ok None
  | off :: r =>
      let va := u64 (off + base) in
      let* n := obj va 12 in
      if negb (half n 8 =? 3) then noteLoop r base
      else if half n 0 =? 0 then UB
      else
        let name := filled (u64 (va + 12)) (half n 0) in
        let name := if last name 0 =? 0 then removelast name else name in
        if list_eq_dec Z.eq_dec name [71; 78; 85] then Ok (Some (filled (u64 (va + 16)) (half n 4)))
        else noteLoop r base
  end.
Definition orElse {A} (a b : option A) : option A := match a with Some _ => a | None => b end.
Definition setDt (s : pst) (d : Z) : pst := mkSt (sEntry s) (sInterp s) (sVdso s) d (sExecBase s) (sExec s) (sObjs s).
Definition setBase (s : pst) (b : Z) : pst := mkSt (sEntry s) (sInterp s) (sVdso s) (sDtDebug s) b (sExec s) (sObjs s).
Definition setExec (s : pst) (e : option Z) : pst := mkSt (sEntry s) (sInterp s) (sVdso s) (sDtDebug s) (sExecBase s) e (sObjs s).
Definition setObjs (s : pst) (o : objects) : pst := mkSt (sEntry s) (sInterp s) (sVdso s) (sDtDebug s) (sExecBase s) (sExec s) o.
(** processAUXV 249-377 *)
Definition processAUXV (fuel : nat) (open : bool) (bs : list Z) (s : pst) : res pst :=
  let* (s1, name, phOff, phNum) := auxLoop fuel open bs s [] 0 0 in
  let* s3 :=
    if (phOff =? 0) || (phNum =? 0) then Ok s1
    else
      let '(base, notes, dyn) := phLoop (Z.to_nat phNum) phOff phOff (sExecBase s1) [] None in
      let s1 := setBase s1 base in
      let* s2 := match dyn with
                 | Some (va, fsz) => if sDtDebug s1 =? 0 then let* d := dtDebug va fsz base in Ok (setDt s1 d) else Ok s1
                 | None => Ok s1
                 end in
      match sExec s2 with
      | Some _ => Ok s2
      | None => let* id := noteLoop notes base in
                Ok (setExec s2 (match id with Some i => byId i | None => None end))
      end in
  Ok (setExec s3 (orElse (orElse (sExec s3) (if list_eq_dec Z.eq_dec name [] then None else byName name)) procExe)).

(** findRDebugAddr 873-922.  An exception on the way to the interpreter's symbol is caught. *)
Fixpoint dynSegs (l : list (Z * Z)) (load d : Z) : res Z :=
  match l with
  | [] => Ok d
  | (va, fsz) :: r => let* d' := dtDebug va fsz load in dynSegs r load d'
  end.
Definition findRDebug (s : pst) : res pst :=
  match sExec s with
  | None => Ok s
  | Some e =>
      let* s1 := if sDtDebug s =? 0 then let* d := dynSegs (eDyn e) (u64 (sEntry s - eEntry e)) 0 in Ok (setDt s d) else Ok s in
      if (sDtDebug s1 =? 0) && negb (sInterp s1 =? 0) && (if list_eq_dec Z.eq_dec (eInterp e) [] then false else true)
      then let s2 := setObjs s1 (addObj (sObjs s1) (eInterp e) (sInterp s1)) in
           Ok (match rdebugSym with Some d => setDt s2 d | None => s2 end)
      else Ok s1
  end.

(** loadSharedObjects 823-871: r_map at 8 of the 40 byte r_debug; l_addr, l_name, l_next at 0, 8, 24 of the
    40 byte link_map.  The outcome is paired with the objects so far, which an exception leaves. *)
Definition exeTxt : list Z := [40; 101; 120; 101; 41].
Fixpoint linkLoop (fuel : nat) (first : Z) (a : Z) (s : pst) : pst * res unit :=
  match fuel with
  | O => (s, OutOfFuel)
  | S f =>
      if a =? 0 then (s, Ok tt)
      else
        match obj a 40 with
        | Ok lm =>
            let addr := word lm 0 in
            let nm := word lm 8 in
            let next := word lm 24 in
            if a =? first then
              match sExec s with
              | None => linkLoop f first next s
              | Some e =>
                  let s := if sExecBase s =? 0 then setBase s (u64 (sEntry s - eEntry e)) else s in
                  linkLoop f first next (setObjs s (addObj (sObjs s) exeTxt addr))
              end
            else if negb (sVdso s =? 0) && (addr =? sVdso s) then linkLoop f first next s
            else if nm =? 0 then linkLoop f first next s
            else
              match str nm with
              | Ok path => linkLoop f first next (match path with [] => s | _ => setObjs s (addObj (sObjs s) path addr) end)
              | Throw => (s, Throw)
              | UB => (s, UB)
              | OutOfFuel => (s, OutOfFuel)
              end
        | Throw => (s, Throw)
        | UB => (s, UB)
        | OutOfFuel => (s, OutOfFuel)
        end
  end.
Definition loadShared (fuel : nat) (rd : Z) (s : pst) : pst * res unit :=
  match obj rd 40 with
  | Ok r => linkLoop fuel (word r 8) (word r 8) s
  | Throw => (s, Throw)
  | UB => (s, UB)
  | OutOfFuel => (s, OutOfFuel)
  end.
(** Process::load 165-199.  [fileNote]: what loadSharedObjectsFromFileNote has to go by: a core's NT_FILE
    entries (or their reader's exception), [None] for a live process.  Stopping the process and libthread_db
    are left out. *)
Definition load (fuel : nat) (aux : option (bool * list Z)) (fileNote : option (res (list fentry))) (s : pst) : res pst :=
  let* s0 := match aux with Some (open, bs) => processAUXV fuel open bs s | None => Ok s end in
  let fallback (s : pst) : res pst :=
    match fileNote with
    | Some es => let* l := es in Ok (setObjs s (addFileEntries l (sObjs s)))
    | None => Throw
    end in
  match findRDebug s0 with
  | Ok s1 =>
      if (sDtDebug s1 =? 0) || (sDtDebug s1 =? W64 - 1)
      then Ok (match sExec s1 with Some _ => setObjs s1 (addObj (sObjs s1) [] 0) | None => s1 end)
      else match loadShared fuel (sDtDebug s1) s1 with
           | (s2, Ok _) => Ok s2
           | (s2, Throw) => fallback s2
           | (_, UB) => UB
           | (_, OutOfFuel) => OutOfFuel
           end
  | Throw => fallback s0
  | UB => UB
  | OutOfFuel => OutOfFuel
  end.
End Load.
