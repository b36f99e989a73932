(** Model of how the Python interpreter of a process is found and which printer is used for it: getInterpHead (python.cc:59-103; python2.cc:135-156; python3.cc:169-195),
    getPyInterpInfo (python.cc:11-31), pystack and doPy (pstack.cc:153-192).  The objects are those of Main.v, in the order of their load addresses.
    [py2] and [py3]: built with WITH_PYTHON2, WITH_PYTHON3.  python2.cc:143 iterates over "*syms" though debugSymbols() returns a reference, so it does not compile as it is;
    it is modelled as if it said "syms".  [off]: pyInterpOffset(), fixed by the Python headers pstack was built with. *)
From Coq Require Import Ascii String.
From Verif Require Import Base ElfHash Python Main FrameText.
Open Scope Z_scope.

(** An object that could be found: what its symbol lookups answer, the name of its file (io->filename()), the text of "os << *io", and its .symtab as a list of names and values *)
Record pobj : Type := mkPO { poSyms : sobj; poFile : list Z; poText : list Z; poTable : res (list (list Z * Z)) }.
Definition pobjs : Type := list (Z * (list Z * option pobj)).
Definition symView (l : pobjs) : sobjs := map (fun e => (fst e, (fst (snd e), match snd (snd e) with Some o => Some (poSyms o) | None => None end))) l.
(** std::string::find(word) != npos *)
Definition has (w s : list Z) : bool := match findWord w s 0 with Some _ => true | None => false end.

(** python.cc:65-76; the result is the load address of the object and the address of the list head *)
Definition headByPointer (m : memory) (l : pobjs) : res (Z * Z) :=
  let* (base, y) := resolveDetail (FrameText.txt "Py_interp_headp") false (has (FrameText.txt "python")) (symView l) in
  match memread m (u64 (base + svValue y)) 8 with Some b => Ok (base, le b) | None => Throw end.
(** python2.cc:143-152: the first symbol whose name begins with "interp_head" *)
Fixpoint headSymbol (t : list (list Z * Z)) : option Z :=
  match t with [] => None | (n, v) :: r => if startsWith (FrameText.txt "interp_head") n then Some v else headSymbol r end.
(** getInterpHead<2> python2.cc:135-156: an object without an image is used all the same *)
Fixpoint head2 (l : pobjs) : res (Z * Z) :=
  match l with
  | [] => Throw
  | (base, (_, None)) :: _ => UB
  | (base, (_, Some o)) :: r =>
      if negb (has (FrameText.txt "python") (poText o)) then head2 r
      else let* t := poTable o in match headSymbol t with Some v => Ok (base, u64 (base + v)) | None => head2 r end
  end.
(** getInterpHead<3> python3.cc:169-195 *)
Definition head3 (off : Z) (l : pobjs) : res (Z * Z) :=
  let* (base, y) := resolveDetail (FrameText.txt "_PyRuntime") false (fun n => has (FrameText.txt "python3") (fileName n)) (symView l) in
  Ok (base, u64 (base + svValue y + off)).
(** a try block followed by what comes after it *)
Definition orElse {A} (x : res A) (y : res (option A)) : res (option A) := match x with Ok a => Ok (Some a) | Throw => y | UB => UB | OutOfFuel => OutOfFuel end.
(** getInterpHead python.cc:59-103; [None]: no interpreter *)
Definition interpHead (py2 py3 : bool) (off : Z) (m : memory) (l : pobjs) : res (option (Z * Z)) :=
  orElse (headByPointer m l) (let after := if py3 then orElse (head3 off l) (Ok None) else Ok None in if py2 then orElse (head2 l) after else after).
(** getPyInterpInfo 11-31: load address, list head, version *)
Definition interpInfo (py2 py3 : bool) (off : Z) (m : memory) (l : pobjs) : res (option (Z * Z * (Z * Z))) :=
  let* h := interpHead py2 py3 off m l in
  match h with
  | None => Ok None
  | Some (base, a) =>
      match find (fun e => fst e =? base) l with
      | Some (_, (_, Some o)) => let* v := versionFromFilename (poFile o) in Ok (Some (base, a, v))
      | _ => UB
      end
  end.
(** V2HEX python.h:8 *)
Definition v2hex (v : Z * Z) : Z := Z.lor (Z.shiftl (fst v) 24) (Z.shiftl (snd v) 16).
(** pystack 173-192 and doPy 153-160: what is traced, and from which list head *)
Inductive pyRun : Type := NotPython | Trace (v3 : bool) (head : Z).
Definition pystack (py2 py3 : bool) (off : Z) (m : memory) (l : pobjs) : res pyRun :=
  let* i := interpInfo py2 py3 off m l in
  match i with
  | None => Ok NotPython
  | Some (_, a, v) =>
      let v3 := negb (v2hex v <? v2hex (3, 0)) in
      if (if v3 then py3 else py2) then if a =? 0 then Throw else Ok (Trace v3 a) else Throw
  end.
