(** Model of Context's image lookup: context.cc:146-160 (findDwarf), 176-195 (flush), 204-356
    (getImageIfLoaded, openImage, getImageInPath, findImage, getImageImpl, findDebugImage) and
    363-391 (linkResolve).  The file system does not change. *)
From Verif Require Import Base.

Definition path : Type := list Z.
Fixpoint pathEq (a b : path) : bool :=
  match a, b with
  | [], [] => true
  | x :: a', y :: b' => (x =? y) && pathEq a' b'
  | _, _ => false
  end.
(** std::filesystem::path operator/: an absolute right side replaces the left; a separator is put
    between them unless the left is empty or ends with one. *)
Definition join (d n : path) : path :=
  match n with
  | 47 :: _ => n
  | _ => match d with
         | [] => n
         | _ => if last d 0 =? 47 then d ++ n else d ++ 47 :: n
         end
  end.

(** realpath(3): the resolved name, ENOENT or another error. *)
Inductive realpathR : Type := RPath (p : path) | REnoent | RError.
(** What is outside: file contents, whether an ELF object can be made of contents (Elf::Object's
    constructor does not throw), realpath, what debuginfod fetches (the name of the file it put the
    image in), and the options and prefixes. *)
Record world : Type := mkWorld {
  wFile : path -> option (list Z);
  wElf : list Z -> bool;
  wReal : path -> realpathR;
  wFetch : bool -> list Z -> option path;
  oNoLocal : bool; oNoIds : bool; oDebuginfod : bool;
  wExe : list path; wDebug : list path; wExeIds : list path; wDebugIds : list path }.

(** An Elf::Object: its identity (address), the file it was made of, isDebug. *)
Record obj : Type := mkObj { oId : Z; oPath : path; oDebug : bool }.
(** NameMap, IdMap: std::map from the key to a possibly null pointer (context.h:42-48). *)
Definition omap : Type := list (path * option obj).
Fixpoint mfind (m : omap) (k : path) : option (option obj) :=
  match m with
  | [] => None
  | (k', v) :: r => if pathEq k' k then Some v else mfind r k
  end.
Definition mput (m : omap) (k : path) (v : option obj) : omap := (k, v) :: filter (fun e => negb (pathEq (fst e) k)) m.
(** The context: the next identity, the four image maps, the cache of Dwarf::Info by object
    (identity of the object to identity of the Info), and the files looked at so far. *)
Record ctx : Type := mkCtx {
  cNext : Z; cExeN : omap; cDbgN : omap; cExeI : omap; cDbgI : omap; cDwarf : list (Z * Z); cProbes : list path }.
Definition ctx0 : ctx := mkCtx 1 [] [] [] [] [] [].
Definition names (d : bool) (c : ctx) : omap := if d then cDbgN c else cExeN c.
Definition ids (d : bool) (c : ctx) : omap := if d then cDbgI c else cExeI c.
Definition setNames (d : bool) (m : omap) (c : ctx) : ctx :=
  if d then mkCtx (cNext c) (cExeN c) m (cExeI c) (cDbgI c) (cDwarf c) (cProbes c)
  else mkCtx (cNext c) m (cDbgN c) (cExeI c) (cDbgI c) (cDwarf c) (cProbes c).
Definition setIds (d : bool) (m : omap) (c : ctx) : ctx :=
  if d then mkCtx (cNext c) (cExeN c) (cDbgN c) (cExeI c) m (cDwarf c) (cProbes c)
  else mkCtx (cNext c) (cExeN c) (cDbgN c) m (cDbgI c) (cDwarf c) (cProbes c).
Definition probe (p : path) (c : ctx) : ctx :=
  mkCtx (cNext c) (cExeN c) (cDbgN c) (cExeI c) (cDbgI c) (cDwarf c) (cProbes c ++ [p]).
(** A new object. *)
Definition alloc (p : path) (d : bool) (c : ctx) : obj * ctx :=
  (mkObj (cNext c) p d, mkCtx (cNext c + 1) (cExeN c) (cDbgN c) (cExeI c) (cDbgI c) (cDwarf c) (cProbes c)).

(** isspace in the C locale. *)
Definition isspace (b : Z) : bool := (b =? 32) || ((9 <=? b) && (b <=? 13)).
Fixpoint skipSpace (l : list Z) : list Z :=
  match l with [] => [] | b :: r => if isspace b then skipSpace r else l end.
Fixpoint takeWord (l : list Z) : list Z :=
  match l with [] => [] | b :: r => if isspace b then [] else b :: takeWord r end.
(** The interpreter named in the first 64 bytes, context.cc:250-262. *)
Definition interpreter (contents : list Z) : option path :=
  let prologue := ztake 64 contents in
  if (zlen prologue >? 3) && (nth 0 prologue 0 =? 35) && (nth 1 prologue 0 =? 33)
  then Some (takeWord (skipSpace (zdrop 2 prologue))) else None.

(** openImage context.cc:222-225 (with an MmapReader of the name): an object, or an exception. *)
Definition openImage (w : world) (p : path) (d : bool) (c : ctx) : ctx * option obj :=
  let c := probe p c in
  match wFile w p with
  | Some b => if wElf w b then let '(o, c') := alloc p d c in (c', Some o) else (c, None)
  | None => (c, None)
  end.
(** How the loop in getImageInPath ends: an early return (nothing is cached), or by leaving the loop
    with a result. *)
Inductive searchR : Type := Early (o : option obj) | Leave (o : option obj).
(** One iteration, context.cc:239-280: [None] is [continue]. *)
Definition tryDir (w : world) (d resolve : bool) (p : path) (c : ctx) : ctx * option searchR :=
  let attempt p c :=
    let c := probe p c in
    match wFile w p with
    | None => (c, None)                                                    (* MmapReader throws *)
    | Some b =>
        match (if d then None else interpreter b) with
        | Some i => match openImage w i false c with                       (* 265 *)
                    | (c', Some o) => (c', Some (Leave (Some o)))
                    | (c', None) => (c', None)
                    end
        | None => if wElf w b then let '(o, c') := alloc p d c in (c', Some (Early (Some o)))  (* 267 *)
                  else (c, None)
        end
    end in
  if resolve then
    match wReal w p with
    | RPath q => attempt q c
    | REnoent => (c, Some (Early None))                                    (* 245-246 *)
    | RError => attempt p c
    end
  else attempt p c.
(** The loop over the prefixes, in the order they are walked. *)
Fixpoint search (w : world) (d resolve : bool) (dirs : list path) (name : path) (c : ctx) : ctx * searchR :=
  match dirs with
  | [] => (c, Leave None)
  | dir :: r => match tryDir w d resolve (join dir name) c with
                | (c', Some s) => (c', s)
                | (c', None) => search w d resolve r name c'
                end
  end.
(** getImageInPath context.cc:230-290.  NameMap's keys are compared as paths; simplification: byte by
    byte. *)
Definition getImageInPath (w : world) (paths : list path) (d : bool) (name : path) (resolve : bool) (c : ctx) : ctx * option obj :=
  match mfind (names d c) name with
  | Some o => (c, o)
  | None => match search w d resolve (rev paths) name c with
            | (c', Early o) => (c', o)
            | (c', Leave o) => (setNames d (mput (names d c') name o) c', o)
            end
  end.
(** findImage(name) 295-300, findDebugImage(name) 352-355. *)
Definition findByName (w : world) (d : bool) (name : path) (c : ctx) : ctx * option obj :=
  if d then getImageInPath w (wDebug w) true name false c
  else if oNoLocal w then (c, None)
  else getImageInPath w (wExe w) false name false c.

(** AsHex, two lower case digits per byte. *)
Definition hexDigit (n : Z) : Z := if n <? 10 then 48 + n else 87 + n.
Definition hexByte (b : Z) : list Z := [hexDigit (b / 16); hexDigit (b mod 16)].
(** bucket / rest, context.cc:327-334. *)
Definition bidPath (d : bool) (bid : list Z) : path :=
  join (flat_map hexByte (firstn 1 bid)) (flat_map hexByte (skipn 1 bid) ++ (if d then [46; 100; 101; 98; 117; 103] else [])).
(** getImageImpl context.cc:313-349.  [None] as a result is an exception (from openImage of a
    fetched file). *)
Definition findById (w : world) (d : bool) (bid : list Z) (c : ctx) : ctx * option (option obj) :=
  if (match bid with [] => true | _ => false end) || oNoIds w then (c, Some None)
  else match mfind (ids d c) bid with
       | Some o => (c, Some o)
       | None =>
           let '(c1, r) := if oNoLocal w then (c, None)
                           else getImageInPath w (if d then wDebugIds w else wExeIds w) d (bidPath d bid) true c in
           let '(c2, r2) := match r with
                            | Some o => (c1, Some (Some o))
                            | None => if oDebuginfod w then
                                        match wFetch w d bid with
                                        | Some p => match openImage w p d c1 with
                                                    | (c', Some o) => (c', Some (Some o))
                                                    | (c', None) => (c', None)
                                                    end
                                        | None => (c1, Some None)
                                        end
                                      else (c1, Some None)
                            end in
           match r2 with
           | Some o => (setIds d (mput (ids d c2) bid o) c2, Some o)
           | None => (c2, None)
           end
       end.
(** flush context.cc:176-195: [o] as identity, 0 for null. *)
Definition isObj (o : Z) (v : option obj) : bool := match v with None => o =? 0 | Some x => oId x =? o end.
Definition flushMap (o : Z) (m : omap) : omap := filter (fun e => negb (isObj o (snd e))) m.
Definition flush (o : Z) (c : ctx) : ctx :=
  mkCtx (cNext c) (flushMap o (cExeN c)) (flushMap o (cDbgN c)) (flushMap o (cExeI c)) (flushMap o (cDbgI c))
        (filter (fun e => negb (fst e =? o)) (cDwarf c)) (cProbes c).
(** findDwarf(object) context.cc:146-160: Dwarf::Info made of a null object is undefined. *)
Fixpoint dfind (m : list (Z * Z)) (o : Z) : option Z :=
  match m with [] => None | (k, v) :: r => if k =? o then Some v else dfind r o end.
Definition findDwarf (o : Z) (c : ctx) : ctx * res Z :=
  match dfind (cDwarf c) o with
  | Some i => (c, Ok i)
  | None => if o =? 0 then (c, UB)
            else (mkCtx (cNext c + 1) (cExeN c) (cDbgN c) (cExeI c) (cDbgI c) ((o, cNext c) :: cDwarf c) (cProbes c), Ok (cNext c))
  end.
Definition idOf (o : option obj) : Z := match o with Some x => oId x | None => 0 end.
(** findDwarf(filename) context.cc:100-107 and findDwarf(build id) 140-144. *)
Definition findDwarfByName (w : world) (name : path) (c : ctx) : ctx * res (option Z) :=
  let '(c1, o) := findByName w false name c in
  match o with
  | None => (c1, Ok None)
  | Some x => let '(c2, r) := findDwarf (oId x) c1 in (c2, let* i := r in Ok (Some i))
  end.
Definition findDwarfById (w : world) (bid : list Z) (c : ctx) : ctx * res (option Z) :=
  let '(c1, r) := findById w false bid c in
  match r with
  | None => (c1, Throw)
  | Some o => let '(c2, r) := findDwarf (idOf o) c1 in (c2, let* i := r in Ok (Some i))
  end.

(** A request and a history of requests. *)
Inductive request : Type :=
| QName (d : bool) (name : path) | QId (d : bool) (bid : list Z) | QFlush (o : Z)
| QDwarf (o : Z) | QDwarfName (name : path) | QDwarfId (bid : list Z).
Definition serve (w : world) (c : ctx) (q : request) : ctx :=
  match q with
  | QName d n => fst (findByName w d n c)
  | QId d b => fst (findById w d b c)
  | QFlush o => flush o c
  | QDwarf o => fst (findDwarf o c)
  | QDwarfName n => fst (findDwarfByName w n c)
  | QDwarfId b => fst (findDwarfById w b c)
  end.
Definition history (w : world) (h : list request) (c : ctx) : ctx := fold_left (serve w) h c.

(** linkResolve context.cc:363-391.  readlink(2) on a name: a target (cut to 1023 bytes, the size of
    the buffer less one), EINVAL for something that is not a link, another error. *)
Inductive linkR : Type := LTarget (t : path) | LNotLink | LError.
(** [name.rfind('/')], [name.substr(0, lastSlash + 1)]: the name up to and with its last slash. *)
Fixpoint dirPart (n : path) : path :=
  match n with
  | [] => []
  | b :: r => if (b =? 47) || existsb (fun x => x =? 47) r then b :: dirPart r else []
  end.
Fixpoint untilNulP (l : list Z) : list Z := match l with [] => [] | b :: r => if b =? 0 then [] else b :: untilNulP r end.
Fixpoint linkResolve (fuel : nat) (rl : path -> linkR) (orig name : path) : res path :=
  match fuel with
  | O => OutOfFuel
  | S f =>
      match rl name with
      | LError => Ok orig
      | LNotLink => Ok name
      | LTarget t0 =>
          let t := untilNulP (ztake 1023 t0) in
          linkResolve f rl orig (match t with
                                 | 47 :: _ => t
                                 | _ => dirPart name ++ t
                                 end)
      end
  end.
