(** Model of the Python printer: python.tcc, python2.cc:20-135, python3.cc:50-150, python.cc:33-57.
    The target's memory is a byte map; [str] stands for proc.io->readString.  Output is one token per "os <<", grouped by the call of
    PythonPrinter::print ([Call]) and the object of that call's loop ([Obj]) that wrote it; the grouping is not text.
    Simplifications: field offsets that differ between Python releases are the parameter [lay]; the stack is 8 MiB for each variable-length array
    on its own, so stack exhaustion by recursion is not seen; the maps types and printers are exact maps keyed by the type's address. *)
From Coq Require Import String.
From Verif Require Import Base ElfHash.

(** getPythonVersionFromFilename python.cc:33-57.  std::string::rfind of '/', and find of "python" from a position *)
Fixpoint rfindSlash (s : list Z) (i : Z) : option Z :=
  match s with
  | [] => None
  | c :: r => match rfindSlash r (i + 1) with Some j => Some j | None => if c =? 47 then Some i else None end
  end.
Definition pythonWord : list Z := [112; 121; 116; 104; 111; 110].
Fixpoint startsWith (p s : list Z) : bool := match p, s with [], _ => true | x :: p, y :: s => (x =? y) && startsWith p s | _, [] => false end.
Fixpoint findWord (w s : list Z) (i : Z) : option Z :=
  match s with
  | [] => if startsWith w [] then Some i else None
  | c :: r => if startsWith w s then Some i else findWord w r (i + 1)
  end.
Definition isDigit (c : Z) : bool := (48 <=? c) && (c <=? 57).
Definition versionFromFilename (s : list Z) : res (Z * Z) :=
  let from := match rfindSlash s 0 with Some i => i | None => 0 end in
  match findWord pythonWord (zdrop from s) from with
  | None => Throw
  | Some index =>
      if zlen s <? index + 9 then Throw
      else match znth (index + 6) s, znth (index + 8) s with
           | Some a, Some b => if isDigit a && isDigit b then Ok (a - 48, b - 48) else Throw
           | _, _ => UB
           end
  end.

(** ** output *)
Inductive tok : Type := TLit (s : string) | TStr (s : list Z) | TNum (v : Z) | TFloat (bits : Z) | TPrefix (n : Z).
Inductive out : Type := Tok (t : tok) | Call (a : Z) (body : list out) | Obj (a : Z) (body : list out).

(** the printers registered by symbol: python.tcc:300-318 and the static printers of python2.cc/python3.cc; [KHeap] is the unregistered one *)
Inductive kind : Type := KHeap | KString | KFloat | KModule | KList | KType | KLong | KFrame | KTuple | KDict | KBool | KInt | KClass | KInstance.
(** dupdetect() of each printer; python.h:54 makes it true where not overridden *)
Definition dupdetect (k : kind) : bool := match k with KString | KFloat | KLong | KBool | KInt => false | _ => true end.

(** offsetof/sizeof values that depend on the Python headers *)
Record layout : Type := mkLay {
  lTypeSize : Z; lFrameLasti : Z; lFrameLocals : Z; lCodeSize : Z; lArgcount : Z; lKwonly : Z; lNlocals : Z; lFlags : Z;
  lVarnames : Z; lFreevars : Z; lCellvars : Z; lFilename : Z; lName : Z; lFirstline : Z; lLnotab : Z }.
Definition py27 : layout := mkLay 432 120 376 120 16 16 20 28 56 64 72 80 88 96 104.
Definition py38 : layout := mkLay 408 104 360 144 16 24 28 36 72 80 88 104 112 40 120.

(** the fields of PyTypeObject that are used *)
Record ptype : Type := mkPT { tName : Z; tBasic : Z; tItem : Z; tFlags : Z; tDictoff : Z }.
(** PythonPrinter's mutable members, python.h:68-82; a type whose bytes were allocated but never read is [None] *)
Record pst : Type := mkPS { pDepth : Z; pVisited : list Z; pTypes : list (Z * option ptype) }.

(** computations that write output, change the printer and may throw; what was written and changed before a throw stays *)
Definition M (A : Type) : Type := pst -> list out * pst * res A.
Definition ret {A} (a : A) : M A := fun s => ([], s, Ok a).
Definition lift {A} (r : res A) : M A := fun s => ([], s, r).
Definition bindM {A B} (x : M A) (f : A -> M B) : M B := fun s =>
  match x s with
  | (o, s1, Ok a) => match f a s1 with (o2, s2, r) => (o ++ o2, s2, r) end
  | (o, s1, Throw) => (o, s1, Throw)
  | (o, s1, UB) => (o, s1, UB)
  | (o, s1, OutOfFuel) => (o, s1, OutOfFuel)
  end.
Notation "x <- e ; k" := (bindM e (fun x => k)) (at level 100, e at level 99, right associativity, only parsing).
Notation "e ;; k" := (bindM e (fun _ => k)) (at level 100, right associativity, only parsing).
Definition emit (t : tok) : M unit := fun s => ([Tok t], s, Ok tt).
Definition lit (s : string) : M unit := emit (TLit s).
Definition addDepth (d : Z) : M unit := fun s => ([], mkPS (pDepth s + d) (pVisited s) (pTypes s), Ok tt).
Definition getDepth : M Z := fun s => ([], s, Ok (pDepth s)).
Definition group {A} (g : list out -> out) (x : M A) : M A := fun s => match x s with (o, s1, r) => ([g o], s1, r) end.
Definition nl : string := String (Ascii.ascii_of_nat 10) EmptyString.

(** little-endian fields of a buffer; past its end is undefined *)
Fixpoint le (l : list Z) : Z := match l with [] => 0 | b :: r => b + 256 * le r end.
Definition fld (buf : list Z) (off n : Z) : res Z :=
  let l := ztake n (zdrop off buf) in if (0 <=? off) && (zlen l =? n) then Ok (le l) else UB.
Definition fldM (buf : list Z) (off n : Z) : M Z := lift (fld buf off n).
(** a variable length array of [n] bytes *)
Definition stackMax : Z := 8388608.
Definition vla (n : Z) : M unit := lift (if (0 <=? n) && (n <=? stackMax) then Ok tt else UB).
Definition mapped (b : res unit) : M unit := lift b.
(** for (i = 0; i < n; ++i) *)
Fixpoint forN (fuel : nat) (i n : Z) (body : Z -> M unit) : M unit :=
  match fuel with O => lift OutOfFuel | S f => if i <? n then body i ;; forN f (i + 1) n body else ret tt end.
Fixpoint each (l : list Z) (body : Z -> M unit) : M unit := match l with [] => ret tt | a :: r => body a ;; each r body end.
Fixpoint words (n : nat) (buf : list Z) : list Z := match n with O => [] | S k => le (ztake 8 buf) :: words k (zdrop 8 buf) end.
Definition noneType : list Z := [78; 111; 110; 101; 84; 121; 112; 101].
Definition addr8 (base : Z) (i : Z) : Z := u64 (base + 8 * i).

(** the loop of getLine python.tcc:21-32, over the bytes of the line table *)
Definition chk32 (v : Z) : res Z := if (-2147483648 <=? v) && (v <=? 2147483647) then Ok v else UB.
Fixpoint lineLoop (v3 : bool) (lasti : Z) (fuel : nat) (p : list Z) (addr line : Z) : res Z :=
  match fuel with
  | O => OutOfFuel
  | S fuel =>
      match p with
      | [] => Ok line
      | d :: p =>
          let* addr := chk32 (addr + d) in
          if addr >? lasti then Ok line
          else match p with
               | [] => UB
               | i :: p => let* line := chk32 (line + (if v3 then s8 i else i)) in lineLoop v3 lasti fuel p addr line
               end
      end
  end.
(** the loop of LongPrinter python.tcc:124-129 (C++20: << is modular, + is not) *)
Definition chk64 (v : Z) : res Z := if (-9223372036854775808 <=? v) && (v <=? 9223372036854775807) then Ok v else UB.
Fixpoint longLoop (fuel : nat) (buf : list Z) (i n value : Z) : res Z :=
  match fuel with
  | O => OutOfFuel
  | S f =>
      if i <? n then
        let* d := fld buf (24 + 4 * i) 4 in
        if 30 * i >=? 64 then UB
        else let* value := chk64 (value + s64 (d * 2 ^ (30 * i))) in longLoop f buf (i + 1) n value
      else Ok value
  end.

Section Printer.
Context (v3 : bool) (lay : layout) (m : memory) (str : Z -> res (list Z)) (kindOf : Z -> option kind) (maxdepth : Z) (doargs dolocals : bool).

(** readObj: throws unless all of it can be read *)
Definition rd (a n : Z) : M (list Z) := lift (match memread m (u64 a) (Z.to_nat n) with Some l => Ok l | None => Throw end).
Definition strM (a : Z) : M (list Z) := lift (str (u64 a)).
Definition ptrs (a n : Z) : M (list Z) := b <- rd a (8 * n); ret (words (Z.to_nat n) b).
(** prefix() python.tcc:245-259: 301 blanks *)
Definition prefix : M unit := d <- getDepth; emit (TPrefix (u64 (d * 4) mod 301)).

(** readString<2> python2.cc:20-22, readString<3> python3.cc:62-75 *)
Definition pyString (a : Z) : M (list Z) :=
  if v3 then
    o <- rd a 48; state <- fldM o 32 4;
    let compact := (state / 32) mod 2 in let ascii := (state / 64) mod 2 in let ready := (state / 128) mod 2 in
    if (compact =? 1) && (ascii =? 1) && (ready =? 1) then strM (a + 48) else strM (a + 72)
  else strM (a + 36).
(** getLine python.tcc:11-34 *)
Definition getLine (code : list Z) (lasti : Z) : M Z :=
  tab <- fldM code (lLnotab lay) 8;
  v <- rd tab 24; size <- fldM v 16 8;
  vla (s64 size) ;;
  data <- rd (tab + (if v3 then 32 else 36)) size;
  first <- fldM code (lFirstline lay) 4;
  lift (lineLoop v3 lasti (S (length data)) data 0 (s32 first)).

Section Recursive.
(** [fuel] bounds the loops over dictionary tables, [pr] is PythonPrinter::print *)
Context (fuel : nat) (pr : Z -> M unit).

(** HeapPrinter python.tcc:36-52 *)
Definition heapPrinter (ty : ptype) (a : Z) : M Z :=
  n <- strM (tName ty); emit (TStr n) ;;
  (if tDictoff ty >? 0 then
     lit nl ;; addDepth 1 ;; b <- rd (a + tDictoff ty) 8; d <- fldM b 0 8; pr d ;; addDepth (-1) ;; lit nl
   else ret tt) ;; ret 0.
(** StringPrinter, FloatPrinter, ModulePrinter: python.tcc:54-62, 64-72, 74-87 *)
Definition stringPrinter (a : Z) : M Z := s <- pyString a; lit """" ;; emit (TStr s) ;; lit """" ;; ret 0.
Definition floatPrinter (buf : list Z) : M Z := v <- fldM buf 16 8; emit (TFloat v) ;; ret 0.
Definition modulePrinter (buf : list Z) : M Z := d <- fldM buf 16 8; pr d ;; ret 0.
(** "for (auto addr : objects)" of ListPrinter and TuplePrinter, python.tcc:99-103 and 150-155 *)
Definition elements (l : list Z) : M unit := each l (fun x => prefix ;; pr x ;; lit ("," ++ nl)).
(** ListPrinter python.tcc:89-108; std::min of signed sizes *)
Definition listPrinter (buf : list Z) : M Z :=
  lit ("[ " ++ nl) ;;
  n <- fldM buf 16 8; let size := Z.min (s64 n) 100 in
  vla (8 * size) ;;
  item <- fldM buf 24 8; l <- ptrs item size;
  addDepth 1 ;; elements l ;; addDepth (-1) ;; prefix ;; lit "]" ;; ret 0.
(** TypePrinter python.tcc:110-118: the object is itself a type *)
Definition typePrinter (buf : list Z) : M Z := p <- fldM buf 24 8; s <- strM p; lit "type :""" ;; emit (TStr s) ;; lit """" ;; ret 0.
(** LongPrinter python.tcc:120-136 *)
Definition longPrinter (buf : list Z) : M Z :=
  n <- fldM buf 16 8; v <- lift (longLoop (S (Z.to_nat (Z.abs (s64 n)))) buf 0 (Z.abs (s64 n)) 0);
  v <- lift (chk64 (if s64 n <? 0 then - v else v)); emit (TNum v) ;; ret 0.
(** TuplePrinter python.tcc:138-163 *)
Definition tuplePrinter (buf : list Z) (a : Z) : M Z :=
  n <- fldM buf 16 8; let size := Z.min (s64 n) 100 in
  if size =? 0 then lit "()" ;; ret 0
  else lit ("( " ++ nl) ;; vla (8 * size) ;; l <- ptrs (a + 24) size;
       addDepth 1 ;; elements l ;; addDepth (-1) ;; prefix ;; lit (")" ++ nl) ;; ret 0.
(** DictPrinter, python2.cc:49-82 *)
Definition dict2Slot (table i : Z) : M unit :=
  e <- rd (table + 24 * i) 24; k <- fldM e 8 8; v <- fldM e 16 8;
  if v =? 0 then ret tt
  else if negb (k =? 0) then prefix ;; pr k ;; lit " : " ;; pr v ;; lit nl
  else ret tt.
Definition dict2Printer (buf : list Z) : M Z :=
  used <- fldM buf 24 8; d <- getDepth;
  if used =? 0 then lit "{}" ;; ret 0
  else if d >? maxdepth then lit "{ ... }" ;; ret 0
  else lit ("{" ++ nl) ;; addDepth 1 ;;
       mask <- fldM buf 32 8; table <- fldM buf 40 8;
       forN fuel 0 (s64 mask) (dict2Slot table) ;;
       addDepth (-1) ;; prefix ;; lit "}" ;; ret 0.
(** DictPrinter, python3.cc:92-129; DK_IXSIZE 10-14 and readIndex 79-89 *)
Definition ixSize (size : Z) : Z := if size <=? 255 then 1 else if size <=? 65535 then 2 else if size <=? 4294967295 then 4 else 8.
Definition dict3Slot (keys ixs size values i : Z) : M unit :=
  b <- rd (keys + 40 + i * ixs) ixs;
  let index := sgn (2 ^ (8 * ixs)) (le b) in
  if (index =? -1) || (index =? -2) then ret tt
  else e <- rd (keys + 40 + size * ixs + 24 * index) 24; k <- fldM e 8 8; v <- fldM e 16 8;
       value <- (if negb (values =? 0) then b <- rd (values + 8 * index) 8; fldM b 0 8 else ret v);
       prefix ;; pr k ;; lit " : " ;; pr value ;; lit nl.
Definition dict3Printer (buf : list Z) : M Z :=
  used <- fldM buf 16 8; d <- getDepth;
  if used =? 0 then lit "{}" ;; ret 0
  else if d >? maxdepth then lit "{ ... }" ;; ret 0
  else keys <- fldM buf 32 8; values <- fldM buf 40 8;
       k <- rd keys 40; size <- fldM k 8 8;
       let size := s64 size in let ixs := ixSize size in
       lit ("{" ++ nl) ;; addDepth 1 ;;
       forN fuel 0 size (dict3Slot keys ixs size values) ;;
       addDepth (-1) ;; prefix ;; lit "}" ;; ret 0.
(** BoolPrint python2.cc:25-34, BoolPrinter python3.cc:131-139, IntPrint 107-117, ClassPrinter 36-47, InstancePrinter 84-105 *)
Definition boolPrinter (buf : list Z) : M Z :=
  v <- (if v3 then fldM buf 24 4 else fldM buf 16 8); lit (if v =? 0 then "False" else "True") ;; ret 0.
Definition intPrinter (buf : list Z) : M Z := v <- fldM buf 16 8; emit (TNum (s64 v)) ;; ret 0.
Definition classPrinter (buf : list Z) : M Z := lit "<class " ;; p <- fldM buf 32 8; pr p ;; lit ">" ;; ret 0.
Definition instancePrinter (buf : list Z) : M Z :=
  addDepth 1 ;; lit nl ;; prefix ;; lit "class: " ;; addDepth 1 ;;
  c <- fldM buf 16 8; pr c ;; addDepth (-1) ;;
  lit nl ;; prefix ;; lit ("dict: " ++ nl) ;; addDepth 1 ;;
  d <- fldM buf 24 8; pr d ;; addDepth (-1) ;; addDepth (-1) ;; ret 0.
(** printTupleVars python.tcc:167-193; vectors of a negative size throw.  A std::vector of up to a million pointers is assumed to be available *)
Fixpoint pairs (l k : list Z) (body : Z -> Z -> M unit) : M unit :=
  match l, k with x :: l, y :: k => body x y ;; pairs l k body | _, _ => ret tt end.
Definition printTupleVars (names values : Z) (type : string) (maxvals : Z) : M Z :=
  t <- rd names 32; n <- fldM t 16 8;
  let maxvals := Z.min (s64 n) maxvals in
  if maxvals =? 0 then ret 0
  else if maxvals <? 0 then lift Throw
  else ns <- ptrs (names + 24) maxvals; vs <- ptrs values maxvals;
       prefix ;; lit (type ++ ":" ++ nl) ;; addDepth 1 ;;
       pairs ns vs (fun n v => prefix ;; pr n ;; lit "=" ;; pr v ;; lit nl) ;;
       addDepth (-1) ;; ret maxvals.
(** printArguments python.tcc:456-535 *)
Definition printArguments (fbuf : list Z) (a : Z) : M unit :=
  codeAddr <- fldM fbuf 32 8; code <- rd codeAddr (lCodeSize lay);
  flags <- fldM code (lFlags lay) 4; ac <- fldM code (lArgcount lay) 4;
  kw <- (if v3 then fldM code (lKwonly lay) 4 else ret 0);
  let ac := s32 ac in let kw := s32 kw in
  let varargs := (flags / 4) mod 2 =? 1 in let varkw := (flags / 8) mod 2 =? 1 in
  total <- lift (chk32 (ac + kw + (if varargs then 1 else 0) + (if varkw then 1 else 0)));
  vn <- fldM code (lVarnames lay) 8;
  let names := vn + 24 in let locals := a + lFrameLocals lay in
  lit "(" ;; vla (8 * ac) ;; args <- ptrs locals ac;
  pairs (map Z.of_nat (seq 0 (Z.to_nat ac))) args (fun i x => pr x ;; if i <? total - 1 then lit ", " else ret tt) ;;
  lit "=(" ;;
  (if varargs then
     b <- rd (names + 8 * (ac + kw)) 8; n <- fldM b 0 8; pr n ;;
     b <- rd (locals + 8 * (ac + kw)) 8; t <- fldM b 0 8; v <- rd t 24; c <- fldM v 16 8;
     if (0 <=? s64 c) && (s64 c <? 128) then l <- ptrs (t + 24) (s64 c); each l (fun x => lit ", " ;; pr x) else ret tt
   else ret tt) ;;
  (if (0 <? kw) && (kw <? 128) then
     ns <- ptrs (names + 8 * ac) kw; vs <- ptrs (locals + 8 * ac) kw;
     pairs ns vs (fun n v => lit ", " ;; s <- pyString n; emit (TStr s) ;; lit "=" ;; pr v)
   else ret tt) ;;
  (if varkw then
     lit ", " ;;
     let i := ac + kw + (if varargs then 1 else 0) in
     b <- rd (names + 8 * i) 8; n <- fldM b 0 8; b <- rd (locals + 8 * i) 8; v <- fldM b 0 8;
     s <- pyString n; emit (TStr s) ;; lit "=" ;; pr v
   else ret tt) ;;
  lit ")".
(** FramePrinter python.tcc:195-240 *)
Definition framePrinter (buf : list Z) (a : Z) : M Z :=
  codeAddr <- fldM buf 32 8; locals <- fldM buf 56 8; back <- fldM buf 24 8;
  (if negb (codeAddr =? 0) then
     code <- rd codeAddr (lCodeSize lay);
     lasti <- fldM buf (lFrameLasti lay) 4; line <- getLine code (s32 lasti);
     np <- fldM code (lName lay) 8; func <- pyString np;
     fp <- fldM code (lFilename lay) 8; file <- pyString fp;
     prefix ;; emit (TStr func) ;;
     (if doargs then printArguments buf a else ret tt) ;;
     lit " in " ;; emit (TStr file) ;; lit ":" ;; emit (TNum line) ;; lit nl ;;
     (if dolocals then
        addDepth 1 ;;
        vn <- fldM code (lVarnames lay) 8; nl' <- fldM code (lNlocals lay) 4; cv <- fldM code (lCellvars lay) 8; fv <- fldM code (lFreevars lay) 8;
        let flocals := a + lFrameLocals lay in
        printTupleVars vn flocals "fastlocals" (s32 nl') ;;
        c <- printTupleVars cv (flocals + 8 * s32 nl') "cells" 1000000;
        printTupleVars fv (flocals + 8 * s32 nl' + 8 * c) "freevars" 1000000 ;;
        addDepth (-1)
      else ret tt)
   else ret tt) ;;
  (if dolocals && negb (locals =? 0) then
     addDepth 1 ;; prefix ;; lit ("locals:" ++ nl) ;; pr locals ;; addDepth (-1)
   else ret tt) ;;
  ret back.

Definition runPrinter (k : kind) (ty : ptype) (buf : list Z) (a : Z) : M Z :=
  match k with
  | KHeap => heapPrinter ty a
  | KString => stringPrinter a
  | KFloat => floatPrinter buf
  | KModule => modulePrinter buf
  | KList => listPrinter buf
  | KType => typePrinter buf
  | KLong => longPrinter buf
  | KFrame => framePrinter buf a
  | KTuple => tuplePrinter buf a
  | KDict => if v3 then dict3Printer buf else dict2Printer buf
  | KBool => boolPrinter buf
  | KInt => intPrinter buf
  | KClass => classPrinter buf
  | KInstance => instancePrinter buf
  end.

(** types[] and the read of a new type, python.tcc:341-347 *)
Fixpoint typeFind (l : list (Z * option ptype)) (t : Z) : option (option ptype) :=
  match l with [] => None | (k, v) :: r => if k =? t then Some v else typeFind r t end.
Definition setType (t : Z) (v : option ptype) : M unit := fun s => ([], mkPS (pDepth s) (pVisited s) ((t, v) :: pTypes s), Ok tt).
Definition getType (t : Z) : M ptype := fun s =>
  match typeFind (pTypes s) t with
  | Some (Some ty) => ret ty s
  | Some None => lift UB s
  | None =>
      (setType t None ;;
       b <- rd t (lTypeSize lay);
       n <- fldM b 24 8; ba <- fldM b 32 8; it <- fldM b 40 8; fl <- fldM b 168 8; dof <- fldM b 288 8;
       let ty := mkPT n ba it fl (s64 dof) in
       setType t (Some ty) ;; ret ty) s
  end.
Definition isVisited (a : Z) : M bool := fun s => ([], s, Ok (existsb (Z.eqb a) (pVisited s))).
Definition visit (a : Z) : M unit := fun s => ([], mkPS (pDepth s) (a :: pVisited s) (pTypes s), Ok tt).

(** the printer for an object, python.tcc:337-363: none if a message was printed instead *)
Definition choose (tp a : Z) (ty : ptype) : M (option kind) :=
  match kindOf tp with
  | Some k => ret (Some k)
  | None =>
      tn <- strM (tName ty);
      if beq tn noneType then lit "None" ;; ret None
      else if (tFlags ty / 512) mod 2 =? 1 then ret (Some KHeap)
      else emit (TNum a) ;; lit " unprintable-type-" ;; emit (TStr tn) ;; lit "@" ;; emit (TNum tp) ;; lit nl ;; ret None
  end.
(** python.tcc:372-387: copy the whole object and hand it to the printer *)
Definition contents (k : kind) (ty : ptype) (obsize a : Z) : M Z :=
  if negb (tItem ty =? 0) && (Z.abs obsize >? 65536) then
    lit "(skip massive object " ;; emit (TNum obsize) ;; lit ")" ;; ret 0
  else
    let full := s64 (tBasic ty + (if tItem ty =? 0 then 0 else tItem ty * Z.abs obsize)) in
    vla full ;; buf <- rd a full; runPrinter k ty buf a.
(** one turn of the loop of PythonPrinter::print, python.tcc:330-388; a break is the next address 0 *)
Definition one (a : Z) : M Z :=
  base <- rd a 24; refs <- fldM base 0 8; tp <- fldM base 8 8; obsize <- fldM base 16 8;
  (if refs =? 0 then lit "(dead object)" else ret tt) ;;
  ty <- getType tp;
  k <- choose tp a ty;
  match k with
  | None => ret 0
  | Some k =>
      seen <- isVisited a;
      if dupdetect k && seen then lit "(already seen)" ;; ret 0
      else (if dupdetect k then visit a else ret tt) ;; contents k ty (s64 obsize) a
  end.
Fixpoint loop (n : nat) (a : Z) : M unit :=
  match n with O => lift OutOfFuel | S k => if a =? 0 then ret tt else b <- group (Obj a) (one a); loop k b end.
End Recursive.

(** PythonPrinter::print python.tcc:323-396 *)
Definition caught (x : M unit) : M unit := fun s => match x s with (o, s1, Throw) => (o ++ [Tok (TLit "(print failed)")], s1, Ok tt) | y => y end.
Fixpoint print (fuel : nat) (a : Z) : M unit :=
  match fuel with
  | O => lift OutOfFuel
  | S f =>
      group (Call a)
        (d <- getDepth;
         if d >? 10000 then lit ("too deep" ++ nl)
         else addDepth 1 ;; caught (loop f (print f) f a) ;; addDepth (-1))
  end.

(** printThread 404-419 without the thread's name line; its frame and next fields are at [frameOff] and [nextOff] of PyThreadState *)
Definition printThread (fuel : nat) (frameOff nextOff size : Z) (t : Z) : M Z :=
  b <- rd t size; f <- fldM b frameOff 8; n <- fldM b nextOff 8; lit "thread" ;; print fuel f ;; ret n.
(** the thread loop of printInterp 438-446 *)
Fixpoint threads (n : nat) (thread : Z -> M Z) (seen : list Z) (t : Z) : M unit :=
  match n with
  | O => lift OutOfFuel
  | S k =>
      if t =? 0 then ret tt
      else
        t' <- group (Obj t) (thread t);
        if existsb (Z.eqb t') seen then ret tt
        else if Z.of_nat (S (length seen)) >? 128 then ret tt
        else lit nl ;; threads k thread (t' :: seen) t'
  end.
(** printInterp 427-453 *)
Definition printInterp (fuel : nat) (thread : Z -> M Z) (modules : bool) (p : Z) : M Z :=
  b <- rd p 24; next <- fldM b 0 8; head <- fldM b 8 8; mods <- fldM b 16 8;
  lit "---- interpreter @" ;; emit (TNum p) ;; lit (" -----" ++ nl) ;;
  threads fuel thread [head] head ;;
  (if modules then lit ("---- modules:" ++ nl) ;; print fuel mods else ret tt) ;;
  ret next.
(** printInterpreters 276-281 *)
Fixpoint interpLoop (n : nat) (interp : Z -> M Z) (p : Z) : M unit :=
  match n with O => lift OutOfFuel | S k => if p =? 0 then ret tt else q <- group (Call p) (interp p); interpLoop k interp q end.
Definition printInterpreters (fuel : nat) (thread : Z -> M Z) (modules : bool) (head : Z) : M unit :=
  b <- rd head 8; p <- fldM b 0 8; interpLoop fuel (printInterp fuel thread modules) p.
End Printer.
