(** Model of pstack -j: the stacks of a process as JSON (pstack.cc:33-38; process.cc:36-53, 64-83, 95-105, 1447-1462), with the state the stream is left in
    (libpstack/json.h:196-287) and the arguments of one run (pstack.cc:430-444). *)
From Coq Require Import Ascii String.
From Verif Require Import Base Json Args FrameText.

(** Something written to a stream: given whether the stream is in std::hex, the text, how it ended, and whether the stream is in std::hex afterwards. *)
Definition pr : Type := bool -> list Z * res unit * bool.
Definition put (t : list Z) : pr := fun h => (t, Ok tt, h).
Definition stopWith (r : res unit) : pr := fun h => ([], r, h).
Definition andThenS (a b : pr) : pr := fun h =>
  match a h with
  | (t, Ok _, h') => let '(u, r, h'') := b h' in (t ++ u, r, h'')
  | x => x
  end.
(** An integer, json.h:66-73.  Simplification: in std::hex a negative number of a type of 32 bits would have 8 digits; here it has 16. *)
Definition intS (n : Z) : pr := fun h => (if h then hexText 16 (u64 n) else intText n, Ok tt, h).
Definition boolS (b : bool) : pr := put (if b then txt "true" else txt "false").
(** operator << (Escape) json.h:196-239, as [escape] in Json.v, but with what was written before an exception; std::hex is in force after the first
    \u escape, and only the end of the function undoes it (line 237). *)
Fixpoint escapeS (fuel : nat) (l : list Z) : pr := fun h =>
  match fuel with
  | O => ([], OutOfFuel, h)
  | S f =>
      match l with
      | [] => ([], Ok tt, h)
      | c :: r =>
          let plain s := andThenS (put s) (escapeS f r) h in
          if c =? 8 then plain [92; 98]
          else if c =? 12 then plain [92; 102]
          else if c =? 10 then plain [92; 110]
          else if c =? 34 then plain [92; 34]
          else if c =? 92 then plain [92; 92]
          else if c =? 13 then plain [92; 114]
          else if c =? 9 then plain [92; 116]
          else if c <? 32 then andThenS (put ([92; 117] ++ hexText 16 c)) (escapeS f r) true
          else if negb (Z.land c 128 =? 0) then
            let (count, v) := leadByte c in
            match contBytes (Z.to_nat (count - 1)) v r with
            | Ok (v, r) => andThenS (put ([92; 117] ++ padTo4 (hexText 16 v))) (escapeS f r) true
            | Throw => ([], Throw, h) | UB => ([], UB, h) | OutOfFuel => ([], OutOfFuel, h)
            end
          else plain [c]
      end
  end.
(** json.h:241-245; the flags are restored if the escaping ended (line 237). *)
Definition strS (l : list Z) : pr := fun h =>
  match escapeS (S (length l)) l h with
  | (t, Ok _, _) => ([34] ++ t ++ [34], Ok tt, h)
  | (t, r, h') => ([34] ++ t, r, h')
  end.
(** print_list_container json.h:150-161 *)
Fixpoint itemsS (sep : list Z) (l : list pr) : pr :=
  match l with [] => put [] | v :: r => andThenS (put sep) (andThenS v (itemsS [44; 10] r)) end.
Definition listS (l : list pr) : pr := andThenS (put (txt "[ ")) (andThenS (itemsS [] l) (put (txt " ]"))).
(** JObject json.h:259-287: fields; the destructor writes the closing brace, also when an exception passes. *)
Fixpoint fieldsS (sep : list Z) (l : list (list Z * pr)) : pr :=
  match l with
  | [] => put []
  | (k, v) :: r => andThenS (put sep) (andThenS (strS k) (andThenS (put [58]) (andThenS v (fieldsS [44; 32] r))))
  end.
Definition objS (l : list (list Z * pr)) : pr := fun h =>
  match fieldsS [] l h with
  | (t, Ok _, h') => (txt "{ " ++ t ++ txt " }", Ok tt, h')
  | (t, Throw, h') => (txt "{ " ++ t ++ txt " }", Throw, h')
  | (t, r, h') => (txt "{ " ++ t, r, h')
  end.
(** optional json.h:307-315 *)
Definition optS {X} (p : X -> pr) (o : option X) : pr := match o with Some x => p x | None => put (txt "null") end.
Definition fs (k : string) (v : pr) : list Z * pr := (txt k, v).

(** A symbol (Elf::Sym) with its name process.cc:44-53 *)
Record symIn : Type := mkSym { syName : list Z; syValue : Z; sySize : Z; syInfo : Z; syOther : Z; syShndx : Z }.
Definition symS (s : symIn) : pr :=
  objS [fs "st_name" (strS (syName s)); fs "st_value" (intS (syValue s)); fs "st_size" (intS (sySize s)); fs "st_info" (intS (syInfo s));
        fs "st_other" (intS (syOther s)); fs "st_shndx" (intS (syShndx s))].
(** A file and line process.cc:36-42 *)
Definition placeS (p : list Z * Z) : pr := objS [fs "file" (strS (fst p)); fs "line" (intS (snd p))].
(** A frame: its address, what PrintableFrame finds (FrameText.printable, C119-C121), whether it is a signal trampoline, and what its location says
    (the load address of the object, 0 without one; the symbol; the places in the source, C22). *)
Record jframe : Type := mkJF { jfIP : Z; jfPF : res pframe; jfTramp : bool; jfReloc : Z; jfSym : option symIn; jfSource : list (list Z * Z) }.
(** process.cc:1447-1462.  Whether the location itself can be found is left out. *)
Definition frameS (f : jframe) : pr :=
  match jfPF f with
  | Ok p => objS [fs "ip" (intS (jfIP f)); fs "offset" (intS (pfOffset p)); fs "trampoline" (boolS (jfTramp f)); fs "die" (strS (pfName p));
                  fs "loadaddr" (intS (jfReloc f)); fs "symbol" (optS symS (jfSym f)); fs "source" (listS (map placeS (jfSource f)))]
  | Throw => stopWith Throw | UB => stopWith UB | OutOfFuel => stopWith OutOfFuel
  end.
(** td_thr_type_e process.cc:95-105: TD_THR_ANY_TYPE 0, TD_THR_USER 1, TD_THR_SYSTEM 2 *)
Definition thrType (t : Z) : list Z :=
  if t =? 0 then txt "TD_THR_ANY_TYPE" else if t =? 1 then txt "TD_THR_USER" else if t =? 2 then txt "TD_THR_SYSTEM" else txt "unknown type".
(** What libthread_db says of a thread, and a thread process.cc:64-83 *)
Record thrInfo : Type := mkThr { thTid : Z; thType : Z; thPri : Z }.
Record jlwp : Type := mkJL { jlInfo : option thrInfo; jlId : Z; jlName : option (list Z); jlStack : list jframe }.
Definition lwpS (l : jlwp) : pr :=
  objS ((match jlInfo l with
         | Some i => [fs "ti_tid" (intS (thTid i)); fs "ti_type" (strS (thrType (thType i))); fs "ti_pri" (intS (thPri i))]
         | None => []
         end) ++ [fs "ti_lid" (intS (jlId l)); fs "name" (optS strS (jlName l)); fs "ti_stack" (listS (map frameS (jlStack l)))]).
(** pstack.cc:36-38, for the threads of getStacks in the order of the map. *)
Definition processS (ls : list jlwp) : pr := listS (map lwpS ls).
(** The processes of one run, pstack.cc:430-444: an exception (reported elsewhere) ends one process's text only.  Nothing is written between them. *)
Fixpoint runS (ps : list (list jlwp)) : pr := fun h =>
  match ps with
  | [] => ([], Ok tt, h)
  | p :: r =>
      match processS p h with
      | (t, Ok _, h') | (t, Throw, h') => let '(u, o, h'') := runS r h' in (t ++ u, o, h'')
      | x => x
      end
  end.
