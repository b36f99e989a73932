(** Model of canal's main program (canal.cc:198-397): the symbols searched for, the scan of the process's memory and the report.
    Not modelled: the output of -v and -P, the progress messages on the error stream, and the string search (Canal.v). *)
From Coq Require Import Ascii String Permutation Sorted.
From Verif Require Import Base Reader ReaderArray DwarfReaderProofs Json Args FrameText Canal.
Open Scope Z_scope.

(** What canal uses of an AddressRange: start, fileEnd, and whether memory_mapped_io is among its flags. *)
Record cseg : Type := mkSeg { sgStart : Z; sgFileEnd : Z; sgIo : bool }.
(** An entry of process->objects: load address, name, and the symbols (value, size, name) of the dynamic and the debug symbol
    table, if the object can be opened. *)
Record cobj : Type := mkCo { coBase : Z; coName : list Z; coTables : option (list (Z * Z * list Z) * list (Z * Z * list Z)) }.

(** ** The symbols: canal.cc:333-360 *)
(** The innermost loop: once for each pattern that matches. *)
Fixpoint matchPatterns (fuel : nat) (base : Z) (sym : Z * Z * list Z) (pats : list (list Z)) : res (list lsym) :=
  match pats with
  | [] => Ok []
  | p :: r =>
      let* b := globmatch fuel p (snd sym) in
      let* l := matchPatterns fuel base sym r in
      Ok (if b then mkLs (fst (fst sym)) (snd (fst sym)) base (snd sym) :: l else l)
  end.
(** findSymbols canal.cc:340-352 *)
Fixpoint findSymbols (fuel : nat) (pats : list (list Z)) (base : Z) (tab : list (Z * Z * list Z)) : res (list lsym) :=
  match tab with
  | [] => Ok []
  | y :: r => let* a := matchPatterns fuel base y pats in let* b := findSymbols fuel pats base r in Ok (a ++ b)
  end.
(** canal.cc:338-339, 354-360: every object in order of address *)
Fixpoint collect (fuel : nat) (pats : list (list Z)) (objs : list cobj) : res (list lsym) :=
  match objs with
  | [] => Ok []
  | o :: r =>
      let* a := match coTables o with
                | Some (dyn, dbg) => let* x := findSymbols fuel pats (coBase o) dyn in let* y := findSymbols fuel pats (coBase o) dbg in Ok (x ++ y)
                | None => Ok []
                end in
      let* b := collect fuel pats r in Ok (a ++ b)
  end.
(** virtpattern canal.cc:140, 335-336 *)
Definition patternsOf (pats : list (list Z)) : list (list Z) := match pats with [] => [txt "_ZTV*"] | _ => pats end.

(** ** The memory: canal.cc:198-254 *)
(** The view of the process's reader made in canal.cc:246: an OffsetReader (reader.cc:258-265). *)
Definition viewRead (rd : Z -> Z -> res (list Z)) (start len off count : Z) : res (list Z) :=
  if off >? len then Throw else rd (u64 (off + start)) (if u64 (off + count) >? len then len - off else count).
(** The words the loops of canal.cc:206-236 see: up to the end of the array, or up to the exception (caught in 237-239: what was
    printed and counted before it stays). *)
Fixpoint wordsFrom (n : nat) (rd : Z -> Z -> res (list Z)) (ws : Z) (s : astate) (idx : Z) : list Z :=
  match n with
  | O => []
  | S k => match getitem rd ws 131072 0 s idx with
           | (s', Ok bs) => leValue bs :: wordsFrom k rd ws s' (idx + 1)
           | _ => []
           end
  end.
Definition segWords (rd : Z -> Z -> res (list Z)) (ws : Z) (g : cseg) : list Z :=
  let len := u64 (sgFileEnd g - sgStart g) in
  match arrayEof len ws 0 with
  | Ok n => wordsFrom (Z.to_nat n) (viewRead rd (sgStart g) len) ws ainit 0
  | _ => []
  end.
(** canal.cc:216-235 with the lines of -s in full (searchSyms of Canal.v has the counts and the parts of the lines) *)
Fixpoint scanSyms (show : bool) (m : Z -> lsym -> bool) (ws : Z) (s : store) (loc : Z) (words : list Z) : store * list Z :=
  match words with
  | [] => (s, [])
  | p :: r =>
      match storeFind m s p with
      | Some (k, y) =>
          let (s', o) := scanSyms show m ws (bump k s) (loc + ws) r in
          (s', (if show then lsName y ++ txt " 0x" ++ hexText 16 (u64 loc) ++ txt " ... size=" ++ decText 20 (lsSize y) ++ txt ", diff=" ++ decText 20 (u64 (p - memaddr y)) ++ [10] else []) ++ o)
      | None => scanSyms show m ws s (loc + ws) r
      end
  end.
(** canal.cc:366-389 for one mapping, -S not given.  symOffset is an int, -1 unless -o is given. *)
Definition scanSeg (show : bool) (symOffset : Z) (ranges : list (Z * Z)) (ws : Z) (rd : Z -> Z -> res (list Z)) (st : store * list Z) (g : cseg) : store * list Z :=
  let (s, out) := st in
  if sgIo g then (s, out)
  else match ranges with
       | _ :: _ => (s, out ++ flat_map (fun a => txt "0x" ++ hexText 16 (u64 a) ++ [10]) (searchRanges ws ranges (sgStart g) (segWords rd ws g)))
       | [] => let (s', o) := scanSyms show (if symOffset >? 0 then matchBound symOffset else matchFree) ws s (sgStart g) (segWords rd ws g) in (s', out ++ o)
       end.

(** ** The report: canal.cc:390-396.  std::sort is not stable: any order that puts larger counts first. *)
Definition objName (objs : list cobj) (base : Z) : list Z := match find (fun o => coBase o =? base) objs with Some o => coName o | None => [] end.
Definition reportLine (objs : list cobj) (e : lsym * Z) : list Z :=
  if snd e =? 0 then [] else decText 20 (snd e) ++ txt " " ++ lsName (fst e) ++ txt " ( from " ++ objName objs (lsBase (fst e)) ++ txt ")" ++ [10].
Definition reports (objs : list cobj) (s : store) (text : list Z) : Prop :=
  exists h, Permutation h (map snd s) /\ StronglySorted (fun l r => snd r <= snd l) h /\ text = flat_map (reportLine objs) h.

(** ** All of it: the text on standard output before the report, and the store the report is made from unless -V was given (canal.cc:333-389) *)
Definition canal (fuel : nat) (rd : Z -> Z -> res (list Z)) (wordsize symOffset : Z) (ranges : list (Z * Z)) (show showsyms : bool) (pats : list (list Z)) (objs : list cobj) (segs : list cseg) : res (list Z * option store) :=
  let* ys := collect fuel (patternsOf pats) objs in
  if showsyms then Ok (flat_map (fun y => lsName y ++ [10]) ys, None)
  else if existsb (fun g => negb (sgIo g)) segs && negb (wordsize =? 32) && negb (wordsize =? 64) then Throw    (* errx canal.cc:252 *)
  else let (s, out) := fold_left (scanSeg show symOffset ranges (wordsize / 8) rd) segs (fold_left storeAdd ys [], []) in Ok (out, Some s).

(** ** The options -f and -e (canal.cc:292-300), with the numbers strtoul makes of their arguments *)
Inductive aopt : Type := OptF (a : Z) | OptE (e : Z).
Fixpoint setLast (l : list (Z * Z)) (e : Z) : res (list (Z * Z)) :=
  match l with
  | [] => UB
  | [(a, _)] => Ok [(a, e)]
  | x :: r => let* r' := setLast r e in Ok (x :: r')
  end.
Fixpoint addrOpts (l : list (Z * Z)) (os : list aopt) : res (list (Z * Z)) :=
  match os with
  | [] => Ok l
  | OptF a :: r => addrOpts (l ++ [(a, u64 (a + 1))]) r
  | OptE e :: r => let* l' := setLast l e in addrOpts l' r
  end.
