(** Model of the dump of a frame section: dump.cc:473-511. *)
From Coq Require Import Ascii String.
From Verif Require Import Base DwarfReader Cfi Frames Args FrameText JsonDoc Dump.

Section D.
Context (data : list Z) (eh : bool) (sa : Z).
(** A CIE dump.cc:473-486 *)
Definition dumpCie (c : cie) : res jval :=
  let* i := dumpInsns data (cInsns c) (cEnd c) in
  Ok (VObj [nf "version" (cVersion c); (txt "augmentation", VStr (cAug c)); nf "codeAlign" (cCode c); nf "dataAlign" (cData c);
            nf "return address reg" (cRar c); nf "instruction length" (u64 (cEnd c - cInsns c)); nf "LSDA encoding" (cLsda c); (txt "instructions", i)]).
(** An FDE 488-495; a pointer that is null would be dereferenced. *)
Definition dumpFde (f : option fdeE) : res jval :=
  match f with
  | None => UB
  | Some f => let* i := dumpInsns data (fInsns f) (fEnd f) in Ok (VObj [nf "loc" (fLoc f); nf "range" (fRange f); (txt "instructions", i)])
  end.
Fixpoint dumpAll {X Y} (g : X -> res Y) (l : list X) : res (list Y) :=
  match l with [] => Ok [] | x :: r => let* a := g x in let* b := dumpAll g r in Ok (a :: b) end.
(** CFI::cies is a std::map: sorted by offset, and the first entry of an offset stays (putCIE dwarf_frame.cc:98-103, emplace) *)
Fixpoint mapIn (o : Z) (c : cie) (m : cies) : cies :=
  match m with
  | [] => [(o, c)]
  | (o', c') :: r => if o <? o' then (o, c) :: m else if o =? o' then m else (o', c') :: mapIn o c r
  end.
Definition asMap (cs : cies) : cies := fold_left (fun m e => mapIn (fst e) (snd e) m) cs [].
(** The CIEs are printed before getFDEs is called (497-511): those known at that time.  std::to_string of the offset (503). *)
Definition dumpCfi (fuel : nat) (k : cfi) : res jval :=
  let* cl := dumpAll (fun e => let* d := dumpCie (snd e) in Ok (decText 20 (fst e), d)) (asMap (kCies k)) in
  let* fl := snd (get_fdes data eh sa fuel k) in
  let* fl' := dumpAll dumpFde fl in
  Ok (VObj [(txt "cielist", VMap cl); (txt "fdelist", VList fl')]).
End D.
