(** Model of CacheReader (libpstack/reader.h:120-146, reader.cc:123-208).
    The upstream reader is given by its [read] function and its size. *)
From Verif Require Import Base Reader.

Definition PAGESIZE : Z := 256.  (* reader.h:123 *)
Definition MAXPAGES : Z := 16.   (* reader.h:124 *)

(** CacheReader::Page reader.h:125-131.  [pbytes] is data[0..len); the bytes of the array
    beyond [len] are never read by the code and are not modelled. *)
Record page : Type := mkPage { poff : Z; pbytes : list Z }.

(** CacheReader's mutable fields, reader.h:122,132. Front of the list = most recent page. *)
Record cache : Type := mkCache { pages : list page; strings : list (Z * list Z) }.
Definition emptyCache : cache := mkCache [] [].

Section Upstream.
Variable up : Z -> Z -> res (list Z).
Variable usize : Z.

(** The scan of getPage, reader.cc:144-156: find the page, splice it out. *)
Fixpoint takePage (o : Z) (ps : list page) : option (page * list page) :=
  match ps with
  | [] => None
  | p :: r => if poff p =? o then Some (p, r)
              else match takePage o r with
                   | Some (q, r') => Some (q, p :: r')
                   | None => None
                   end
  end.

(** CacheReader::getPage reader.cc:141-169.  Returns the page (or the exception of
    Page::load, reader.cc:123-129) and the new page list; when loading into a stolen page fails
    the stolen page is gone. *)
Definition getPage (ps : list page) (o : Z) : list page * res page :=
  match takePage o ps with
  | Some (p, rest) => (p :: rest, Ok p)
  | None =>
      let ps' := if zlen ps =? MAXPAGES then removelast ps else ps in
      match up o PAGESIZE with
      | Ok bs => (mkPage o bs :: ps', Ok (mkPage o bs))
      | Throw => (ps', Throw)
      | UB => (ps', UB)
      | OutOfFuel => (ps', OutOfFuel)
      end
  end.

(** The loop of CacheReader::read, reader.cc:177-197. [off + chunk] is computed modulo 2^64. *)
Fixpoint readLoop (fuel : nat) (ps : list page) (off count : Z) : list page * res (list Z) :=
  match fuel with
  | O => (ps, OutOfFuel)
  | S f =>
      if count =? 0 then (ps, Ok [])
      else
        let inPage := off mod PAGESIZE in
        match getPage ps (off - inPage) with
        | (ps', Ok p) =>
            let len := zlen (pbytes p) in
            if inPage >=? len then (ps', Ok [])
            else
              let chunk := Z.min (len - inPage) count in
              let bytes := ztake chunk (zdrop inPage (pbytes p)) in
              if negb (len =? PAGESIZE) then (ps', Ok bytes)
              else match readLoop f ps' (u64 (off + chunk)) (count - chunk) with
                   | (ps'', Ok r) => (ps'', Ok (bytes ++ r))
                   | (ps'', e) => (ps'', e)
                   end
        | (ps', Throw) => (ps', Ok [])           (* catch (const Exception &) break; *)
        | (ps', UB) => (ps', UB)
        | (ps', OutOfFuel) => (ps', OutOfFuel)
        end
  end.

(** CacheReader::read reader.cc:171-199. *)
Definition cread (ps : list page) (off count : Z) : list page * res (list Z) :=
  if count >=? PAGESIZE then (ps, up off count)
  else readLoop (S (Z.to_nat count)) ps off count.

(** Reader::readString (reader.cc:93-101) as run by CacheReader::readString: every byte goes
    through the caching [read] above, so the page list is threaded through. *)
Fixpoint cstringLoop (fuel : nat) (ps : list page) (off s : Z) : list page * res (list Z) :=
  match fuel with
  | O => (ps, OutOfFuel)
  | S f =>
      if off <? s then
        match cread ps off 1 with
        | (ps', Ok [c]) =>
            if c =? 0 then (ps', Ok [])
            else match cstringLoop f ps' (off + 1) s with
                 | (ps'', Ok r) => (ps'', Ok (c :: r))
                 | (ps'', e) => (ps'', e)
                 end
        | (ps', Ok _) => (ps', Ok [])
        | (ps', Throw) => (ps', Throw)
        | (ps', UB) => (ps', UB)
        | (ps', OutOfFuel) => (ps', OutOfFuel)
        end
      else (ps, Ok [])
  end.

Fixpoint lookupStr (o : Z) (l : list (Z * list Z)) : option (list Z) :=
  match l with
  | [] => None
  | (k, v) :: r => if k =? o then Some v else lookupStr o r
  end.

(** CacheReader::readString reader.cc:201-208: [insert(off, "")] first; only a newly inserted
    entry is filled in, so if computing the string fails the empty entry stays behind. *)
Definition creadString (fuel : nat) (c : cache) (off : Z) : cache * res (list Z) :=
  match lookupStr off (strings c) with
  | Some v => (c, Ok v)
  | None =>
      if off =? 0 then (mkCache (pages c) ((off, nullText) :: strings c), Ok nullText)
      else
        match cstringLoop fuel (pages c) off usize with
        | (ps, Ok v) => (mkCache ps ((off, v) :: strings c), Ok v)
        | (ps, e) => (mkCache ps ((off, []) :: strings c), e)
        end
  end.
End Upstream.

(** CacheReader::flush reader.cc:136-139: only [pages] is cleared. *)
Definition flush (c : cache) : cache := mkCache [] (strings c).

(** Operations a client can issue, each run against the upstream of that moment. *)
Inductive cop : Type :=
| OpRead (off count : Z)
| OpString (fuel : nat) (off : Z)
| OpFlush.

Definition cstep (up : Z -> Z -> res (list Z)) (usize : Z) (c : cache) (o : cop) : cache * res (list Z) :=
  match o with
  | OpRead off count =>
      let '(ps, r) := cread up (pages c) off count in (mkCache ps (strings c), r)
  | OpString fuel off => creadString up usize fuel c off
  | OpFlush => (flush c, Ok [])
  end.

(** State after a history run against one unchanging upstream. *)
Definition crun (up : Z -> Z -> res (list Z)) (usize : Z) (c : cache) (ops : list cop) : cache :=
  fold_left (fun c o => fst (cstep up usize c o)) ops c.
