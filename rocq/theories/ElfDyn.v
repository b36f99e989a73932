(** Model of Object::findDynamicSymbol: elf.cc and libpstack/elf.h. *)
From Verif Require Import Base Reader ReaderSpec ElfHash ElfObj ElfFile Main.

Section Dyn.
Context {zst : Type} (zinit : zst) (zinflate : zst -> list Z -> Z -> bool -> zret * Z * list Z * zst) (zlib : bool).
Context (fuel : nat) (m : memory) (io : reader).
(** What a section's reader has in it.  The lookups (ElfHash.v) are on a section's contents; the code reads the parts it wants as it goes.  A read
    of nothing is not made. *)
Definition ioAll (i : sio) : res (list Z) := if ioSize i =? 0 then Ok [] else ioRead m i 0 (ioSize i).
(** Object::get_hash elf.h:373-386: the table's contents, its symbols' and their names', if there is such a table linked to a symbol section linked
    to a section. *)
Definition getHash (secs : list sec) (name : list Z) (type : Z) : res (option (list Z * list Z * list Z)) :=
  let all := map asShdr secs in
  let* i := getSection 4 all name type in
  if secTrue all i then
    let* j := linkedSection secs i in
    let* k := linkedSection secs j in
    if secTrue all j && secTrue all k then
      let* a := sectionAt zinit zinflate zlib fuel m io secs i in
      let* b := sectionAt zinit zinflate zlib fuel m io secs j in
      let* c := sectionAt zinit zinflate zlib fuel m io secs k in
      let* x := ioAll a in let* y := ioAll b in let* z := ioAll c in Ok (Some (x, y, z))
    else Ok None
  else Ok None.
(** GnuHash::tablename, sectiontype elf.h:177-178; SymHash::tablename, sectiontype elf.h:150-151 *)
Definition gnuHashName : list Z := [46; 103; 110; 117; 46; 104; 97; 115; 104].
Definition hashName : list Z := [46; 104; 97; 115; 104].
(** Object::findDynamicSymbol elf.cc:523-539 *)
Definition findDynamicSymbol (secs : list sec) (name : list Z) : res (esym * Z) :=
  let* g := getHash secs gnuHashName 1879048182 in
  let* (idx, sym) :=
    match g with
    | Some (h, syms, strings) => gnuLookup fuel h syms strings name
    | None =>
        let* s := getHash secs hashName 5 in
        match s with Some (h, syms, strings) => sysvLookup fuel h syms strings name | None => Ok (0, undef) end
    end in
  if idx =? 0 then Ok (undef, 0) else Ok (sym, idx).
End Dyn.

(** ** An image among a process' objects (Main.v) *)
Section Obj.
Context {zst : Type} (zinit : zst) (zinflate : zst -> list Z -> Z -> bool -> zret * Z * list Z * zst) (zlib : bool).
Context (fuel : nat) (m : memory) (io : reader).
Definition symvOf (r : res (esym * Z)) : res symv := let* (s, _) := r in Ok (mkSymv (st_shndx s) (st_value s)).
Definition symtabName : list Z := [46; 115; 121; 109; 116; 97; 98].
(** What Process::resolveSymbolDetail process.cc:949-956 asks of an image; [before] is what findDebugSymbol has been asked before
    (debugSymbols() elf.h:333: .symtab, SHT_SYMTAB). *)
Definition imageObj (secs : list sec) (before : list (list Z)) : sobj :=
  mkSobj (fun name => symvOf (findDynamicSymbol zinit zinflate zlib fuel m io secs name))
    (fun name => let* (a, b) := symtabOf zinit zinflate zlib fuel m io secs symtabName 2 in
                 symvOf (snd (findDebugSymbol fuel m a b (symHistory fuel m a b None before) name))).
End Obj.
