(** Model of Object::findSymbolByAddress on an image's bytes: elf.cc. *)
From Verif Require Import Base Reader ReaderSpec ElfHash ElfObj ElfFile.

Section Addr.
Context {zst : Type} (zinit : zst) (zinflate : zst -> list Z -> Z -> bool -> zret * Z * list Z * zst) (zlib : bool).
Context (fuel : nat) (m : memory) (io : reader).
(** debugSymbols, dynamicSymbols elf.cc:195-203 *)
Definition symtabSection : list Z := [46; 115; 121; 109; 116; 97; 98].
Definition dynsymSection : list Z := [46; 100; 121; 110; 115; 121; 109].
(** Object::findSym elf.cc:417-441 (ElfObj.v) over the array of that table's symbols; the name is read for the symbol found.  Simplification: the array
    is read whole before it is searched, so a read that fails after the symbol found would be reported here. *)
Definition symInTable (secs : list sec) (name : list Z) (type : Z) (addr want : Z) : res (option (esym * list Z)) :=
  let* (a, b) := symtabOf zinit zinflate zlib fuel m io secs name type in
  let* l := ioArray m a 24 in
  match findSym [] (map asShdr secs) addr want (map symOf l) with
  | Some (c, _) => let* n := ioString fuel m b (st_name c) in Ok (Some (c, n))
  | None => Ok None
  end.
(** Object::findSymbolByAddress elf.cc:446-459; [dd]: what the embedded debug data's image answers, if it is asked (elf.cc:397-415, 453-457) *)
Definition symbolAt (secs : list sec) (addr want : Z) (dd : res (option (esym * list Z))) : res (option (esym * list Z)) :=
  let* x := symInTable secs symtabSection 2 addr want in
  match x with
  | Some r => Ok (Some r)
  | None => let* y := symInTable secs dynsymSection 11 addr want in match y with Some r => Ok (Some r) | None => dd end
  end.
End Addr.
