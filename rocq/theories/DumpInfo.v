(** Model of how the dump of an image's debug information comes to its frame sections (dump.cc:531-536). *)
From Verif Require Import Base DwarfReader Cfi Frames JsonDoc DumpCfi.

(** A frame section as CFI::CFI finds it (dwarf_frame.cc:49-96): its bytes, its address, and the contents and address of its search table if there is one. *)
Record frameSec := mkFrameSec { fsData : list Z; fsAddr : Z; fsHdr : option (list Z * Z) }.
(** Info::getCFI(FI_DEBUG_FRAME) resp. (FI_EH_FRAME), dwarf_info.cc:8-19, on first use: null (None) if there is no such section, CFI::operator bool; and the document of
    what it has (dump.cc:532-536) *)
Definition cfiShown (fuel : nat) (eh : bool) (s : option frameSec) : option (res jval) :=
  match s with
  | None => None
  | Some s => Some (let* k := makeCfi (fsData s) eh (fsAddr s) fuel (fsHdr s) in dumpCfi (fsData s) eh (fsAddr s) fuel k)
  end.
