(** Specification of what a code address of a process is associated with: the object loaded there, and in its
    image's frame section the FDE that covers the address (FramesSpec.v). *)
From Verif Require Import Base DwarfReader CfiSpec ElfObj Core CoreSpec FramesSpec Regs Cfi Expr Unwind Locate.

(** The frame information of an image: the section's contents, whether it is .eh_frame, its address, its
    entries, and those FDEs that can be found. *)
Record frames : Type := mkFrm { fmData : list Z; fmEh : bool; fmAddr : Z; fmEntries : list (Z * entry); fmFdes : list (Z * sfde) }.
(** A section that is well formed, whose FDEs are for different code. *)
Definition framesOk (m : frames) : Prop :=
  section (fmEh m) (fmData m) (fmEntries m) /\ 0 <= fmAddr m < 2 ^ 64 /\
  (forall x, In x (fmFdes m) -> In (fst x, EFde (snd x)) (fmEntries m)) /\ disjointFdes (fmAddr m) (fmEntries m) (fmFdes m).
(** What an image's frame information is: none if it has neither section; that of .eh_frame, all of it or what
    .eh_frame_hdr lists; that of .debug_frame if there is no .eh_frame. *)
Inductive imageFrames (s : sections) : option frames -> Prop :=
| NoFrames : sEh s = None -> sDebug s = None -> imageFrames s None
| EhFrames d a es : sEh s = Some (d, a) -> sHdr s = None -> framesOk (mkFrm d true a es (fdesOf es)) -> imageFrames s (Some (mkFrm d true a es (fdesOf es)))
| EhIndexed d a es fs H ha h rest : sEh s = Some (d, a) -> sHdr s = Some (H, ha) -> framesOk (mkFrm d true a es fs) ->
    H = hdrBytes h ++ rest -> Forall isByte H -> zlen H < 2 ^ 63 -> 0 <= ha < 2 ^ 64 -> hdrOk a es ha h fs -> imageFrames s (Some (mkFrm d true a es fs))
| DebugFrames d a es : sEh s = None -> sDebug s = Some (d, a) -> framesOk (mkFrm d false a es (fdesOf es)) -> imageFrames s (Some (mkFrm d false a es (fdesOf es))).

Section Spec.
Context (objs : objmap) (ident : Z -> Z) (F : Z -> option frames).
(** An object is loaded at [k] and one of its segments, [h], maps the address [a].  (An object is not found by its
    load address itself: C37.) *)
Definition loadedAt (a k : Z) (h : phdr) : Prop := exists o, In (k, Some o) objs /\ In h (imLoads o) /\ maps k h a /\ a <> k.
(** The FDE [x], with CIE [c], of the image of the object loaded at [k] covers the address [a]. *)
Definition describedBy (a k : Z) (m : frames) (x : Z * sfde) (c : scie) : Prop :=
  (exists h, loadedAt a k h) /\ F (ident k) = Some m /\ In x (fmFdes m) /\ covers (fmAddr m) (fmEntries m) x (a - k) /\ cieOf (fmEntries m) (sfCie (snd x)) = Some c.
(** What the unwinder is told about [a]: nothing if no FDE covers it; otherwise that FDE's and its CIE's instructions,
    the start of its code, the CIE's factors, return address column and signal mark, and the object's load address. *)
Definition toldAbout (a : Z) (o : option codeInfo) : Prop :=
  match o with
  | None => forall k m x c, ~ describedBy a k m x c
  | Some ci => exists k m x c, describedBy a k m x c /\ ciReloc ci = k /\ ciData ci = fmData m /\
      ciParams ci = mkCie (scCode c) (scData c) /\ ciRar ci = scRar c /\ ciSignal ci = scSignal c /\ ciIloc ci = startOf (fmAddr m) (fmEntries m) x /\
      lies (fmData m) (ciCieInsns ci) (scInsns c) /\ ciCieEnd ci = ciCieInsns ci + zlen (scInsns c) /\
      lies (fmData m) (ciFdeInsns ci) (sfInsns (snd x)) /\ ciFdeEnd ci = ciFdeInsns ci + zlen (sfInsns (snd x))
  end.
End Spec.

(** The address whose description counts for a frame: its pc, if it is the innermost frame, a signal trampoline or was
    interrupted by a signal, or its pc is in code marked as a signal frame; otherwise the byte before its pc. *)
Definition inSignalCode (objs : objmap) (ident : Z -> Z) (F : Z -> option frames) (a : Z) : Prop :=
  exists k m x c, describedBy objs ident F a k m x c /\ scSignal c = true.
Definition exactFrame (objs : objmap) (ident : Z -> Z) (F : Z -> option frames) (f : sframe) : Prop :=
  fMech f = MachineRegs \/ fMech f = Trampoline \/ fSigTramp f = true \/ fFromTramp f = true \/ fRegs f U_rip = 0 \/ inSignalCode objs ident F (fRegs f U_rip).
Definition scopeAddr (objs : objmap) (ident : Z -> Z) (F : Z -> option frames) (f : sframe) (ip : Z) : Prop :=
  (exactFrame objs ident F f /\ ip = fRegs f U_rip) \/ (~ exactFrame objs ident F f /\ ip = (fRegs f U_rip - 1) mod 2 ^ 64).
