(** Specification: the dump of a frame section as a document. *)
From Coq Require Import Ascii String.
From Verif Require Import Base CfiSpec Frames FramesSpec ArgsSpec FrameTextSpec JsonDocSpec DumpSpec.

(** Instructions that can be shown (DumpSpec), and letters of augmentations that are ASCII. *)
Definition showable (p : list xinsn) : Prop := Forall operands p /\ Forall shownRight p.
Definition insnsOf (e : entry) : list Z := match e with ECie c => scInsns c | EFde f => sfInsns f end.
Definition printable (e : entry) : Prop := match e with ECie c => Forall (fun b => 32 <= b < 127) (augText c) | EFde _ => True end.
(** [prog o] are the instructions of the entry at [o] *)
Definition programs (es : list (Z * entry)) (prog : Z -> list xinsn) : Prop :=
  Forall (fun x => insnsOf (snd x) = encodeXs (prog (fst x)) /\ showable (prog (fst x)) /\ printable (snd x)) es.
(** The list of the instructions [p], which lie in the section. *)
Definition progDoc (data : list Z) (p : list xinsn) (x : jvalue) : Prop := exists pos, lies data pos (encodeXs p) /\ x = XArr (insnDocs pos p).
(** A CIE: its key is its offset. *)
Definition cieDoc (data : list Z) (prog : Z -> list xinsn) (e : Z * scie) (m : list Z * jvalue) : Prop :=
  let (o, c) := e in
  canonical 10 (fst m) o /\ exists i, progDoc data (prog o) i /\
  snd m = XObj [(lit "version", XNum (scVersion c)); (lit "augmentation", XStr (augText c)); (lit "codeAlign", XNum (scCode c)); (lit "dataAlign", XNum (scData c));
     (lit "return address reg", XNum (scRar c)); (lit "instruction length", XNum (zlen (scInsns c))); (lit "LSDA encoding", XNum (scLsda c)); (lit "instructions", i)].
Definition fdeDoc (data : list Z) (sa : Z) (es : list (Z * entry)) (prog : Z -> list xinsn) (x : Z * sfde) (d : jvalue) : Prop :=
  exists i, progDoc data (prog (fst x)) i /\ d = XObj [(lit "loc", XNum (startOf sa es x)); (lit "range", XNum (sfRange (snd x))); (lit "instructions", i)].
Definition ciesOf (es : list (Z * entry)) : list (Z * scie) := flat_map (fun x => match snd x with ECie c => [(fst x, c)] | EFde _ => [] end) es.
(** The document: the CIEs [cl] in the order of the section, the FDEs [fs] in the order of the code they are for. *)
Definition cfiDoc (data : list Z) (sa : Z) (es : list (Z * entry)) (prog : Z -> list xinsn) (cl : list (Z * scie)) (fs : list (Z * sfde)) (d : jvalue) : Prop :=
  exists ms ds fs', Forall2 (cieDoc data prog) cl ms /\ Forall2 (fdeDoc data sa es prog) fs' ds /\
    (forall x, In x fs' <-> In x fs) /\ length fs' = length fs /\ ForallOrdPairs (fun x y => startOf sa es x <= startOf sa es y) fs' /\
    d = XObj [(lit "cielist", XObj ms); (lit "fdelist", XArr ds)].
