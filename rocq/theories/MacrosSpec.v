(** Specification of macro information: DWARF 5 section 6.3 and DWARF 4 section 6.3. *)
From Verif Require Import Base CfiSpec Lines Macros.

(** ** .debug_macinfo, DWARF 2-4 *)
Inductive mop4 : Type :=
| ODefine (line : Z) (text : list Z) | OUndef (line : Z) (text : list Z)
| OStart (line file : Z) | OEnd | OVendor (n : Z) (text : list Z).
Definition encode4 (o : mop4) : list Z :=
  match o with
  | ODefine l t => [1] ++ uleb l ++ t ++ [0]
  | OUndef l t => [2] ++ uleb l ++ t ++ [0]
  | OStart l f => [3] ++ uleb l ++ uleb f
  | OEnd => [4]
  | OVendor n t => [255] ++ uleb n ++ t ++ [0]
  end.
Definition text (t : list Z) : Prop := Forall (fun b => 0 < b < 256) t.
(** The file with this number exists and so does its directory. *)
Definition fileAt (li : option lineTab) (n : Z) (d : list Z) (fe : fileEntry) : Prop :=
  exists t, li = Some t /\ znth n (ltFiles t) = Some fe /\ znth (fDir fe) (ltDirs t) = Some d.
(** What an operation means. *)
Inductive means4 (li : option lineTab) : mop4 -> mevent -> Prop :=
| m4def l t : 0 <= l < W64 -> text t -> means4 li (ODefine l t) (EDefine l t)
| m4undef l t : 0 <= l < W64 -> text t -> means4 li (OUndef l t) (EUndef l t)
| m4start l f d fe : 0 <= l < W64 -> 0 <= f < W64 -> fileAt li f d fe -> means4 li (OStart l f) (EStart l d fe)
| m4end : means4 li OEnd EEnd.

(** ** .debug_macro, DWARF 5 *)
Inductive mop5 : Type :=
| PDefine (line : Z) (text : list Z) | PUndef (line : Z) (text : list Z)
| PStart (line file : Z) | PEnd
| PDefineStrp (line off : Z) | PUndefStrp (line off : Z)
| PDefineStrx (line idx : Z) | PUndefStrx (line idx : Z)
| PImport (off : Z).
(** A macro unit: version, offset size (64-bit format or not), offset of the line table, description
    of vendor-defined opcodes (their number and the forms of their operands), and operations. *)
Record munit : Type := mkMU { muVer : Z; mu64 : bool; muLine : option Z; muTable : option (list (Z * list Z)); muOps : list mop5 }.
Definition offSize (u : munit) : nat := if mu64 u then 8 else 4.
Definition encode5 (n : nat) (o : mop5) : list Z :=
  match o with
  | PDefine l t => [1] ++ uleb l ++ t ++ [0]
  | PUndef l t => [2] ++ uleb l ++ t ++ [0]
  | PStart l f => [3] ++ uleb l ++ uleb f
  | PEnd => [4]
  | PDefineStrp l s => [5] ++ uleb l ++ leBytes n s
  | PUndefStrp l s => [6] ++ uleb l ++ leBytes n s
  | PImport o => [7] ++ leBytes n o
  | PDefineStrx l i => [11] ++ uleb l ++ uleb i
  | PUndefStrx l i => [12] ++ uleb l ++ uleb i
  end.
Definition encodeOpDesc (d : Z * list Z) : list Z := [fst d] ++ uleb (zlen (snd d)) ++ snd d.
Definition flagsOf (u : munit) : Z :=
  (if mu64 u then 1 else 0) + (match muLine u with Some _ => 2 | None => 0 end) + (match muTable u with Some _ => 4 | None => 0 end).
Definition encodeHead (u : munit) : list Z :=
  leBytes 2 (muVer u) ++ [flagsOf u] ++
  match muLine u with Some l => leBytes (offSize u) l | None => [] end ++
  match muTable u with Some t => [zlen t] ++ flat_map encodeOpDesc t | None => [] end.
Definition encodeUnit (u : munit) : list Z := encodeHead u ++ flat_map (encode5 (offSize u)) (muOps u) ++ [0].
(** Line table below 2 GiB; at most 255 vendor opcodes of at most 255 operands each. *)
Definition wfUnit (u : munit) : Prop :=
  0 <= muVer u < W16 /\
  match muLine u with Some l => 0 <= l < 2147483648 | None => True end /\
  match muTable u with
  | Some t => zlen t < 256 /\ Forall (fun d => isByte (fst d) /\ zlen (snd d) < 256 /\ Forall isByte (snd d)) t
  | None => True
  end.
Definition linesOf (en : menv) (u : munit) (li : option lineTab) : Prop :=
  match muLine u with None => li = None | Some l => exists t, meLines en l = Ok t /\ li = Some t end.

Inductive means5 (en : menv) (n : nat) (li : option lineTab) : mop5 -> mevent -> Prop :=
| m5def l t : 0 <= l < W64 -> text t -> means5 en n li (PDefine l t) (EDefine l t)
| m5undef l t : 0 <= l < W64 -> text t -> means5 en n li (PUndef l t) (EUndef l t)
| m5start l f d fe : 0 <= l < W64 -> 0 <= f < W64 -> fileAt li f d fe -> means5 en n li (PStart l f) (EStart l d fe)
| m5end : means5 en n li PEnd EEnd
| m5defp l s t : 0 <= l < W64 -> 0 <= s < 256 ^ Z.of_nat n -> meStr en s = Ok t -> means5 en n li (PDefineStrp l s) (EDefine l t)
| m5undefp l s t : 0 <= l < W64 -> 0 <= s < 256 ^ Z.of_nat n -> meStr en s = Ok t -> means5 en n li (PUndefStrp l s) (EUndef l t)
| m5defx l i t : 0 <= l < W64 -> 0 <= i < W64 -> meStrx en i = Ok t -> means5 en n li (PDefineStrx l i) (EDefine l t)
| m5undefx l i t : 0 <= l < W64 -> 0 <= i < W64 -> meStrx en i = Ok t -> means5 en n li (PUndefStrx l i) (EUndef l t).
(** [units] says which macro unit is at which offset of the section.  The events of a list of
    operations, imports replaced by the events of the imported unit. *)
Inductive events (en : menv) (units : Z -> munit -> Prop) : nat -> option lineTab -> list mop5 -> list mevent -> Prop :=
| evNil n li : events en units n li [] []
| evOp n li o e ops es : means5 en n li o e -> events en units n li ops es -> events en units n li (o :: ops) (e :: es)
| evImport n li off u li' es' ops es :
    0 <= off < 256 ^ Z.of_nat n -> units off u -> linesOf en u li' -> events en units (offSize u) li' (muOps u) es' ->
    events en units n li ops es -> events en units n li (PImport off :: ops) (es' ++ es).

(** ** What a visitor does with a sequence of events: it is called for each, until it says stop. *)
Section Feed.
Context {V : Type} (vis : V -> mevent -> V * bool).
Fixpoint feed (v : V) (es : list mevent) : V * bool :=
  match es with
  | [] => (v, true)
  | e :: r => let '(v', b) := vis v e in if b then feed v' r else (v', false)
  end.
End Feed.
