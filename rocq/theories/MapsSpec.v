(** Specification of the text of /proc/<pid>/maps and smaps (proc(5)). *)
From Verif Require Import Base.

(** lower-case hexadecimal and decimal numerals *)
Definition digitOf (base : Z) (c : Z) (d : Z) : Prop := 0 <= d < base /\ (d < 10 /\ c = 48 + d \/ 10 <= d /\ c = 97 + (d - 10)).
Inductive numeral (base : Z) : list Z -> Z -> Prop :=
| NumOne c d : digitOf base c d -> numeral base [c] d
| NumMore s v c d : numeral base s v -> digitOf base c d -> numeral base (s ++ [c]) (v * base + d).

(** A region as the kernel describes it: permissions rwx and private/shared, path empty if there is none *)
Record region : Type := mkRg { gStart : Z; gEnd : Z; gR : bool; gW : bool; gX : bool; gShared : bool; gOffset : Z; gMajor : Z; gMinor : Z; gInode : Z; gPath : list Z }.
Definition permText (g : region) : list Z :=
  [if gR g then 114 else 45; if gW g then 119 else 45; if gX g then 120 else 45; if gShared g then 115 else 112].
Definition textOk (s : list Z) : Prop := Forall (fun c => c <> 10) s.
(** "start-end perms offset major:minor inode   path" *)
Inductive headerText (g : region) : list Z -> Prop :=
| HText s e o ma mi i pad :
    numeral 16 s (gStart g) -> numeral 16 e (gEnd g) -> numeral 16 o (gOffset g) -> numeral 16 ma (gMajor g) -> numeral 16 mi (gMinor g) -> numeral 10 i (gInode g) -> (gPath g <> [] -> pad <> 0%nat) ->
    headerText g (s ++ 45 :: e ++ 32 :: permText g ++ 32 :: o ++ 32 :: ma ++ 58 :: mi ++ 32 :: i ++ repeat 32 pad ++ gPath g).
Definition regionOk (g : region) : Prop :=
  0 <= gStart g < 2 ^ 64 /\ 0 <= gEnd g < 2 ^ 64 /\ 0 <= gOffset g < 2 ^ 64 /\ 0 <= gMajor g < 2 ^ 31 /\ 0 <= gMinor g < 2 ^ 31 /\
  textOk (gPath g) /\ hd 0 (gPath g) <> 32.
(** smaps: a region's line is followed by lines starting with a capital letter. *)
Definition attrOk (l : list Z) : Prop := textOk l /\ 65 <= hd 0 l <= 90.
(** the flags line: "VmFlags:" and two-letter names, each preceded by a space, then a space *)
Definition flagsLine (fs : list (list Z)) : list Z := [86; 109; 70; 108; 97; 103; 115; 58] ++ flat_map (fun f => 32 :: f) fs ++ [32].
Inductive smapsText : list (region * list (list Z)) -> list Z -> Prop :=
| SNil : smapsText [] []
| SCons g attrs h r t : headerText g h -> Forall attrOk attrs -> smapsText r t ->
    smapsText ((g, attrs) :: r) (h ++ 10 :: flat_map (fun a => a ++ [10]) attrs ++ t).

(** a flag's name: two letters; the names documented in proc(5) and read by the code *)
Definition flagWord (f : list Z) : Prop := exists a b, f = [a; b] /\ 97 <= a <= 122 /\ 97 <= b <= 122.
Definition documentedFlags : list (list Z) :=
  [[114;100] (* rd *); [119;114] (* wr *); [101;120] (* ex *); [115;104] (* sh *); [109;114] (* mr *); [109;119] (* mw *); [109;101] (* me *);
   [109;115] (* ms *); [103;100] (* gd *); [112;102] (* pf *); [100;119] (* dw *); [108;111] (* lo *); [105;111] (* io *); [115;114] (* sr *);
   [114;114] (* rr *); [100;99] (* dc *); [100;101] (* de *); [97;99] (* ac *); [110;114] (* nr *); [104;116] (* ht *); [115;102] (* sf *);
   [97;114] (* ar *); [119;102] (* wf *); [100;100] (* dd *); [115;100] (* sd *); [109;109] (* mm *); [104;103] (* hg *); [110;104] (* nh *);
   [109;103] (* mg *); [98;116] (* bt *); [109;116] (* mt *); [117;109] (* um *); [117;119] (* uw *); [115;115] (* ss *); [115;108] (* sl *)].
