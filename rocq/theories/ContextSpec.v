(** Specification for image lookup. *)
From Verif Require Import Base Context.

(** A relative name under a prefix: the two with a slash between them, unless the prefix is empty or
    ends with one; an absolute name stays what it is. *)
Definition absolute (p : path) : Prop := exists r, p = 47 :: r.
Inductive joined : path -> path -> path -> Prop :=
| joinAbsolute d n : absolute n -> joined d n n
| joinNothing n : ~ absolute n -> joined [] n n
| joinSlash d n : ~ absolute n -> joined (d ++ [47]) n ((d ++ [47]) ++ n)
| joinPlain d x n : ~ absolute n -> x <> 47 -> joined (d ++ [x]) n ((d ++ [x]) ++ [47] ++ n).
(** The white space of the C locale. *)
Definition blank (b : Z) : Prop := b = 32 \/ 9 <= b <= 13.
(** A script as pstack sees it: the first 64 bytes [l] of a file of more than three bytes are "#!",
    blanks, and a word that goes on to the next blank or to the end of the 64 bytes. *)
Definition script (contents : list Z) (i : path) : Prop :=
  exists l sp rest, l = firstn 64 contents /\ 4 <= zlen l /\ l = [35; 33] ++ sp ++ i ++ rest /\
  Forall blank sp /\ Forall (fun b => ~ blank b) i /\ (rest = [] \/ (i <> [] /\ exists e r, rest = e :: r /\ blank e)).
(** The file that stands for a candidate: the file itself if it is an ELF image; for an executable
    that is a script, its interpreter. *)
Inductive standsFor (w : world) : bool -> path -> path -> Prop :=
| sfDebug p b : wFile w p = Some b -> wElf w b = true -> standsFor w true p p
| sfExe p b : wFile w p = Some b -> (forall i, ~ script b i) -> wElf w b = true -> standsFor w false p p
| sfScript p b i b' : wFile w p = Some b -> script b i -> wFile w i = Some b' -> wElf w b' = true -> standsFor w false p i.
(** What stands for the first candidate anything stands for. *)
Inductive firstFound (w : world) (d : bool) : list path -> option path -> Prop :=
| ffNone : firstFound w d [] None
| ffHere p q ps : standsFor w d p q -> firstFound w d (p :: ps) (Some q)
| ffLater p ps r : (forall q, ~ standsFor w d p q) -> firstFound w d ps r -> firstFound w d (p :: ps) r.
(** A text as hexadecimal digits, two per byte; the relative name of a build ID: its first byte, a
    slash, the rest, and for a debug image ".debug". *)
Definition hexChar (d c : Z) : Prop := (0 <= d < 10 /\ c = 48 + d) \/ (10 <= d < 16 /\ c = 97 + (d - 10)).
Inductive hexText : list Z -> list Z -> Prop :=
| htNil : hexText [] []
| htCons hi lo c1 c2 l t : hexChar hi c1 -> hexChar lo c2 -> hexText l t -> hexText ((16 * hi + lo) :: l) (c1 :: c2 :: t).
Definition dotDebug : path := [46; 100; 101; 98; 117; 103].
Definition idName (d : bool) (bid : list Z) (n : path) : Prop :=
  exists b0 r h0 hr, bid = b0 :: r /\ hexText [b0] h0 /\ hexText r hr /\ n = h0 ++ [47] ++ hr ++ (if d then dotDebug else []).
(** Names asked for and build IDs asked for in a history, executables ([d = false]) or debug images. *)
Definition nameAsked (d : bool) (n : path) (h : list request) : Prop := In (QName d n) h \/ (d = false /\ In (QDwarfName n) h).
Definition idAsked (d : bool) (b : list Z) (h : list request) : Prop := In (QId d b) h \/ (d = false /\ In (QDwarfId b) h).
(** Build IDs asked for are strings of bytes, not empty, and no name asked for is the relative name
    (aa/bbcc...) one is looked up as. *)
Definition noClash (h : list request) : Prop :=
  (forall d b, idAsked d b h -> b <> [] /\ Forall isByte b) /\ (forall d n b, nameAsked d n h -> idAsked d b h -> ~ idName d b n).
Definition noFlush (h : list request) : Prop := forall o, ~ In (QFlush o) h.

(** ** Symbolic links *)
(** Where a link at [p] with text [t] leads. *)
Definition leads (p t q : path) : Prop :=
  (exists r, t = 47 :: r /\ q = t) \/
  ((forall r, t <> 47 :: r) /\
   ((exists d b, p = d ++ 47 :: b /\ ~ In 47 b /\ q = d ++ 47 :: t) \/ (~ In 47 p /\ q = t))).
Definition plainTarget (t : path) : Prop := zlen t <= 1023 /\ ~ In 0 t.
(** [p] leads, over finitely many links, to [q], where readlink says [r]. *)
Inductive chases (rl : path -> linkR) : path -> path -> Prop :=
| chEnd p : chases rl p p
| chLink p t q r : rl p = LTarget t -> plainTarget t -> leads p t q -> chases rl q r -> chases rl p r.
