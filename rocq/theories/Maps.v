(** Model of the parser of /proc/<pid>/maps and smaps: live.cc:237-350, 366-410.  Text is a list of
    character codes. *)
From Verif Require Import Base ElfHash.

Definition SP : Z := 32.
Definition NL : Z := 10.
(** leading spaces, and the rest from find_first_not_of(' ') on *)
Fixpoint spanSpaces (l : list Z) : list Z * list Z :=
  match l with
  | [] => ([], [])
  | c :: r => if c =? SP then let (a, b) := spanSpaces r in (c :: a, b) else ([], l)
  end.
(** find_first_of(sep): what is before and what is after the first [sep] *)
Fixpoint splitSep (sep : Z) (l : list Z) : option (list Z * list Z) :=
  match l with
  | [] => None
  | c :: r => if c =? sep then Some ([], r) else match splitSep sep r with Some (a, b) => Some (c :: a, b) | None => None end
  end.
(** nextTok live.cc:236-250: the token, and what remains in [total].  The token starts at the beginning of
    [total], not at startPos. *)
Definition nextTok (total : list Z) (sep : Z) : list Z * list Z :=
  let (sp, rest) := spanSpaces total in
  match splitSep sep rest with
  | Some (a, b) => (sp ++ a, b)
  | None => (total, [])
  end.
(** hex2int live.cc:252-269 (uintmax_t is 64 bits) *)
Definition hexDigit (c : Z) : option Z :=
  if (c >=? 48) && (c <=? 57) then Some (c - 48)
  else if (c >=? 97) && (c <=? 102) then Some (c - 97 + 10)
  else if (c >=? 65) && (c <=? 70) then Some (c - 65 + 10)
  else None.
Fixpoint hex2intFrom (val : Z) (s : list Z) : res Z :=
  match s with
  | [] => Ok val
  | c :: r => match hexDigit c with Some d => hex2intFrom (u64 (u64 (val * 16) + d)) r | None => Throw end
  end.
Definition hex2int (s : list Z) : res Z := hex2intFrom 0 s.

(** AddressRange proc.h:191-215 with DevNode 181-189: permissions and vmflags as the members inserted, a permission as
    its letter, a flag as its two letters.  fileEnd, not set here, is left out. *)
Record range : Type := mkRange { rgStart : Z; rgEnd : Z; rgPerms : list Z; rgOffset : Z; rgMajor : Z; rgMinor : Z; rgInode : Z; rgPath : list Z; rgFlags : list (list Z) }.
(** live.cc:312-321 *)
Definition permChars : list Z := [114; 119; 120; 112; 115].
Fixpoint parsePerms (s : list Z) : res (list Z) :=
  match s with
  | [] => Ok []
  | c :: r => if c =? 45 then parsePerms r
              else if existsb (Z.eqb c) permChars then let* p := parsePerms r in Ok (c :: p) else Throw
  end.
(** "<anon>" *)
Definition anonText : list Z := [60; 97; 110; 111; 110; 62].
(** live.cc:304-336: the first line of a region.  major and minor are int. *)
Definition parseHeader (line : list Z) : res range :=
  let (t, r) := nextTok line 45 in
  let* start := hex2int t in
  let (t, r) := nextTok r SP in
  let* end_ := hex2int t in
  let (t, r) := nextTok r SP in
  let* perms := parsePerms t in
  let (t, r) := nextTok r SP in
  let* off := hex2int t in
  let (t, r) := nextTok r 58 in
  let* maj := hex2int t in
  let (t, r) := nextTok r SP in
  let* min := hex2int t in
  let (t, r) := nextTok r SP in
  let* ino := hex2int t in
  let path := match snd (spanSpaces r) with [] => anonText | p => p end in
  Ok (mkRange start end_ perms off (s32 maj) (s32 min) ino path []).
(** AddressRange::vmflag live.cc:366-410 *)
Definition vmflagNames : list (list Z) :=
  [[114;100];[119;114];[101;120];[115;104];[109;114];[109;119];[109;101];[109;115];[103;100];[112;102];[100;119];[108;111];
   [105;111];[115;114];[114;114];[100;99];[100;101];[97;99];[110;114];[104;116];[115;102];[97;114];[119;102];[100;100];
   [115;100];[109;109];[104;103];[110;104];[109;103];[98;116];[109;116];[117;109];[117;119];[115;115];[115;108]].
(** live.cc:345-352: the tokens of a VmFlags line *)
Fixpoint parseFlags (fuel : nat) (l : list Z) : res (list (list Z)) :=
  match fuel with
  | O => OutOfFuel
  | S f => let (t, r) := nextTok l SP in
           match t with
           | [] => Ok []
           | _ => let* fs := parseFlags f r in Ok (if existsb (beq t) vmflagNames then t :: fs else fs)
           end
  end.
(** "VmFlags" *)
Definition vmFlagsText : list Z := [86; 109; 70; 108; 97; 103; 115].
(** std::getline: the line and the remaining input *)
Fixpoint getLine (l : list Z) : list Z * list Z :=
  match l with
  | [] => ([], [])
  | c :: r => if c =? NL then ([], r) else let (a, b) := getLine r in (c :: a, b)
  end.
Definition isUpper (c : Z) : bool := (65 <=? c) && (c <=? 90).
(** live.cc:341-353: attribute lines *)
Fixpoint parseAttrs (fuel : nat) (input : list Z) (flags : list (list Z)) : res (list (list Z) * list Z) :=
  match fuel with
  | O => OutOfFuel
  | S f =>
      match input with
      | c :: _ =>
          if isUpper c then
            let (line, rest) := getLine input in
            let (key, lv) := nextTok line 58 in
            let* fs := if beq key vmFlagsText then parseFlags (S (length lv)) lv else Ok [] in
            parseAttrs f rest (flags ++ fs)
          else Ok (flags, input)
      | [] => Ok (flags, input)
      end
  end.
(** procAddressSpace live.cc:280-350 *)
Fixpoint procMaps (fuel : nat) (input : list Z) : res (list range) :=
  match fuel with
  | O => OutOfFuel
  | S f =>
      match input with
      | [] => Ok []
      | _ =>
          let (line, rest) := getLine input in
          let* r := parseHeader line in
          let* (fs, rest) := parseAttrs (S (length rest)) rest [] in
          let* rs := procMaps f rest in
          Ok (mkRange (rgStart r) (rgEnd r) (rgPerms r) (rgOffset r) (rgMajor r) (rgMinor r) (rgInode r) (rgPath r) fs :: rs)
      end
  end.
