(** Model of pstack's options: Flags::dump (flags.cc:33-49), convert (libpstack/flags.h:13-23), the option table and the beginning of emain
    (pstack.cc:195-407, built with Python) and main (pstack.cc:446-474).  Texts are lists of characters.  Simplifications: the text an exception
    carries is not modelled (it is the event [Fatal]); the counter of -v does not overflow; SIGINT is in Main's [interrupted]. *)
From Coq Require Import Ascii String.
From Verif Require Import Base ElfHash Json Args FrameText FrameTextSpec Flags FlagsSpec Main.
Open Scope Z_scope.

(** ** The help text *)
(** Flags::dump flags.cc:33-49.  [helps] has the help text and metavar of each add(), which Data keeps with the handler; the vector of long options has
    an entry without a name for each call of done() (flags.cc:30), here [None]. *)
Fixpoint dumpOpts (data : list (Z * nat)) (helps : list (list Z * option (list Z))) (ls : list (option lopt)) : wr :=
  match ls with
  | [] => emit []
  | None :: r => dumpOpts data helps r
  | Some o :: r =>
      match dataFind data (loVal o) with
      | None => ([], Throw)
      | Some h =>
          match nth_error helps h with
          | None => ([], UB)
          | Some (help, meta) =>
              andThen (emit (lit "    [")) (andThen
                (if loVal o >? 0 then emit (lit "-" ++ [loVal o mod 256] ++ lit "|") else emit []) (andThen
                (emit (lit "--" ++ loName o)) (andThen
                (if loArg o then match meta with Some m => emit (lit " <" ++ m ++ lit ">") | None => ([], UB) end else emit []) (andThen
                (emit (lit "]" ++ [10] ++ lit "        " ++ help ++ [10]))
                (dumpOpts data helps r)))))
          end
      end
  end.
(** [k] is how often done() has been called *)
Definition dump (f : flags) (helps : list (list Z * option (list Z))) (k : nat) : wr := dumpOpts (flData f) helps (map Some (flLong f) ++ repeat None k).

(** ** Numbers *)
Definition isSpace (c : Z) : bool := ((9 <=? c) && (c <=? 13)) || (c =? 32).
Definition digitVal (c : Z) : Z :=
  if (48 <=? c) && (c <=? 57) then c - 48 else if (97 <=? c) && (c <=? 122) then c - 87 else if (65 <=? c) && (c <=? 90) then c - 55 else 99.
Fixpoint skipSpaces (s : list Z) : list Z := match s with c :: r => if isSpace c then skipSpaces r else s | [] => [] end.
Fixpoint readDigits (base acc : Z) (s : list Z) : Z :=
  match s with c :: r => if digitVal c <? base then readDigits base (acc * base + digitVal c) r else acc | [] => acc end.
(** strtoll(s, nullptr, 0).  Simplification: the "0b" prefix of C23 is not known. *)
Definition strtoll0 (s : list Z) : Z :=
  let s := skipSpaces s in
  let '(neg, s) := match s with c :: r => if c =? 45 then (true, r) else if c =? 43 then (false, r) else (false, s) | [] => (false, []) end in
  let v := match s with
           | z :: x :: d :: r => if (z =? 48) && ((x =? 120) || (x =? 88)) && (digitVal d <? 16) then readDigits 16 0 (d :: r)
                                 else readDigits (if z =? 48 then 8 else 10) 0 s
           | z :: _ => readDigits (if z =? 48 then 8 else 10) 0 s
           | [] => 0
           end in
  Z.max (- 2 ^ 63) (Z.min (2 ^ 63 - 1) (if neg then - v else v)).
(** convert<int> libpstack/flags.h:13-23: the conversion to int is modulo 2^32 *)
Definition convertInt (s : list Z) : Z := (strtoll0 s + 2 ^ 31) mod 2 ^ 32 - 2 ^ 31.

(** ** What is left of the arguments: getopt_long moves the operands to the end, in order; optind is the first. *)
Fixpoint operands (s : list Z) (ls : list lopt) (args : list (list Z)) : list (list Z) :=
  match args with
  | [] => []
  | a :: rest =>
      if beq a [45; 45] then rest
      else if isPrefix [45; 45] a then
        let (n, v) := splitEq (skipn 2 a) in
        match longFind ls n, v with
        | Some o, None => if loArg o then match rest with [] => [] | _ :: rest => operands s ls rest end else operands s ls rest
        | _, _ => operands s ls rest
        end
      else if isPrefix [45] a && (1 <? zlen a) then
        match snd (cluster s (tl a)) with
        | CNeed _ => match rest with [] => [] | _ :: rest => operands s ls rest end
        | _ => operands s ls rest
        end
      else a :: operands s ls rest
  end.

(** ** pstack's options *)
Inductive dir : Type := DebugDir | ExeDir | ExeIdDir | DebugIdDir.
Inductive sw : Type := NoBuildIds | DoArgs | DoJson | NoSrc | NoThreadDb | AllStacks | NoExtDebug | PyModules | DoPython | DoLocals | NoDieNames | FreeRes | Debuginfod | NoLocalFiles.
Definition dir_eq_dec : forall a b : dir, {a = b} + {a <> b}. Proof. decide equality. Defined.
Definition sw_eq_dec : forall a b : sw, {a = b} + {a <> b}. Proof. decide equality. Defined.
Inductive action : Type :=
| PushDir (d : dir) | Switch (x : sw) | SetDelay | ElfDump | DwarfDump | SetDepth | SetFrames | Help | Verbose | Version | SetExec | SetCommand | ClearDirs | SetOutput.
Record opt : Type := mkOpt { pName : list Z; pShort : Z; pMeta : option (list Z); pHelp : list Z; pAct : action }.
Definition opt_ (n : string) (c : Z) (m : option string) (h : string) (a : action) : opt := mkOpt (lit n) c (match m with Some m => Some (lit m) | None => None end) (lit h) a.
(** pstack.cc:227-388 *)
Definition table : list opt :=
  [ opt_ "debug-dir" 103 (Some "directory") "extra location to find debug files for binaries and shared libraries" (PushDir DebugDir);
    opt_ "exe-dir" 0 (Some "directory") "extra location to find executables and shared libraries" (PushDir ExeDir);
    opt_ "build-id-exepath" 0 (Some "directory") "extra location to find executable files from their build-ids" (PushDir ExeIdDir);
    opt_ "build-id-debugpath" 0 (Some "directory") "extra location to find debug files from their build-ids" (PushDir DebugIdDir);
    opt_ "no-buildid" 0 None "don't look up files by build id" (Switch NoBuildIds);
    opt_ "constant" 98 (Some "delay") "repeat pstack, with `delay` seconds between each iteration (can be non-integer)" SetDelay;
    opt_ "elf-dump" 100 (Some "ELF file") "dump details of an ELF image in JSON and exit" ElfDump;
    opt_ "dwarf-dump" 68 (Some "ELF file") "dump details of DWARF information in an ELF image in JSON and exit" DwarfDump;
    opt_ "depth" 114 (Some "depth") "max depth when printing python structures" SetDepth;
    opt_ "max-frames" 77 (Some "max frames") "maximum number of stack frames to print for a thread" SetFrames;
    opt_ "help" 104 None "generate this help message" Help;
    opt_ "args" 97 None "attempt to show the value of arguments to functions" (Switch DoArgs);
    opt_ "json" 106 None "use JSON output rather than plaintext" (Switch DoJson);
    opt_ "no-src" 115 None "don't include source info" (Switch NoSrc);
    opt_ "verbose" 118 None "more debugging data. Can be repeated" Verbose;
    opt_ "no-threaddb" 116 None "don't use the thread_db functions to enumerate pthreads (just uses LWPs)" (Switch NoThreadDb);
    opt_ "all" 65 None "show both python and DWARF (C/C++/go/rust) stack traces" (Switch AllStacks);
    opt_ "no-ext-debug" 110 None "don't load external debugging information when processing" (Switch NoExtDebug);
    opt_ "version" 86 None "dump version and exit" Version;
    opt_ "python-modules" 109 None "print contents of all python modules when tracing" (Switch PyModules);
    opt_ "python" 112 None "print python stack traces" (Switch DoPython);
    opt_ "locals" 108 None "print local variables (just python for now)" (Switch DoLocals);
    opt_ "executable" 101 (Some "executable") "executable to use by default" SetExec;
    opt_ "command" 120 (Some "command line") "execute command line as subprocess, trace when it receives a signal" SetCommand;
    opt_ "no-die-names" 89 None "do not use DIE names for functions" (Switch NoDieNames);
    opt_ "freeres" 0 None "free all memory at exit (useful for valgrind/heapcheck)" (Switch FreeRes);
    opt_ "clear-search-paths" 0 None "remove all default search paths for shared libraries and debug info" ClearDirs;
    opt_ "output" 111 (Some "output file") "write output to <output file> instead of stdout" SetOutput;
    opt_ "debuginfod" 82 None "use debuginfod client" (Switch Debuginfod);
    opt_ "no-local-files" 0 None "don't assume local files match the process's view, and don't open them" (Switch NoLocalFiles) ]%string.
Definition defOf (o : opt) : odef := mkO (pName o) (pShort o) (match pMeta o with Some _ => true | None => false end).
Definition helpsOf (l : list opt) : list (list Z * option (list Z)) := map (fun o => (pHelp o, pMeta o)) l.
(** usage pstack.cc:195-207 *)
Definition usage (argv0 : list Z) (help : wr) : wr :=
  andThen (emit (lit "usage: " ++ argv0 ++ lit " <[ exe ] <PID | core> >+" ++ [10; 10] ++
                 lit "print a stack trace of PID or core. If specified, assume image was created from" ++ [10] ++
                 lit " execing `exe`, otherwise, the executable is inferred from the process or core" ++ [10; 10] ++ lit "available options:" ++ [10]))
          (andThen help (emit [10])).

(** where output goes: standard output, a file, or - a stream that could not be opened - nowhere *)
Inductive dest : Type := Stdout | ToFile (f : list Z) | Nowhere.
Inductive event : Type :=
| Wrote (d : dest) (t : list Z) | OnErr (t : list Z) | Truncated (f : list Z)
| Failed (a : list Z) (* "trace of ... failed" *) | Fatal (* main's "error: ..." *).
Section World.
Context {D img proc : Type} (strtod : list Z -> D) (isZero : D -> bool) (zero : D).
(** the variables of emain and the members of Context the options change (pstack.cc:213-225, context.h:15-27,64-73) *)
Record settings : Type := mkS { sDirs : dir -> list (list Z); sOn : sw -> bool; sDelay : D; sDepth : Z; sFrames : Z; sExit : Z; sVerbose : Z; sExec : list Z; sCommand : list Z; sOut : dest }.
Definition initial : settings :=
  mkS (fun d => match d with DebugDir => [lit "/usr/lib/debug"; lit "/usr/lib/debug/usr"] | DebugIdDir => [lit "/usr/lib/debug/.build-id"] | ExeDir => [[]] | ExeIdDir => [lit "/usr/lib/.build-id"] end)
      (fun _ => false) zero (2 ^ 31 - 1) 30 (-1) 0 [] [] Stdout.
(** The world: which files can be opened for writing; the dumps of an image; and what Main needs, under the settings. *)
Context (canOpen : list Z -> bool) (elfDump dwarfDump : settings -> list Z -> wr) (version : list Z)
        (killOk : Z -> bool) (attach : settings -> option img -> Z -> res proc) (fileType : settings -> list Z -> res Z)
        (core : settings -> option img -> list Z -> res proc) (openImg : settings -> list Z -> res (option img))
        (native : settings -> proc -> nat -> wr) (pyTrace : settings -> proc -> nat -> list Z * res bool) (interrupted : nat -> bool)
        (child : settings -> option img -> list Z -> wr) (argv0 : list Z).
Definition onText {A : Type} (a : option (list Z)) (k : list Z -> list event * res A) : list event * res A := match a with Some t => k t | None => ([], UB) end.
(** the handlers, pstack.cc:227-388; [help] is what dump() prints *)
Definition act (help : wr) (x : action) (a : option (list Z)) (s : settings) : list event * res settings :=
  let 'mkS dirs on delay depth frames exit verbose exec command out := s in
  let dumped (w : wr) := match w with
    | (t, Ok _) => ([Wrote out t], Ok (mkS dirs on delay depth frames 0 verbose exec command out))
    | (t, Throw) => ([Wrote out t], Throw) | (t, UB) => ([Wrote out t], UB) | (t, OutOfFuel) => ([Wrote out t], OutOfFuel)
    end in
  match x with
  | PushDir d => onText a (fun t => ([], Ok (mkS (fun d' => if dir_eq_dec d d' then dirs d' ++ [t] else dirs d') on delay depth frames exit verbose exec command out)))
  | Switch x => ([], Ok (mkS dirs (fun y => if sw_eq_dec x y then true else on y) delay depth frames exit verbose exec command out))
  | SetDelay => onText a (fun t => ([], Ok (mkS dirs on (strtod t) depth frames exit verbose exec command out)))
  | ElfDump => onText a (fun t => dumped (elfDump s t))
  | DwarfDump => onText a (fun t => dumped (dwarfDump s t))
  | SetDepth => onText a (fun t => ([], Ok (mkS dirs on delay (convertInt t) frames exit verbose exec command out)))
  | SetFrames => onText a (fun t => ([], Ok (mkS dirs on delay depth (convertInt t) exit verbose exec command out)))
  | Help => match usage argv0 help with
            | (t, Ok _) => ([Wrote Stdout t], Ok (mkS dirs on delay depth frames 64 verbose exec command out))
            | (t, Throw) => ([Wrote Stdout t], Throw) | (t, UB) => ([Wrote Stdout t], UB) | (t, OutOfFuel) => ([Wrote Stdout t], OutOfFuel)
            end
  | Verbose => ([], Ok (mkS dirs on delay depth frames exit (verbose + 1) exec command out))
  | Version => ([OnErr (version ++ [10])], Ok (mkS dirs on delay depth frames 0 verbose exec command out))
  | SetExec => onText a (fun t => ([], Ok (mkS dirs on delay depth frames exit verbose t command out)))
  | SetCommand => onText a (fun t => ([], Ok (mkS dirs on delay depth frames exit verbose exec t out)))
  | ClearDirs => ([], Ok (mkS (fun _ => []) on delay depth frames exit verbose exec command out))
  | SetOutput => onText a (fun t => ((if canOpen t then [Truncated t] else []), Ok (mkS dirs on delay depth frames exit verbose exec command (if canOpen t then ToFile t else Nowhere))))
  end.
(** the calls Flags::parse makes, in order, flags.cc:52-69: an exception ends them *)
Fixpoint runCalls (help : wr) (calls : list (nat * option (list Z))) (s : settings) : list event * res settings :=
  match calls with
  | [] => ([], Ok s)
  | (i, a) :: r =>
      match nth_error table i with
      | None => ([], UB)
      | Some o => match act help (pAct o) a s with
                  | (ev, Ok s) => let '(ev', z) := runCalls help r s in (ev ++ ev', z)
                  | w => w
                  end
      end
  end.
(** emain after the options, pstack.cc:390-444 *)
Definition afterOptions (n : nat) (help : wr) (s : settings) (ops : list (list Z)) : list event * res Z :=
  if negb (sExit s =? -1) then ([], Ok (sExit s))
  else
    match (if zlen (sExec s) =? 0 then Ok None else openImg s (sExec s)) with
    | Ok exec =>
        if negb (zlen (sCommand s) =? 0) then
          let '(t, z) := child s exec (sCommand s) in ([Wrote (sOut s) t], let* _ := z in Ok 0)
        else if zlen ops =? 0 then
          let '(t, z) := usage argv0 help in ([OnErr t], let* _ := z in Ok 64)
        else
          let '(t, failed, z) := argLoop killOk (attach s) (fileType s) (core s) (openImg s) (native s) (pyTrace s) interrupted n
                                   (mkMO (sOn s DoPython) (sOn s AllStacks) (negb (isZero (sDelay s)))) exec 0 ops in
          (Wrote (sOut s) t :: map Failed failed, let* _ := z in Ok (exitStatus failed))
    | Throw => ([], Throw) | UB => ([], UB) | OutOfFuel => ([], OutOfFuel)
    end.
(** emain pstack.cc:209-444.  During parse() the long options have their terminator: done() was called once.  An unknown option prints the
    help text on stderr and throws (flags.cc:61-64). *)
Definition emain (n : nat) (args : list (list Z)) : list event * res Z :=
  match build flEmpty (map defOf table) 0 with
  | Ok f =>
      let help := dump f (helpsOf table) 1 in
      let '(calls, z) := parse f args in
      match runCalls help calls initial with
      | (ev, Ok s) =>
          match z with
          | Ok _ => let '(ev', r) := afterOptions n help s (operands (shorts f) (flLong f) args) in (ev ++ ev', r)
          | _ => let '(t, w) := help in (ev ++ [OnErr t], let* _ := w in Throw)
          end
      | (ev, Throw) => (ev, Throw) | (ev, UB) => (ev, UB) | (ev, OutOfFuel) => (ev, OutOfFuel)
      end
  | _ => ([], UB)
  end.
(** main pstack.cc:446-474 (EX_SOFTWARE is 70) *)
Definition main (n : nat) (args : list (list Z)) : list event * res Z :=
  match emain n args with
  | (ev, Throw) => (ev ++ [Fatal], Ok 70)
  | w => w
  end.
End World.
