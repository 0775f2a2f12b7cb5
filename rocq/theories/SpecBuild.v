(** * Specification vocabulary for building and continuous integration *)
From Verif Require Import Base ModelScaffold.

(** ** The shell *)

(** A character that stands for itself in a command line. *)
Definition special : str := [" "; "009"; NL; "|"; "&"; ";"; "<"; ">"; "("; ")"; "$"; "`"; "\"; """"; "'"; "*"; "?"; "["; "]"; "#"; "~"; "{"; "}"; "!"]%char.
Definition plain (w : str) : Prop := w <> [] /\ forall c, In c w -> ~ In c special.
(** The shell splits [cmd] into the words [ws] and expands nothing; the word > redirects. *)
Inductive splits : str -> list str -> Prop :=
| sp_end : splits [] []
| sp_blank : forall cmd ws, splits cmd ws -> splits (" "%char :: cmd) ws
| sp_last : forall w, plain w -> splits w [w]
| sp_word : forall w cmd ws, plain w -> splits cmd ws -> splits (w ++ " "%char :: cmd) (w :: ws)
| sp_into : forall cmd ws, splits cmd ws -> splits (">"%char :: " "%char :: cmd) ($">" :: ws).

(** ** What each command should be, for a checkout in [root] *)
Definition modules : list str := [$"core"; $"metrics"; $"rules"; $"reporters"; $"driver"].
(** The modules whose headers and libraries a module uses. *)
Definition needs (m : str) : list str :=
  if str_eqb m $"rules" then [$"core"; $"metrics"]
  else if str_eqb m $"reporters" || str_eqb m $"driver" then [$"core"]
  else [].
Definition define (key value : str) : list str := [$"-D"; key ++ $"=" ++ value].
Definition under (d n : str) : str := d ++ $"/" ++ n.
Section Commands.
Variable root : str.
Definition source (m : str) : str := under root ($"oclint-" ++ m).
Definition built_in (m : str) : str := under root ($"build/oclint-" ++ m).
Definition tested_in (m : str) : str := under root ($"build/oclint-" ++ m ++ $"-test").
Definition checked_in (m : str) : str := under root ($"build/oclint-" ++ m ++ $"-dogfooding").
Definition prefix (m : str) : str := if str_eqb m $"metrics" then $"OCLINT_METRICS" else $"OCLINT".
(** where the needed modules are *)
Definition uses (dir : str -> str) (m : str) : list str :=
  flat_map (fun d => define (prefix d ++ $"_SOURCE_DIR") (source d) ++ define (prefix d ++ $"_BUILD_DIR") (dir d)) (needs m).
Definition if_ {A} (b : bool) (l : list A) : list A := if b then l else [].
Definition configure (llvm : str) (release ninja docgen : bool) (m : str) : list str :=
  [$"cmake"] ++ if_ ninja [$"-G"; $"Ninja"] ++ if_ release (define $"OCLINT_BUILD_TYPE" $"Release") ++ if_ docgen (define $"DOC_GEN_BUILD" $"1")
  ++ define $"LLVM_ROOT" llvm ++ uses built_in m ++ [source m].
Definition configure_tests (llvm : str) (tests ninja : bool) (m : str) : list str :=
  [$"cmake"] ++ if_ tests (define $"TEST_BUILD" $"1") ++ if_ ninja [$"-G"; $"Ninja"] ++ define $"LLVM_ROOT" llvm
  ++ define $"GOOGLETEST_SRC" (under root $"googletest") ++ define $"GOOGLETEST_BUILD" (under root $"build/googletest/lib")
  ++ uses tested_in m ++ [source m].
Definition configure_check (llvm : str) (m : str) : list str :=
  [$"cmake"] ++ define $"CMAKE_EXPORT_COMPILE_COMMANDS" $"ON" ++ define $"LLVM_ROOT" llvm ++ uses built_in m ++ [source m].
Definition run_tests (m : str) : list str := [$"ctest"; $"--output-on-failure"; $">"; under (tested_in m) $"testresults.txt"].
(** All violations count, in a bundle made before. *)
Definition run_check (analyzer : bool) (m : str) : list str :=
  [under root $"build/oclint-release/bin/oclint-json-compilation-database"; $"--"; $"-max-priority-1=0"; $"-max-priority-2=0"; $"-max-priority-3=0"]
  ++ if_ analyzer [$"-enable-clang-static-analyzer"] ++ [$"-o"; under (checked_in m) $"dogfooding_results.txt"].
Definition with_jobs (tool : str) (n : Z) : list str := [tool; $"-j"; show_Z n].
End Commands.

(** ** What a run of ci is to do *)
Inductive todo :=
| Run (dir : str) (ws : list str)      (* run this in that directory, with success *)
| RunText (dir cmd : str)              (* the same, by the text of the command *)
| Remove (p : str) | Make (p : str) | CopyFile (a b : str) | CopyDir (a b : str) | Show (p : str)
| Absent (p : str).                    (* see that this is no directory *)
Section Plan.
Variables (root python tmp : str) (mac unix : bool) (jobs : Z).
Let llvm := under root $"build/llvm-install".
Let scripts := under root $"oclint-scripts".
Definition test_it (m : str) : list todo :=
  [Make (tested_in root m); Run (tested_in root m) (configure_tests root llvm true true m); Run (tested_in root m) (with_jobs $"ninja" jobs)]
  ++ if_ (str_eqb m $"rules") [Remove (under tmp $"oclint-rules-test/clang"); CopyDir (under llvm $"lib/clang/21/include") (under tmp $"oclint-rules-test/clang")]
  ++ [Run (tested_in root m) (run_tests root m); Show (under (tested_in root m) $"testresults.txt")].
Definition build_it (release : bool) (m : str) : list todo :=
  [Make (built_in root m); Run (built_in root m) (configure root llvm release true false m); Run (built_in root m) (with_jobs $"ninja" jobs)].
Definition check_it (m : str) : list todo :=
  [Remove (checked_in root m); Make (checked_in root m); Run (checked_in root m) (configure_check root llvm m);
   CopyFile (under (checked_in root m) $"compile_commands.json") (under (source root m) $"compile_commands.json");
   Run (source root m) (run_check root true m); Show (under (checked_in root m) $"dogfooding_results.txt")].
Definition set_up (release : bool) : list todo :=
  [Run root [$"git"; $"clone"; $"https://github.com/oclint/oclint-json-compilation-database.git"]]
  ++ if_ mac [Run root [$"git"; $"clone"; $"https://github.com/oclint/oclint-xcodebuild.git"]]
  ++ [Run scripts [python; $"clang"]]
  ++ if_ (negb release)
       [Absent (under root $"googletest"); Run root [$"git"; $"clone"; $"https://github.com/google/googletest.git"; $"googletest"];
        Remove (under root $"build/googletest/lib"); Make (under root $"build/googletest/lib");
        RunText (under root $"build/googletest/lib")
          ($"cmake " ++ (if mac then $"-D CMAKE_CXX_FLAGS=""-std=c++11 -stdlib=libc++ ${CMAKE_CXX_FLAGS}"" " else []) ++ under root $"googletest");
        Run (under root $"build/googletest/lib") (with_jobs $"make" jobs)].
Definition plan (setup release archive : bool) : list todo :=
  if_ setup (set_up release)
  ++ (if release then map (fun m => Remove (built_in root m)) modules ++ flat_map (build_it true) modules
      else map (fun m => Remove (tested_in root m)) modules ++ flat_map test_it modules
           ++ map (fun m => Remove (built_in root m)) modules ++ flat_map (build_it false) modules)
  ++ [Run scripts [python; $"bundle"]]
  ++ if_ (unix && negb release) (flat_map check_it modules)
  ++ if_ archive [Run scripts ([python; $"bundle"; $"-archive"] ++ if_ release [$"-release"])].
End Plan.

(** The system is named so, in any case. *)
Definition runs_on (name kernel : str) : Prop := exists rest, map tolower kernel = name ++ rest.
