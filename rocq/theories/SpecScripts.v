(** * Specification vocabulary for the command lines of the scripts, and what each is to do *)
From Verif Require Import Base ModelScaffold SpecConfig SpecBuild.

(** ** Command lines *)
Inductive item := Flag (n : str) | Opt (n v : str) | Word (w : str).
(** An option has one or two dashes, but -j has one. *)
Definition named (n w : str) : Prop := w = $"-" ++ n \/ (w = $"--" ++ n /\ n <> $"j").
Definition digits (t : str) : Prop := t <> [] /\ forall c, In c t -> isdigit c = true.
Definition undashed (w : str) : Prop := w = $"-" \/ forall r, w <> $"-" ++ r.
(** What can be the value of an option: no option, or a negative number. *)
Definition argument (v : str) : Prop := undashed v \/ exists ds, digits ds /\ v = $"-" ++ ds.
Inductive reads (flags valued : list str) : list str -> list item -> Prop :=
| r_end : reads flags valued [] []
| r_flag : forall n w ws is, In n flags -> w = $"-" ++ n \/ w = $"--" ++ n -> reads flags valued ws is -> reads flags valued (w :: ws) (Flag n :: is)
| r_next : forall n w v ws is, In n valued -> named n w -> argument v -> reads flags valued ws is -> reads flags valued (w :: v :: ws) (Opt n v :: is)
| r_equals : forall n w v ws is, In n valued -> named n w -> reads flags valued ws is -> reads flags valued ((w ++ $"=" ++ v) :: ws) (Opt n v :: is)
| r_joined : forall v ws is, In $"j" valued -> v <> [] -> ~ In "="%char v -> reads flags valued ws is -> reads flags valued (($"-j" ++ v) :: ws) (Opt $"j" v :: is)
| r_word : forall w ws is, undashed w -> reads flags valued ws is -> reads flags valued (w :: ws) (Word w :: is).

(** What is asked for: a flag; the last value of an option, or else [d]; the words. *)
Definition has (n : str) (is : list item) : bool := existsb (fun i => match i with Flag m => str_eqb m n | _ => false end) is.
Definition chosen (n d : str) (is : list item) : str :=
  last (flat_map (fun i => match i with Opt m v => if str_eqb m n then [v] else [] | _ => [] end) is) d.
Definition free (is : list item) : list str := flat_map (fun i => match i with Word w => [w] | _ => [] end) is.
(** All modules, or one. *)
Definition selects (is : list item) (ms : list str) : Prop :=
  ((free is = [] \/ free is = [$"all"]) /\ ms = modules) \/ exists m, free is = [m] /\ In m modules /\ ms = [m].
Definition number (t : str) (z : Z) : Prop :=
  exists ds, digits ds /\ ((t = ds /\ z = value_of_digits ds) \/ (t = $"-" ++ ds /\ z = (- value_of_digits ds)%Z)).

(** ** Plans *)
Section Plans.
Variables (root tmp : str) (cpus : Z).
(** 0 jobs: as many as there are processors, or what ninja takes *)
Definition compile (ninja : bool) (j : Z) : list str :=
  if (j =? 0)%Z then if ninja then [$"ninja"] else with_jobs $"make" cpus else with_jobs (if ninja then $"ninja" else $"make") j.
Definition build_one (llvm : str) (release ninja docgen : bool) (j : Z) (m : str) : list todo :=
  [Make (built_in root m); Run (built_in root m) (configure root llvm release ninja docgen m); Run (built_in root m) (compile ninja j)].
Definition build_plan (ms : list str) (llvm : str) (clean release ninja docgen : bool) (j : Z) : list todo :=
  if_ clean (map (fun m => Remove (built_in root m)) ms) ++ flat_map (build_one llvm release ninja docgen j) ms.
Definition results (m : str) : str := under (tested_in root m) $"testresults.txt".
(** The tests of the rules find headers of clang in a fixed directory. *)
Definition headers : list todo :=
  [Remove (under tmp $"oclint-rules-test/clang"); CopyDir (under root $"build/llvm-install/lib/clang/21/include") (under tmp $"oclint-rules-test/clang")].
Definition test_one (llvm : str) (tests ninja : bool) (j : Z) (m : str) : list todo :=
  [Make (tested_in root m); Run (tested_in root m) (configure_tests root llvm tests ninja m); Run (tested_in root m) (compile ninja j)]
  ++ if_ tests (if_ (str_eqb m $"rules") headers ++ [Run (tested_in root m) (run_tests root m); Show (results m)]).
Definition test_plan (ms : list str) (llvm : str) (clean tests ninja : bool) (j : Z) : list todo :=
  if_ clean (map (fun m => Remove (tested_in root m)) ms) ++ flat_map (test_one llvm tests ninja j) ms.
Definition findings (m : str) : str := under (checked_in root m) $"dogfooding_results.txt".
Definition check_one (llvm : str) (analyzer : bool) (m : str) : list todo :=
  [Remove (checked_in root m); Make (checked_in root m); Run (checked_in root m) (configure_check root llvm m);
   CopyFile (under (checked_in root m) $"compile_commands.json") (under (source root m) $"compile_commands.json");
   Run (source root m) (run_check root analyzer m); Show (findings m)].
Definition check_plan (ms : list str) (llvm : str) (analyzer : bool) : list todo := flat_map (check_one llvm analyzer) ms.
(** googletest *)
Definition gtest_get : list todo :=
  [Absent (under root $"googletest"); Run root [$"git"; $"clone"; $"https://github.com/google/googletest.git"; $"googletest"]].
Definition gtest_make (mac clean : bool) (j : Z) : list todo :=
  let lib := under root $"build/googletest/lib" in
  if_ clean [Remove lib]
  ++ [Make lib; RunText lib ($"cmake " ++ (if mac then $"-D CMAKE_CXX_FLAGS=""-std=c++11 -stdlib=libc++ ${CMAKE_CXX_FLAGS}"" " else []) ++ under root $"googletest");
      Run lib (with_jobs $"make" (if (j =? 0)%Z then cpus else j))].

(** *** Scripts that run others *)
Let scripts := under root $"oclint-scripts".
Let llvm := under root $"build/llvm-install".
Definition docs_plan : list todo :=
  flat_map (build_one llvm false false true 0) [$"core"; $"metrics"; $"rules"; $"driver"]
  ++ [Run scripts [$"./bundle"; $"-docgen"]; Run scripts [$"mkdir"; $"-p"; $"../build/oclint-docs/rules"];
      Run scripts [$"../build/oclint-release/bin/oclint-docgen"; $"docgen"];
      Run (under scripts $"../build/") [$"tar"; $"zcf"; $"oclint-docs-dev-snapshot.tar.gz"; $"oclint-docs/"]].
Definition system_llvm_plan (p : str) : list todo :=
  build_plan modules p true true true false 0 ++ [Run scripts [$"./bundle"; $"-llvm-root=" ++ p; $"-release"]].
Definition system_job_plan (p : str) : list todo :=
  build_plan modules p false false false false 0 ++ [Run scripts [$"./bundle"; $"-archive"; $"-llvm-root=" ++ p]].
Definition gh_build_plan : list todo :=
  [Run scripts [$"./clang"]] ++ build_plan modules llvm false false false false 0 ++ [Run scripts [$"./bundle"; $"-archive"]].
Definition gh_docs_plan : list todo := [Run scripts [$"./clang"]] ++ docs_plan.
Definition gh_test_plan (mac : bool) (deps : list str) (m : str) : list todo :=
  [Run scripts [$"./clang"]] ++ gtest_get ++ gtest_make mac false 0 ++ flat_map (test_one llvm false false 0) deps ++ test_one llvm true false 0 m.
Definition wipe : list todo :=
  map (fun n => Remove (under root n)) [$"build"; $"llvm"; $"googletest"; $"oclint-json-compilation-database"; $"oclint-xcodebuild"].
Definition make_plan (python : str) (mac unix : bool) (archive : bool) (j : Z) : list todo :=
  wipe ++ plan root python tmp mac unix (if (j =? 0)%Z then cpus else j) true true archive.
End Plans.
