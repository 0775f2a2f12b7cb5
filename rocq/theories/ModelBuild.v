(** * Model of the scripts that configure, build, test and check: oclint-scripts/{ci, build, test,
    dogFooding, googleTest} with oclintscripts/{process, cmake, path, environment}.py

    A script is a function from the state of its process - the current directory and what happened
    so far - to how it ends and the state then.  Programs that are not modelled (cmake, ninja, make,
    ctest, git and the scripts clang and bundle, of which ModelBundle models the latter) are given by
    a function from what happened so far, the current directory and the command line to the return
    code; file operations by one that says whether they succeed.
    Left out everywhere: [print]; [--use-llvm-clang], which sets two environment variables; an
    [OSError] of [os.getcwd]. *)
From Verif Require Import Base ModelScaffold.

Inductive fileop :=
| Chdir (p : str) | RmF (p : str) | MkdirP (p : str) | IsDir (p : str)
| Copy (a b : str) | CopyTree (a b : str) | ShowFile (p : str).
Inductive event :=
| Ran (cwd cmd : str) (code : Z)      (* a program was run; its return code, negative: the signal *)
| Did (op : fileop) (ok : bool).      (* a file operation; false: it raised (for IsDir: the answer) *)
Record proc := { p_cwd : str; p_past : list event }.
(** The end of a script: its last line, or [sys.exit]; an uncaught exception is [Exits 1]. *)
Inductive ending := Done | Exits (code : Z).
Definition M : Type := proc -> ending * proc.
Definition done : M := fun s => (Done, s).
Definition sys_exit (code : Z) : M := fun s => (Exits code, s).
Definition seq (m n : M) : M := fun s => match m s with (Done, s') => n s' | r => r end.
Notation "m ;; n" := (seq m n) (at level 61, right associativity).
Definition when (b : bool) (m : M) : M := if b then m else done.
Fixpoint each {A} (l : list A) (f : A -> M) : M := match l with [] => done | a :: l' => f a;; each l' f end.

Record host := {
  h_root : str;              (* path.root_dir *)
  h_python : str;            (* sys.executable *)
  h_cpus : Z;                (* multiprocessing.cpu_count() *)
  h_kernel : str; h_arch : str;   (* platform.uname() *)
  h_tmp : str;               (* tempfile.gettempdir() *)
  h_run : list event -> str -> str -> Z;
  h_does : list event -> str -> fileop -> bool
}.

(** [os.path.join] of a directory and a relative name *)
Definition pjoin (a b : str) : str :=
  match rev a with
  | [] => b
  | c :: _ => if ascii_eqb c "/"%char then a ++ b else a ++ $"/" ++ b
  end.

Section Scripts.
Variable h : host.

(** ** File operations *)
Definition did (op : fileop) (s : proc) : bool * proc :=
  let ok := h_does h (p_past s) (p_cwd s) op in
  (ok, {| p_cwd := match op with Chdir p => if ok then p else p_cwd s | _ => p_cwd s end; p_past := p_past s ++ [Did op ok] |}).
Definition fileop_ (op : fileop) : M := fun s => match did op s with (true, s') => (Done, s') | (false, s') => (Exits 1, s') end.
(** oclintscripts/path.py:77-95 *)
Definition cd p := fileop_ (Chdir p).
Definition rm_f p := fileop_ (RmF p).
Definition mkdir_p p := fileop_ (MkdirP p).
Definition cp a b := fileop_ (Copy a b).
Definition cp_r a b := fileop_ (CopyTree a b).
(** path.py:97-98, with both branches of its caller *)
Definition if_dir (p : str) (yes no : M) : M := fun s => match did (IsDir p) s with (true, s') => yes s' | (false, s') => no s' end.

(** ** oclintscripts/process.py *)

(** [subprocess.call(command, shell=True)] of a program that is not modelled *)
Definition subprocess_call (cmd : str) (k : Z -> M) : M :=
  fun s => let code := h_run h (p_past s) (p_cwd s) cmd in
           k code {| p_cwd := p_cwd s; p_past := p_past s ++ [Ran (p_cwd s) cmd code] |}.
(** :8-11 *)
Definition call (cmd : str) : M := subprocess_call cmd (fun code => if (code =? 0)%Z then done else sys_exit code).
(** :13-17; [j]: 0 stands for None, too *)
Definition j_flag (j : Z) : str := $" -j " ++ show_Z (if (j =? 0)%Z then h_cpus h else j).
(** :19-20 *)
Definition make (j : Z) : M := call ($"make" ++ j_flag j).
(** :22-26 *)
Definition ninja (j : Z) : M := if (j =? 0)%Z then call $"ninja" else call ($"ninja" ++ j_flag j).

(** ** oclintscripts/environment.py:29-36, with :11-12 *)
Definition is_darwin : bool := prefixb $"darwin" (map tolower (h_kernel h)).
Definition is_linux : bool := prefixb $"linux" (map tolower (h_kernel h)).
Definition is_unix : bool := is_darwin || is_linux.

(** ** oclintscripts/path.py:6-58 *)
Definition scripts_dir := pjoin (h_root h) $"oclint-scripts".
Definition build_root := pjoin (h_root h) $"build".
Definition module_source_dir (n : str) := pjoin (h_root h) n.
Definition oclint_module_source_dir (n : str) := module_source_dir ($"oclint-" ++ n).
Definition module_build_dir (n : str) := pjoin build_root n.
Definition oclint_module_build_dir (n : str) := module_build_dir ($"oclint-" ++ n).
Definition oclint_module_test_dir (n : str) := module_build_dir ($"oclint-" ++ n ++ $"-test").
Definition oclint_module_dogfooding_dir (n : str) := module_build_dir ($"oclint-" ++ n ++ $"-dogfooding").
Definition clang_install_dir := module_build_dir $"llvm-install".
Definition googletest_dir := module_source_dir $"googletest".
Definition googletest_build_dir := pjoin (module_build_dir $"googletest") $"lib".
Definition bundle_dir := oclint_module_build_dir $"release".

(** ** oclintscripts/cmake.py: the builder is the command so far *)
Definition cmake_ : str := $"cmake".
(** :20-26, with :13-14 *)
Definition append (quoted : bool) (key value cmd : str) : str :=
  cmd ++ $" -D " ++ key ++ $"=" ++ (if quoted then $"""" ++ value ++ $"""" else value).
(** :28-35 *)
Definition release_build := append false $"OCLINT_BUILD_TYPE" $"Release".
Definition test_build := append false $"TEST_BUILD" $"1".
Definition doc_gen_build := append false $"DOC_GEN_BUILD" $"1".
(** :37-39 *)
Definition use_ninja (cmd : str) : str := cmd ++ $" -G Ninja".
(** :41-44 *)
Definition append_dict (d : list (str * str)) (cmd : str) : str := fold_left (fun c kv => append false (fst kv) (snd kv) c) d cmd.
(** :16-18 *)
Definition cmake_str (source cmd : str) : str := cmd ++ $" " ++ source.

(** ** argparse
    Words that begin with a dash name options (one or two dashes), which are in [flags], or in
    [valued] and take the next word, or what stands behind an equals sign; -j has one dash only and
    may be followed by its number directly.  The other words are positional.  Left out, and
    errors here: abbreviations of options, the word --, and words with blanks that begin with a
    dash.  -h, --use-llvm-clang and --no-llvm-clang are not represented. *)
Record parsed := { a_flags : list str; a_values : list (str * str); a_words : list str }.
Definition option_name (w : str) : option str :=
  match w with
  | a :: b :: n => if ascii_eqb a "-"%char then Some (if ascii_eqb b "-"%char then n else b :: n) else None
  | _ => None
  end.
(** [int()] of decimal digits with an optional minus; other forms are errors here *)
Fixpoint digits_value (ds : str) (n : Z) : option Z :=
  match ds with
  | [] => Some n
  | c :: ds' => if isdigit c then digits_value ds' (n * 10 + (Z.of_nat (code c) - 48))%Z else None
  end.
Definition int_of (t : str) : option Z :=
  match t with
  | [] => None
  | c :: ds => if ascii_eqb c "-"%char then match ds with [] => None | _ => option_map Z.opp (digits_value ds 0) end else digits_value t 0
  end.
Definition is_value (w : str) : bool := match option_name w with None => true | Some _ => match int_of w with Some _ => true | None => false end end.
Definition mem (x : str) (l : list str) : bool := existsb (str_eqb x) l.
(** A name and a value with an equals sign between them *)
Fixpoint split_eq (w : str) : option (str * str) :=
  match w with
  | [] => None
  | c :: w' => if ascii_eqb c "="%char then Some ([], w') else option_map (fun kv => (c :: fst kv, snd kv)) (split_eq w')
  end.
Definition two_dashes (w : str) : bool := prefixb $"--" w.
(** -o=v and -jN: the option and its value *)
Definition attached (valued : list str) (w n : str) : option (str * str) :=
  match split_eq n with
  | Some (k, v) => if mem k valued && negb (two_dashes w && str_eqb k $"j") then Some (k, v) else None
  | None =>
      match n with
      | c :: d :: v => if ascii_eqb c "j"%char && mem $"j" valued && negb (two_dashes w) then Some ($"j", d :: v) else None
      | _ => None
      end
  end.
Fixpoint parse (flags valued : list str) (ws : list str) : option parsed :=
  match ws with
  | [] => Some {| a_flags := []; a_values := []; a_words := [] |}
  | w :: ws' =>
      match option_name w with
      | None => option_map (fun p => {| a_flags := a_flags p; a_values := a_values p; a_words := w :: a_words p |}) (parse flags valued ws')
      | Some n =>
          if mem n flags then option_map (fun p => {| a_flags := n :: a_flags p; a_values := a_values p; a_words := a_words p |}) (parse flags valued ws')
          else if mem n valued && negb (two_dashes w && str_eqb n $"j") then
            match ws' with
            | v :: ws'' => if is_value v then option_map (fun p => {| a_flags := a_flags p; a_values := (n, v) :: a_values p; a_words := a_words p |}) (parse flags valued ws'') else None
            | [] => None
            end
          else
            match attached valued w n with
            | Some kv => option_map (fun p => {| a_flags := a_flags p; a_values := kv :: a_values p; a_words := a_words p |}) (parse flags valued ws')
            | None => None
            end
      end
  end.
Definition given (n : str) (p : parsed) : bool := mem n (a_flags p).
(** the last one counts *)
Definition value (n default : str) (p : parsed) : str :=
  fold_left (fun d kv => if str_eqb (fst kv) n then snd kv else d) (a_values p) default.
(** [type=int, default=0] *)
Definition int_value (n : str) (p : parsed) : option Z := int_of (value n $"0" p).

(** build:11, test:16, dogFooding:14 *)
Definition OCLINT_MODULES : list str := [$"core"; $"metrics"; $"rules"; $"reporters"; $"driver"].
(** [nargs='?', choices=['all'] + OCLINT_MODULES, default='all'] and the list made of it *)
Definition build_modules (p : parsed) : option (list str) :=
  match a_words p with
  | [] => Some OCLINT_MODULES
  | [m] => if str_eqb m $"all" then Some OCLINT_MODULES else if mem m OCLINT_MODULES then Some [m] else None
  | _ => None
  end.
(** argparse ends the program with 2 *)
Definition usage : M := sys_exit 2.

(** build:46-52, test:63-69, dogFooding:48-54, with [dir] for where the other modules were built *)
Definition module_extras (dir : str -> str) (m : str) : list (str * str) :=
  (if str_eqb m $"rules" || str_eqb m $"reporters" || str_eqb m $"driver"
   then [($"OCLINT_SOURCE_DIR", oclint_module_source_dir $"core"); ($"OCLINT_BUILD_DIR", dir $"core")] else [])
  ++ (if str_eqb m $"rules"
      then [($"OCLINT_METRICS_SOURCE_DIR", oclint_module_source_dir $"metrics"); ($"OCLINT_METRICS_BUILD_DIR", dir $"metrics")] else []).

(** ** build *)

(** :30-40 *)
Definition build_command (llvm_root : str) (is_release no_ninja is_docgen : bool) (extras : list (str * str)) (source : str) : str :=
  let cmd := cmake_ in
  let cmd := if no_ninja then cmd else use_ninja cmd in
  let cmd := if is_release then release_build cmd else cmd in
  let cmd := if is_docgen then doc_gen_build cmd else cmd in
  cmake_str source (append_dict (($"LLVM_ROOT", llvm_root) :: extras) cmd).
(** :42-64; the current directory of the end is that of the beginning *)
Definition and_back (m : M) : M := fun s => let current_dir := p_cwd s in (m;; cd current_dir) s.
Definition build_module (m llvm_root : str) (is_release no_ninja is_docgen : bool) (j : Z) : M :=
  let command := build_command llvm_root is_release no_ninja is_docgen (module_extras oclint_module_build_dir m) (oclint_module_source_dir m) in
  and_back (mkdir_p (oclint_module_build_dir m);;
            cd (oclint_module_build_dir m);;
            call command;;
            (if no_ninja then make j else ninja j)).
(** :13-24, 26-28, 66-85 *)
Definition build_script (argv : list str) : M :=
  match parse [$"docgen"; $"release"; $"clean"; $"no-ninja"] [$"j"; $"llvm-root"] argv with
  | Some p =>
      match build_modules p, int_value $"j" p with
      | Some ms, Some j =>
          when (given $"clean" p) (each ms (fun m => rm_f (oclint_module_build_dir m)));;
          each ms (fun m => build_module m (value $"llvm-root" clang_install_dir p) (given $"release" p) (given $"no-ninja" p) (given $"docgen" p) j)
      | _, _ => usage
      end
  | None => usage
  end.

(** ** test *)

(** :35-43 *)
Definition test_command (llvm_root : str) (as_dep no_ninja : bool) (extras : list (str * str)) (source : str) : str :=
  let cmd := if as_dep then cmake_ else test_build cmake_ in
  let cmd := if no_ninja then cmd else use_ninja cmd in
  cmake_str source (append_dict (($"LLVM_ROOT", llvm_root) :: ($"GOOGLETEST_SRC", googletest_dir) :: ($"GOOGLETEST_BUILD", googletest_build_dir) :: extras) cmd).
(** :45-46 *)
Definition test_result_path (m : str) := pjoin (oclint_module_test_dir m) $"testresults.txt".
(** :48-51 *)
Definition display_test_result (m : str) : M := fileop_ (ShowFile (test_result_path m)).
(** :53-57 *)
Definition install_clang_headers_to_tmp : M :=
  let src := pjoin (pjoin (pjoin (pjoin clang_install_dir $"lib") $"clang") $"21") $"include" in
  let dst := pjoin (pjoin (h_tmp h) $"oclint-rules-test") $"clang" in
  rm_f dst;; cp_r src dst.
(** :59-89 *)
Definition run_ctest (m : str) : M :=
  subprocess_call ($"ctest --output-on-failure > " ++ test_result_path m)
    (fun code => display_test_result m;; if (code =? 0)%Z then done else sys_exit code).
Definition test_module (m llvm_root : str) (as_dep no_ninja : bool) (j : Z) : M :=
  let command := test_command llvm_root as_dep no_ninja (module_extras oclint_module_test_dir m) (oclint_module_source_dir m) in
  and_back (mkdir_p (oclint_module_test_dir m);;
            cd (oclint_module_test_dir m);;
            call command;;
            (if no_ninja then make j else ninja j);;
            when (negb as_dep)
              (when (str_eqb m $"rules") install_clang_headers_to_tmp;; run_ctest m)).
(** :18-33, 91-115 *)
Definition test_script (argv : list str) : M :=
  match parse [$"show"; $"clean"; $"as-dep"; $"no-ninja"] [$"j"; $"llvm-root"] argv with
  | Some p =>
      match build_modules p, int_value $"j" p with
      | Some ms, Some j =>
          if given $"show" p then each ms display_test_result;; sys_exit 0
          else
            when (given $"clean" p) (each ms (fun m => rm_f (oclint_module_test_dir m)));;
            each ms (fun m => test_module m (value $"llvm-root" clang_install_dir p) (given $"as-dep" p) (given $"no-ninja" p) j)
      | _, _ => usage
      end
  | None => usage
  end.

(** ** dogFooding *)

(** :38-42 *)
Definition dogfooding_command (llvm_root : str) (extras : list (str * str)) (source : str) : str :=
  cmake_str source (append_dict (($"LLVM_ROOT", llvm_root) :: extras) (append false $"CMAKE_EXPORT_COMPILE_COMMANDS" $"ON" cmake_)).
(** :44-67 *)
Definition dogfooding_build (m llvm_root : str) : M :=
  let build_path := oclint_module_dogfooding_dir m in
  let source_path := oclint_module_source_dir m in
  and_back (mkdir_p build_path;; cd build_path;; call (dogfooding_command llvm_root (module_extras oclint_module_build_dir m) source_path));;
  cp (pjoin build_path $"compile_commands.json") (pjoin source_path $"compile_commands.json").
(** :69-71 *)
Definition result_path (m : str) := pjoin (oclint_module_dogfooding_dir m) $"dogfooding_results.txt".
(** :73-75 *)
Definition display_result (m : str) : M := fileop_ (ShowFile (result_path m)).
(** :77-91 *)
Definition dogfooding (m : str) (analyzer : bool) : M :=
  let command := pjoin (pjoin bundle_dir $"bin") $"oclint-json-compilation-database"
    ++ $" -- -max-priority-1=0 -max-priority-2=0 -max-priority-3=0" in
  let command := if analyzer then command ++ $" -enable-clang-static-analyzer" else command in
  let command := command ++ $" -o " ++ result_path m in
  and_back (cd (oclint_module_source_dir m);;
            subprocess_call command (fun code => display_result m;; if (code =? 0)%Z then done else sys_exit code)).
(** :16-24, 34-36, 93-107 *)
Definition dogfooding_script (argv : list str) : M :=
  match parse [$"enable-clang-static-analyzer"; $"show"] [$"llvm-root"] argv with
  | Some p =>
      match build_modules p with
      | Some ms =>
          if given $"show" p then each ms display_result;; sys_exit 0
          else each ms (fun m => rm_f (oclint_module_dogfooding_dir m);;
                                 dogfooding_build m (value $"llvm-root" clang_install_dir p);;
                                 dogfooding m (given $"enable-clang-static-analyzer" p))
      | None => usage
      end
  | None => usage
  end.

(** ** googleTest *)

(** :36-41 *)
Definition googletest_command : str :=
  cmake_str googletest_dir (if is_darwin then append true $"CMAKE_CXX_FLAGS" $"-std=c++11 -stdlib=libc++ ${CMAKE_CXX_FLAGS}" cmake_ else cmake_).
(** :32-34, 43-80 *)
Definition googletest_script (argv : list str) : M :=
  match parse [$"clean"] [$"j"; $"llvm-root"] argv with
  | Some p =>
      match a_words p, int_value $"j" p with
      | [task], Some j =>
          if mem task [$"checkout"; $"co"] then
            if_dir googletest_dir (sys_exit 1)
              (and_back (cd (h_root h);; call ($"git clone https://github.com/google/googletest.git googletest")))
          else if mem task [$"update"; $"up"] then
            if_dir googletest_dir (and_back (cd googletest_dir;; call $"git pull")) (sys_exit 1)
          else if str_eqb task $"build" then
            when (given $"clean" p) (rm_f googletest_build_dir);;
            and_back (mkdir_p googletest_build_dir;; cd googletest_build_dir;; call googletest_command;; make j)
          else usage
      | _, _ => usage
      end
  | None => usage
  end.

(** ** Scripts run by scripts *)

(** The words of a command line between blanks. *)
Fixpoint blank_parts (t : str) : list str :=
  match t with
  | [] => [[]]
  | c :: t' => if ascii_eqb c " "%char then [] :: blank_parts t'
               else match blank_parts t' with w :: ws => (c :: w) :: ws | [] => [[c]] end
  end.
Definition words (t : str) : list str := filter (fun w => negb (is_nil w)) (blank_parts t).
(** What the parent gets of the code with which its child exits. *)
Definition exit_status (e : ending) : Z := match e with Done => 0 | Exits code => code mod 256 end.
Definition script (name : str) : option (list str -> M) :=
  if str_eqb name $"build" then Some build_script
  else if str_eqb name $"test" then Some test_script
  else if str_eqb name $"dogFooding" then Some dogfooding_script
  else if str_eqb name $"googleTest" then Some googletest_script
  else None.
(** The command runs Python with one of the scripts, which are found in the current directory. *)
Definition child (cwd cmd : str) : option M :=
  match words cmd with
  | py :: name :: argv => if str_eqb py (h_python h) && str_eqb cwd scripts_dir then option_map (fun f => f argv) (script name) else None
  | _ => None
  end.
(** [process.call] of any command *)
Definition call_any (cmd : str) : M :=
  fun s => match child (p_cwd s) cmd with
           | Some m => let (e, s') := m s in
                       let s'' := {| p_cwd := p_cwd s; p_past := p_past s' |} in
                       if (exit_status e =? 0)%Z then (Done, s'') else (Exits (exit_status e), s'')
           | None => call cmd s
           end.
Definition python (rest : str) : str := h_python h ++ $" " ++ rest.

(** ** ci *)
Record ciargs := { c_reset : bool; c_setup : bool; c_release : bool; c_archive : bool; c_j : Z }.
Definition ci (a : ciargs) : M :=
  (* :22-28 *)
  if c_reset a then
    rm_f build_root;; rm_f (module_source_dir $"llvm");; rm_f googletest_dir;;
    rm_f (oclint_module_source_dir $"json-compilation-database");; rm_f (oclint_module_source_dir $"xcodebuild");; sys_exit 0
  else
  (* :30-40 *)
  when (c_setup a)
    (and_back (cd (h_root h);;
               call_any $"git clone https://github.com/oclint/oclint-json-compilation-database.git";;
               when is_darwin (call_any $"git clone https://github.com/oclint/oclint-xcodebuild.git"));;
     call_any (python $"clang");;
     when (negb (c_release a))
       (call_any (python $"googleTest co");; call_any (python $"googleTest build -clean" ++ j_flag (c_j a))));;
  (* :42-46 *)
  (if c_release a then call_any (python $"build -clean -release" ++ j_flag (c_j a))
   else call_any (python $"test -clean" ++ j_flag (c_j a));; call_any (python $"build -clean" ++ j_flag (c_j a)));;
  (* :47-54 *)
  call_any (python $"bundle");;
  when (is_unix && negb (c_release a)) (call_any (python $"dogFooding -enable-clang-static-analyzer"));;
  when (c_archive a) (if c_release a then call_any (python $"bundle -archive -release") else call_any (python $"bundle -archive")).
End Scripts.
