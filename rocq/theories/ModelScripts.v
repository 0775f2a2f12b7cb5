(** * Model of the scripts that run others: oclint-scripts/{make, docGen, makeWithSystemLLVM,
    gh-actions}, with the command line of ci, and of the jobs in .github/workflows that run them

    These are programs of sh -e: the first command that fails ends the script with its code.  A code
    here is what the shell reports of a command.  Left out: what [echo] prints, and the expansion of
    patterns in words that are not quoted. *)
From Verif Require Import Base ModelScaffold ModelBuild.

Section Wrappers.
Variable h : host.

(** ci:11-17; there are no positional arguments *)
Definition ci_script (argv : list str) : M :=
  match parse [$"reset"; $"setup"; $"release"; $"archive"] [$"j"] argv with
  | Some p =>
      match a_words p, int_value $"j" p with
      | [], Some j => ci h {| c_reset := given $"reset" p; c_setup := given $"setup" p; c_release := given $"release" p; c_archive := given $"archive" p; c_j := j |}
      | _, _ => usage
      end
  | None => usage
  end.

(** A process of its own: its directory is not that of its parent, which sees the code only. *)
Definition run_child (m : M) : M :=
  fun s => let (e, s') := m s in
           let s'' := {| p_cwd := p_cwd s; p_past := p_past s' |} in
           if (exit_status e =? 0)%Z then (Done, s'') else (Exits (exit_status e), s'').
Fixpoint command_line (ws : list str) : str := match ws with [] => [] | [w] => w | w :: ws' => w ++ $" " ++ command_line ws' end.
(** ./name with arguments: a script, when the current directory is that of the scripts *)
Definition sh_run (table : str -> option (list str -> M)) (name : str) (args : list str) : M :=
  fun s => match (if str_eqb (p_cwd s) (scripts_dir h) then table name else None) with
           | Some f => run_child (f args) s
           | None => call h (command_line (($"./" ++ name) :: args)) s
           end.
Definition python_scripts (name : str) : option (list str -> M) :=
  if str_eqb name $"ci" then Some ci_script else script h name.

(** make:3-4 *)
Definition make_script (args : list str) : M :=
  sh_run python_scripts $"ci" ($"-reset" :: args);;
  sh_run python_scripts $"ci" ($"-setup" :: $"-release" :: args).

(** docGen:3-11 *)
Definition docgen_script : M :=
  sh_run python_scripts $"build" [$"core"; $"-docgen"; $"-no-ninja"];;
  sh_run python_scripts $"build" [$"metrics"; $"-docgen"; $"-no-ninja"];;
  sh_run python_scripts $"build" [$"rules"; $"-docgen"; $"-no-ninja"];;
  sh_run python_scripts $"build" [$"driver"; $"-docgen"; $"-no-ninja"];;
  sh_run python_scripts $"bundle" [$"-docgen"];;
  call h $"mkdir -p ../build/oclint-docs/rules";;
  call h $"../build/oclint-release/bin/oclint-docgen docgen";;
  (fun s => cd h (pjoin (p_cwd s) $"../build/") s);;
  call h $"tar zcf oclint-docs-dev-snapshot.tar.gz oclint-docs/".

(** makeWithSystemLLVM:3-21; [test] answers with its code *)
Definition system_llvm_script (args : list str) : M :=
  match args with
  | [llvm_path] =>
      subprocess_call h ($"test ! -s " ++ llvm_path) (fun code =>
        if (code =? 0)%Z then sys_exit 2
        else
          sh_run python_scripts $"build" (words ($"-llvm-root=" ++ llvm_path) ++ [$"-release"; $"-clean"]);;
          sh_run python_scripts $"bundle" (words ($"-llvm-root=" ++ llvm_path) ++ [$"-release"]))
  | _ => sys_exit 1
  end.

Definition all_scripts (name : str) : option (list str -> M) :=
  if str_eqb name $"docGen" then Some (fun _ => docgen_script) else python_scripts name.
(** gh-actions:3-24; a [shift] of nothing ends dash with 2 (bash: 1) *)
Definition gh_actions (args : list str) : M :=
  let first := match args with a :: _ => a | [] => [] end in
  if str_eqb first $"build" then
    sh_run all_scripts $"clang" [];; sh_run all_scripts $"build" [$"-no-ninja"];; sh_run all_scripts $"bundle" [$"-archive"]
  else if str_eqb first $"docgen" then
    sh_run all_scripts $"clang" [];; sh_run all_scripts $"docGen" []
  else
    sh_run all_scripts $"clang" [];;
    sh_run all_scripts $"googleTest" [$"co"];;
    sh_run all_scripts $"googleTest" [$"build"];;
    match args with
    | _ :: module :: deps =>
        each (flat_map words deps) (fun dep => sh_run all_scripts $"test" [dep; $"-as-dep"; $"-no-ninja"]);;
        sh_run all_scripts $"test" [module; $"-no-ninja"]
    | _ => sys_exit 2
    end.
End Wrappers.

(** tests.yaml:15-26, 56-67: a module and what it depends on *)
Definition tests_matrix : list (str * str) :=
  [($"core", []); ($"metrics", []); ($"rules", $"core metrics"); ($"reporters", $"core"); ($"driver", $"core")].
(** tests.yaml:33, 74: the words of the command, without those that are empty *)
Definition tests_args (job : str * str) : list str := words ($"test " ++ fst job ++ $" " ++ snd job).
(** build.yaml:19, docgen.yaml:16 *)
Definition build_args : list str := [$"build"].
Definition docgen_args : list str := [$"docgen"].
(** release.yaml:24, after the change of directory *)
Definition release_job (h : host) : M := sh_run h (fun name => if str_eqb name $"make" then Some (make_script h) else None) $"make" [];; call h $"./bundle -archive -release".
(** system-llvm.yaml:23-26, 34-37: the installations used (the shell reads [\@] as [@]), and the
    steps after the change of directory *)
Definition system_llvms : list str := [$"/usr/lib/llvm-21"; $"/opt/homebrew/opt/llvm@21"].
Definition system_llvm_job (h : host) (llvm_path : str) : M :=
  sh_run h (python_scripts h) $"build" [$"-no-ninja"; $"-llvm-root=" ++ llvm_path];;
  sh_run h (python_scripts h) $"bundle" [$"-archive"; $"-llvm-root=" ++ llvm_path].
