(** * Model of INCLUDE(OCLintConfig)

    Every CMakeLists.txt of a module includes oclint-core/cmake/OCLintConfig.cmake (found through
    CMAKE_MODULE_PATH, which each sets right before).  This file runs its text (ModelCMakeTexts.v).
    Only variables are kept: include and link directories, definitions and messages have no effect
    on which targets there are. *)
From Verif Require Import Base ModelScaffold ModelCMake ModelCMakeTexts.

(** What OCLintConfig finds on the machine. *)
Record surroundings := {
  e_files : files;                                         (* files and directories (EXISTS) *)
  e_llvm : variables -> option variables;                  (* LLVMConfig.cmake; [None]: not found, or it stops *)
  e_libnames : list str -> list str;                       (* LLVM_MAP_COMPONENTS_TO_LIBNAMES *)
  e_match : str -> str -> str;                             (* STRING(REGEX MATCH), of a pattern and a text *)
  e_program : str -> option str                            (* FIND_PROGRAM *)
}.

Section Config.
  Variable e : surroundings.
  (** Commands outside IF; [None]: CMake stops. *)
  Definition config_command (c : command) (v : variables) : option variables :=
    let l := plain_values v (c_args c) in
    let n := c_name c in
    if str_eqb n $"set" then
      match l with
      | [] => None
      | x :: vs => if existsb (fun v => str_eqb v $"CACHE" || str_eqb v $"PARENT_SCOPE") vs then None
                   else Some (assign v x (if is_nil vs then None else Some (list_of vs)))
      end
    else if str_eqb n $"message" then
      match l with x :: _ => if str_eqb x $"FATAL_ERROR" then None else Some v | [] => None end
    else if str_eqb n $"include" then
      match l with [x] => if str_eqb x $"LLVMConfig" then e_llvm e v else None | _ => None end
    else if str_eqb n $"find_package" then
      match l with x :: _ => if str_eqb x $"LLVM" then e_llvm e v else None | [] => None end
    else if str_eqb n $"string" then
      match l with
      | x :: y :: pattern :: out :: t :: more =>
          if str_eqb x $"REGEX" && str_eqb y $"MATCH" then Some (assign v out (Some (e_match e pattern (concat (t :: more))))) else None
      | _ => None
      end
    else if str_eqb n $"llvm_map_components_to_libnames" then
      match l with x :: comps => Some (assign v x (Some (list_of (e_libnames e comps)))) | [] => None end
    (* cmEnableTestingCommand *)
    else if str_eqb n $"enable_testing" then Some (assign v $"CMAKE_TESTING_ENABLED" (Some $"1"))
    (* cmFindProgramCommand: what is there and no false constant is kept *)
    else if str_eqb n $"find_program" then
      match l with
      | [x; p] => Some (if match v x with Some y => negb (false_constant y) | None => false end then v
                        else assign v x (Some (match e_program e p with Some r => r | None => x ++ $"-NOTFOUND" end)))
      | _ => None
      end
    else if existsb (str_eqb n) [$"include_directories"; $"link_directories"; $"add_definitions"] then Some v
    else None.
  Fixpoint config_run (fuel : nat) (l : list command) (v : variables) : option variables :=
    match fuel with
    | O => None
    | S f =>
      match l with
      | [] => Some v
      | c :: rest =>
          if str_eqb (c_name c) $"if" then
            match branches 0 rest, condition (e_files e) v (values v (c_args c)) with
            | Some b, Some x => match config_run f (if x then i_then b else i_else b) v with Some v' => config_run f (i_rest b) v' | None => None end
            | _, _ => None
            end
          else match config_command c v with Some v' => config_run f rest v' | None => None end
      end
    end.
  (** oclint-core/cmake/OCLintConfig.cmake: no run is longer than that. *)
  Definition oclint_config (v : variables) : option variables :=
    match commands_in OCLintConfig with Some l => config_run 200 l v | None => None end.
End Config.
