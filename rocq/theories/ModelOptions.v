(** * Model of oclint-driver: configuration files and command-line options *)
From Verif Require Import Base ModelResults ModelConfig ModelFilter.

(** ** oclint-driver/include/oclint/ConfigFile.h:26-43 *)
Inductive tristate := TFalse | TTrue | TUndefined.

(** [llvm::StringRef] members are plain strings here; their lifetime is in
    ModelConfigFile.v (C124). *)
Record configfile := {
  cf_rules : list str;
  cf_disableRules : list str;
  cf_rulePaths : list str;
  cf_ruleConfigurations : list (str * str);
  cf_output : str;
  cf_reportType : str;
  cf_maxP1 : Z;
  cf_maxP2 : Z;
  cf_maxP3 : Z;
  cf_clangChecker : tristate;
  cf_allowDuplicatedViolations : tristate;
  cf_enableGlobalAnalysis : tristate
}.

(** ConfigFile.cpp:79-80 and the member initialisers *)
Definition cf_initial : configfile :=
  {| cf_rules := []; cf_disableRules := []; cf_rulePaths := []; cf_ruleConfigurations := [];
     cf_output := []; cf_reportType := []; cf_maxP1 := INT_MIN; cf_maxP2 := INT_MIN;
     cf_maxP3 := INT_MIN; cf_clangChecker := TUndefined;
     cf_allowDuplicatedViolations := TUndefined; cf_enableGlobalAnalysis := TUndefined |}.

(** ConfigFile.cpp:91-92: the whitespace class tested *)
Definition config_blank (c : ascii) : bool :=
  (code c =? 32) || (code c =? 9) || (code c =? 12) || (code c =? 11) || (code c =? 10) || (code c =? 13).

(** ConfigFile.cpp:79-107.  [read] is the file system ([None]: cannot be read), [yaml] is
    LLVM's YAML reader filling an initial object through the field table 199-213
    (ModelConfigFile.v: [yaml_of]). *)
Definition ConfigFile_read (read : str -> option str) (yaml : str -> configfile) (path : str)
  : configfile :=
  match read path with
  | None => cf_initial
  | Some content => if forallb config_blank content then cf_initial else yaml content
  end.

(** ConfigFile.cpp:134-138 *)
Definition createOptionalString (v : str) : option str := if is_nil v then None else Some v.
(** ConfigFile.cpp:150-153 *)
Definition createOptionalInt (v : Z) : option Z := if Z.eqb v INT_MIN then None else Some v.
(** ConfigFile.cpp:170-182 *)
Definition createOptionalBool (v : tristate) : option bool :=
  match v with TFalse => Some false | TTrue => Some true | TUndefined => None end.

(** ** oclint-driver/lib/Options.cpp *)

(** [llvm::cl::opt<T>]: current value and whether it occurred on the command line. *)
Record opt (T : Type) := { o_value : T; o_occurred : bool }.
Arguments o_value {T}. Arguments o_occurred {T}.

(** What the user gave on the command line (an option given twice is rejected by LLVM's
    parser before this code runs). *)
Record cmdline := {
  cl_output : option str;
  cl_reportType : option str;
  cl_R : list str;
  cl_rc : list str;
  cl_rule : list str;
  cl_disableRule : list str;
  cl_maxP1 : option Z;
  cl_maxP2 : option Z;
  cl_maxP3 : option Z;
  cl_globalAnalysis : option bool;
  cl_clangChecker : option bool;
  cl_duplications : option bool
}.

Definition opt_init {T} (init : T) (given : option T) : opt T :=
  match given with
  | Some v => {| o_value := v; o_occurred := true |}
  | None => {| o_value := init; o_occurred := false |}
  end.

(** The static option objects and the two registries they feed. *)
Record ostate := {
  argOutput : opt str;
  argReportType : opt str;
  argRulesPath : list str;
  argMaxP1 : opt Z;
  argMaxP2 : opt Z;
  argMaxP3 : opt Z;
  argGlobalAnalysis : opt bool;
  argClangChecker : opt bool;
  argDuplications : opt bool;
  os_filter : rfilter;                    (* Options.cpp:112 *)
  os_cfg : cfg                            (* RuleConfiguration.cpp:8 *)
}.

(** Options.cpp:25-92: initial values after command-line parsing. *)
Definition os_initial (cl : cmdline) : ostate :=
  {| argOutput := opt_init $"-" (cl_output cl);
     argReportType := opt_init $"text" (cl_reportType cl);
     argRulesPath := cl_R cl;
     argMaxP1 := opt_init 0%Z (cl_maxP1 cl);
     argMaxP2 := opt_init 10%Z (cl_maxP2 cl);
     argMaxP3 := opt_init 20%Z (cl_maxP3 cl);
     argGlobalAnalysis := opt_init false (cl_globalAnalysis cl);
     argClangChecker := opt_init false (cl_clangChecker cl);
     argDuplications := opt_init false (cl_duplications cl);
     os_filter := f_empty;
     os_cfg := cfg_fresh |}.

(** Options.cpp:116-123 *)
Definition updateArgIfSet {T} (arg : opt T) (configValue : option T) : opt T :=
  match configValue with
  | Some v => if negb (o_occurred arg) then {| o_value := v; o_occurred := o_occurred arg |} else arg
  | None => arg
  end.

(** Options.cpp:141-173 *)
Definition processConfigFile (s : ostate) (f : configfile) : ostate :=
  {| os_cfg := fold_left (fun c kv => addConfiguration c (fst kv) (snd kv))
                 (cf_ruleConfigurations f) (os_cfg s);
     argRulesPath := argRulesPath s ++ cf_rulePaths f;
     os_filter := disableRules (enableRules (os_filter s) (cf_rules f)) (cf_disableRules f);
     argOutput := updateArgIfSet (argOutput s) (createOptionalString (cf_output f));
     argReportType := updateArgIfSet (argReportType s) (createOptionalString (cf_reportType f));
     argMaxP1 := updateArgIfSet (argMaxP1 s) (createOptionalInt (cf_maxP1 f));
     argMaxP2 := updateArgIfSet (argMaxP2 s) (createOptionalInt (cf_maxP2 f));
     argMaxP3 := updateArgIfSet (argMaxP3 s) (createOptionalInt (cf_maxP3 f));
     argGlobalAnalysis :=
       updateArgIfSet (argGlobalAnalysis s) (createOptionalBool (cf_enableGlobalAnalysis f));
     argClangChecker := updateArgIfSet (argClangChecker s) (createOptionalBool (cf_clangChecker f));
     argDuplications :=
       updateArgIfSet (argDuplications s) (createOptionalBool (cf_allowDuplicatedViolations f)) |}.

(** The process environment.  [en_cwd]: the current directory, [None] when it cannot be
    determined.  [en_bin] is the directory of the executable (Options.cpp:190-204),
    computed in ModelInstall.v. *)
Record penv := { en_cwd : option str; en_home : option str; en_bin : str }.

(** Options.cpp:181-188 with 226-229: a buffer of 300 bytes; on failure the path stays "". *)
Definition workingPath (e : penv) : str :=
  match en_cwd e with
  | Some p => if (length p + 1 <=? 300) then p else []
  | None => []
  end.
(** Options.cpp:231-255 *)
Definition installPrefix (e : penv) : str := en_bin e ++ $"/..".
Definition libPath (e : penv) : str := installPrefix e ++ $"/lib".
Definition etcPath (e : penv) : str := installPrefix e ++ $"/etc".
Definition homePath (e : penv) : str := match en_home e with Some h => h | None => [] end.

(** Options.cpp:130-139 *)
Definition configFilePaths (e : penv) : list str :=
  [etcPath e ++ $"/oclint"]
  ++ (if 0 <? length (homePath e) then [homePath e ++ $"/.oclint"] else [])
  ++ [workingPath e ++ $"/.oclint"].

(** Options.cpp:175-179 *)
Definition processConfigFiles (read : str -> option str) (yaml : str -> configfile) (e : penv)
    (s : ostate) : ostate :=
  fold_left (fun s p => processConfigFile s (ConfigFile_read read yaml p)) (configFilePaths e) s.

(** [size_t] and conversions to [int] (implementation-defined modulo, as in GCC/Clang). *)
Definition size_t (z : Z) : Z := (z mod 18446744073709551616)%Z.
Definition to_int (z : Z) : Z :=
  let m := (z mod 4294967296)%Z in if (m <? 2147483648)%Z then m else (m - 4294967296)%Z.
Definition NPOS : Z := 18446744073709551615.

(** [s.substr(pos, n)] with [size_t] arguments *)
Definition substr_sz (s : str) (pos n : Z) : outcome str :=
  let size := Z.of_nat (length s) in
  if (size <? pos)%Z then Exc $"out_of_range"
  else Val (firstn (Z.to_nat (Z.min n (size - pos))) (skipn (Z.to_nat pos) s)).

(** Options.cpp:214-218, splitting one -rc argument.  [indexOfSeparator] is an [int]; the
    arithmetic with [size()] happens in [size_t]. *)
Definition splitRuleConfiguration (configuration : str) : outcome (str * str) :=
  let found := match rfind_char "="%char configuration with
               | Some i => Z.of_nat i | None => NPOS end in
  let indexOfSeparator := to_int found in
  obind (substr_sz configuration 0 (size_t indexOfSeparator)) (fun key =>
  obind (substr_sz configuration (size_t (indexOfSeparator + 1))
           (size_t (Z.of_nat (length configuration) - indexOfSeparator - 1))) (fun value =>
  Val (key, value))).

(** Options.cpp:212-220 *)
Fixpoint processRuleConfigurations (rcs : list str) (c : cfg) : outcome cfg :=
  match rcs with
  | [] => Val c
  | a :: rcs' =>
      obind (splitRuleConfiguration a) (fun kv =>
        processRuleConfigurations rcs' (addConfiguration c (fst kv) (snd kv)))
  end.

(** Options.cpp:206-224 *)
Definition process (read : str -> option str) (yaml : str -> configfile) (e : penv) (cl : cmdline)
  : outcome ostate :=
  let s := processConfigFiles read yaml e (os_initial cl) in
  obind (processRuleConfigurations (cl_rc cl) (os_cfg s)) (fun c =>
  Val {| argOutput := argOutput s; argReportType := argReportType s;
         argRulesPath := argRulesPath s; argMaxP1 := argMaxP1 s; argMaxP2 := argMaxP2 s;
         argMaxP3 := argMaxP3 s; argGlobalAnalysis := argGlobalAnalysis s;
         argClangChecker := argClangChecker s; argDuplications := argDuplications s;
         os_filter := disableRules (enableRules (os_filter s) (cl_rule cl)) (cl_disableRule cl);
         os_cfg := c |}).

(** ** Accessors, Options.cpp:257-331 *)
Definition rulesPath (e : penv) (s : ostate) : list str :=
  if 0 <? length (argRulesPath s) then argRulesPath s else [libPath e ++ $"/oclint/rules"].
Definition reporterPath (e : penv) : str := libPath e ++ $"/oclint/reporters".
Definition hasOutputPath (s : ostate) : bool := negb (str_eqb (o_value (argOutput s)) $"-").
(** [argOutput.at(0)] throws on the empty string. *)
Definition outputPath (e : penv) (s : ostate) : outcome str :=
  match o_value (argOutput s) with
  | [] => Exc $"out_of_range"
  | c :: _ => if ascii_eqb c "/"%char then Val (o_value (argOutput s))
              else Val (workingPath e ++ $"/" ++ o_value (argOutput s))
  end.
Definition reportType (s : ostate) : str := o_value (argReportType s).
Definition maxP1 (s : ostate) : Z := o_value (argMaxP1 s).
Definition maxP2 (s : ostate) : Z := o_value (argMaxP2 s).
Definition maxP3 (s : ostate) : Z := o_value (argMaxP3 s).
Definition enableGlobalAnalysis (s : ostate) : bool := o_value (argGlobalAnalysis s).
Definition enableClangChecker (s : ostate) : bool := o_value (argClangChecker s).
Definition allowDuplicatedViolations (s : ostate) : bool := o_value (argDuplications s).
