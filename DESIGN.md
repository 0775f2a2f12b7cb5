# Formal model of OCLint in Rocq (Coq 8.16.1)

Source modelled: `/repo` (oclint/oclint at the pinned commit). The code is read as text;
nothing is compiled or run. Every definition in a `Model*.v` file cites the file and the
lines it transcribes and says where it simplifies.

## Layout of `/verif`

| kind | files | contents |
|---|---|---|
| base | `Base.v`, `BaseFacts.v` | byte strings (`str := list ascii`), C-locale ctype functions, three-way outcomes (`Val`, `Exc`, `UB`), facts about them |
| models | `Model*.v` | executable transcription of the code, no proofs |
| specifications | `Spec*.v` | small independent specifications used in theorem statements: relations, first-order predicates, grammars, a statement semantics |
| proofs | `Proof*.v` | lemmas |
| fidelity tests | `Conformance*.v` | OCLint's own unit tests, evaluated on the model (see below) |
| properties | `Prop*.v` | the property theorems `cNN_…`, non-vacuity `Example`s (`cNN_case…`), `Print Assumptions` |

Outside `rocq/`: `properties.jsonl` (the claims), `MANIFEST.json` (generated by
`tools/manifest.py`), `seeded/` (faults planted in the model: `batches/*.json` the edits,
`LOG.jsonl` one line per attempt, run by `tools/mutate.py`), `tools/ruletable.py` (extracts
the table of shipped rules from the sources).

Undefined behaviour (null dereference, reading past the end, signed overflow) and C++
exceptions are distinct outcomes of the model (`UB`, `Exc`), never silently totalised.

Conventions for names: `…_refuted` theorems show, by an exhibited run of the model, that the
natural stronger claim is false of the code (a finding); `…_partial` would mark a theorem
proving part of its property (none at present).

## Trusted base

1. **Coq's kernel** (8.16.1), its reduction machines (`vm_compute` is used in examples and
   for facts about the finite table of shipped rules) and `coqchk`.
2. **Axioms**: none. `Print Assumptions` answers "Closed under the global context" for every
   theorem listed in `MANIFEST.json`; each `Prop*.v` ends with these commands for its main
   theorems. No axiom, `Parameter`, section-less `Variable`, functor or module type is
   declared. `Section` variables are discharged and appear as quantified arguments.
   (`coqchk` lists seven opaque fields of `Coq.ssr.ssrunder`, a standard-library module loaded
   by `Lia`; no theorem depends on them.)
3. **The transcription**: that the Gallina definitions say what the cited C++ lines say.
4. **The specification files**: that `Spec*.v` and the theorem statements say what the English
   says. They do not use the helpers of the models, only their data types and entry points.
5. **Parameters** standing for code outside the repository (quantified over in every theorem
   that mentions them, so nothing is assumed about them unless stated as a hypothesis):
   * the hash function of `std::hash` (C01–C06), hence bucket order; the enumeration order of
     `std::unordered_map` (C71: any permutation); `std::sort` (C73: any function returning a
     sorted permutation);
   * LLVM's command-line and YAML parsers (`cmdline`, `w_yaml`), the environment (`penv`),
     reading of configuration files (`w_read`), directory listings (`w_list`), the dynamic
     linker (`w_rulelib`, `w_replib`), opening and writing the output file (`w_canOpen`,
     `w_accepts`), the path resolution of the documentation generator (`resolve`);
   * Clang's tooling (`toolchain`: absolute paths, compilation database, argument adjusters,
     driver jobs, chdir, front end with diagnostics and AST context);
   * in the driver and analyzer, what a rule does with a context (`takeoff`), including its
     own state; the link to the rule models is made in `ModelProgram.v` (C112 ff.);
   * the clock: `time`, `gmtime`, `localtime`, `asctime` (C69, C73, C94), and the constant head
     of the HTML page (C93);
   * `areSameExpr` — Clang's structural comparison (`StmtProfile`) (C90); `lines` — the source
     line numbers of nodes (C82, size rules);
   * the meaning of atoms, conditions and switch selectors in the statement semantics
     `SpecExec.v` (`atom`, `select`): all preservation theorems hold for every such meaning.
6. **Facts about Clang used in the model** (not in the repository, stated here):
   * the order in which `RecursiveASTVisitor` visits sub-nodes (`ModelAST.children`): it is
     the order of Clang's own visitor with default settings (no template instantiations, no
     implicit code);
   * `SwitchStmt`'s list of cases is in reverse order of registration, and a `case` label is
     registered before, a `default` label after its sub-statement (C58);
   * `getParents` of a node answers the list given by the parent chains in `parents`;
   * addresses of different nodes of one unit differ (`distinct_nodes`, C60, C63).

## What is modelled, and how each area is proved

* **Results** (C01–C07, `ModelResults`): `Violation`, `ViolationSet`, `ResultCollector`,
  `RawResults`, `UniqueResults`, `AbstractResults`, `RuleCarrier`. `unordered_set` carries
  arbitrary hashes. Induction over lists and over histories of recordings and queries.
* **Rule configuration and identity** (C08–C12, `ModelConfig`): the static map is an `option`
  of an association list; `atoi` with overflow as `UB`; `identifier`; the registry.
* **Filter and analyzer** (C13–C15, C37, `ModelFilter`): `std::set` as duplicate-free list;
  induction over request sequences, over rules and units.
* **Options** (C16–C22, `ModelOptions`): command line, configuration files, `-rc` splitting
  with `size_t`/`int` conversions, paths, the 300-byte buffer of `getcwd`.
* **Texts of violations** (C127, `SpecMessages`): every message of the 72 rules is spelt from
  harmless characters (printable ASCII other than quotation mark, backslash, angle brackets,
  ampersand) and characters of names, selectors and annotations of the unit it is about, in any
  state a run can reach. Proved rule by rule (`ProofMessages.all_polite`), lifted to completed
  runs, and combined with C66-C68 and C126: sources and paths without the critical characters
  give well-formed JSON, XML and PMD reports.
* **Definedness** (C128, `SpecDefined`): each of the 72 rules completes from every state exactly
  if none of four explicit conditions on the unit and the settings holds (`unproblematic`;
  a setting matters only once it is read: `looks`); lifted to runs (an equivalence) and to the exit codes of the process
  with the shipped reporters. `c49_overflow_exactly` settles the NPath computation for all
  bodies (`uncountable`).
* **Progress log and standard output** (C125, C126, `ModelVerbose`): the driver and the
  analyzer again, instrumented with the texts sent to `LOG_VERBOSE`; dropping the text gives
  back the driver (`c125_log_changes_nothing`), and the text is the story of the run told by an
  independent relation (`SpecVerbose.story`). Standard output is any interleaving of what goes
  through `std::cout` and what goes through `llvm::outs()` (two buffers, one descriptor).
* **Keys of a configuration file** (C122–C124, `ModelConfigFile`): the field table of
  `ConfigFile::mapping` on an arbitrary document tree, with the reader of LLVM 21's
  `YAMLTraits` (sticky error, sequences filled item by item, numbers with radix prefixes,
  duplicate keys rejected) modelled from its documented behaviour; text to tree is the
  parameter `parse`. The `StringRef` members are references whose memory is gone when the
  constructor returns (`processConfigFiles_refs`).
* **Main** (C23–C28, C97, `ModelMain`): loaders, `prepare`, reporting, limits, exit codes;
  decision table `exits` proved complete and deterministic.
* **Driver** (C29–C36, `ModelDriver`): compile commands, argv construction, string
  replacement (non-terminating cases explicit), job checks, diagnostics dispatch.
* **Source reader and suppression** (C38–C46, `ModelSource`): `StringRef::split` loop,
  annotations, parent chains, the two static caches as explicit state, gating.
* **Sorting the HTML table** (C132, `ModelSortTable`): the script in the page head, function
  `sortTable`; loop with explicit fuel, termination by the number of inversions.  Trusted: string
  comparison by code units and the DOM calls; `toLowerCase` is a parameter.
* **Scaffolding** (C133, C134, `ModelScaffold`): the scripts rule and reporter authors start
  from, with a file system as a map from paths to texts.  Directories, encodings and failing
  writes are not modelled; templates are texts with holes (`SpecScaffold`).
* **Installation** (C136, `ModelInstall`, `SpecInstall`): the computation of the executable's
  directory with the LLVM path functions it calls; `SpecInstall` has file systems with links, how
  names lead through them, which file a shell runs, and what the loaders see.  Trusted: `leads` and
  `executed` as a description of POSIX path resolution and of the shell's search.
* **Bundling** (C137, `ModelBundle`, `SpecBundle`): the script that assembles a distribution, as a
  state monad over file systems with links, a current directory and a failure parameter that may
  stop any operation and leave anything at its target.  The proof is a Hoare logic whose invariant
  is the exact contents of the bundle so far; `belongs` lists what belongs into a bundle, and
  C136 takes the result to the program that runs from it.  Trusted: the file system operations of
  Python as modelled (`follow`, at most 40 links, is proved equal to the relation `within`).
* **What rule advice means for execution** (C141, `PropRulesEffect`): stated with the semantics of
  `SpecExec`. Equivalences that drop a block are for completed runs: an unfinished run may have been
  cut inside the dropped block. `folds` (constant folding is right) and `atoms_stay` (evaluating an
  expression neither breaks nor continues) are hypotheses of the theorems that need them.
* **Following advice anywhere** (C142, `SpecAdvice`, `ProofAdvice`, `PropAdvice`): `expr_advice` and
  `stmt_advice` say for each rule which rewriting its report asks for, `changed` closes them under all
  contexts (many places at once), `follows` iterates. The proof shows that `agree` (same labels inside, same
  completed runs from the start and from every label) is a congruence and holds of every single piece of
  advice. Runs that never end are not compared, since dropping a block may make a run that was cut inside
  it impossible. Side conditions of single pieces of advice (no labels in dropped code) stand in their
  constructors; without them the advice can be wrong (a goto into the dropped code).
* **What cyclomatic complexity means** (C143, `SpecFlowGraph`): a flow graph is any list of vertices and
  edges related to the function by the inductive relations `value`, `test`, `flow`. Proof: in each part
  edges = vertices + decisions (cases are paid for by their switch), by mutual induction; existence of
  graphs (`ProofFlowDraw`) by drawing with fresh numbers. Exceptional edges go from a `try` to its handlers
  only; `@finally`, lambdas, blocks, `a ?: b` and computed gotos are outside. Findings: `for (;;)` is counted,
  range-based `for` is not, and labels sharing statements make cyclomatic complexity exceed NPath.
* **Fetching LLVM** (C144, `ModelClang`, `SpecClang`, `ProofClang`, `ProofClangRun`): the script `clang`
  as a state monad over the installation directory; `curl`, `tar`, `ar`, `llc`, `which` and the failure of
  any system call are parameters. Every change of the directory is recorded as a moment, so a claim about
  all moments is a claim about every point of interruption. A Hoare logic with an invariant for all moments
  (`hoare inv P m Q`) carries the proofs. `shutil.rmtree` and `tar` are single steps; what `ar r` leaves
  meanwhile and after a failure is arbitrary; timestamps, permissions and printed text are left out.
* **Command lines of the scripts, and scripts that run scripts** (C145, `ModelScripts`, `SpecScripts`):
  `reads` says in words what a command line of `build`, `test`, `dogFooding`, `googleTest` and `ci` asks
  for; plans (lists of steps) say what is then to be done. `outcome` is the claim: all steps of the plan in
  order with code 0, or a first part of it, a failing step, and its code. The sh scripts `make`, `docGen`,
  `makeWithSystemLLVM`, `gh-actions` and the jobs of the workflows are proved to follow the plans put
  together. Left out of argparse: abbreviated options, the word `--`, `-h`, `-use-llvm-clang`, and Python's
  other spellings of numbers; left out of sh: expansion of patterns. `bundle` and `clang` are programs here
  (C137 and C144 are about them).
* **What is built** (C146, `ModelCMake`, `ModelCMakeTexts`, `SpecCMake`, `ProofCMake*`): the build files of
  oclint-rules and the templates are in the model as texts (`tools/cmaketexts.py` copies them); `ModelCMake` is a reader and
  interpreter for the part of CMake's language they use, with scopes, macros, properties and targets.
  `history` is any sequence of runs of the scaffolding script (C134) and edits that leave the build files
  alone. The proof keeps, over the history, a description of all category lists (`tree`) of which the
  texts are the printed form, shows that the reader reads it back, and runs the interpreter over it by
  induction on categories and rules. The test build (`ProofCMakeTests`, `PropCMakeTests`) is done the
  same way, with the directories of tests as the description. Trusted: that `ModelCMake` is what CMake does on these commands;
  `OCLintConfig.cmake` is interpreted too (`ModelCMakeConfig`); LLVM's own configuration, the names of
  its libraries, regular expressions and the search for programs are parameters. C147 (`SpecCMakeConfig`,
  `PropCMakeConfig`) says what that file sets, by running it command by command with unknown variables.
  C148 (`SpecCMakeReporters`, `ProofCMakeReporters`) is the same as C146 for oclint-reporters and
  `scaffoldReporter`; here the history also has runs that were refused, and that no library is built
  twice follows from the refusals.
  C149 (`SpecCMakeModules`, `ProofCMakeModules`) runs the build files of the other three modules with
  unknown machine, directories and settings, and compares the result with the names of the sources.
  C150 (`SpecRelease`, `PropRelease`) puts C146, C148 and C149 together with C137: what CMake was told to
  build is what the release has. `PropReleaseRuns` adds C136: these rules, and no others, run. Trusted there, as the hypothesis `made`: make puts the file of each target into
  the directory its properties, or EXECUTABLE_OUTPUT_PATH for programs, name, and nothing else into these directories;
  what compilers and linkers make of a target is a parameter.
* **What NPath means** (C140, `SpecCourses`, `ProofCourses`): the number computed by the metric (C48)
  is compared with the number of courses execution can take, defined by an inductive relation
  between a statement and the decisions met on the way. Courses are prefix-free, so sequences
  multiply and alternatives add; both inductions (bound and exact count) are over the statement.
  Courses are relative to the tests: that a test can come out both ways is taken for granted,
  expressions standing as statements and the condition of a switch count as no decision, and
  labels for `goto`, `try` and Objective-C blocks are outside the countable statements.
* **Building and continuous integration** (C138, C139, `ModelBuild`, `SpecBuild`): the scripts that
  configure, build, test and check, as functions from the state of a process to its end; a script
  that runs another script runs the model of that script, parsing the same command line.  Programs
  that are not modelled are a function from the history, the directory and the command to a return
  code, so every theorem is for all outcomes.  `SpecBuild` has how a shell splits a command and the
  plan of a run; the proof shows that each script refines its part of the plan (`follows`).
  Trusted: `splits` as a description of the shell for words without special characters; argparse
  as modelled (abbreviated options and `-jN` are left out); `exit_status` as what a parent sees.
* **Reports of whole runs** (C135, `PropReport`): composes C112 (each rule on its own), the
  decision table of `main` and the reporters.  `finished` names a run up to its verdict; the
  monotonicity and order theorems compare two such runs, possibly of different worlds.
* **The project's file and whole runs** (C131, `PropProject`): the document read by
  `ModelConfigFile` is the `w_yaml` of a `program`; the theorems go from the keys of the mapping
  to the rules analysed, the violations recorded, the destination and contents of the report and
  the exit code.  As everywhere outside C124, the texts are taken as copied in time.
* **Suppressing and whole runs** (C130, `PropSuppressRuns`): two runs over the same files, one
  with a comment or annotation more, related bucket by bucket, then through the counts to the
  exit code.
* **Comments on Apple systems** (C129, `ModelApple`): the branch compiled there, with a small
  regular expression engine (characters and stars, ignoring case) proved correct for all its
  patterns; the other branch is the one used in the rest of the model, and C129 says how the
  two correspond.
* **Syntax trees and metrics** (C47–C51, `ModelAST`): one nested inductive type for the node
  kinds OCLint distinguishes with a catch-all; visitor as pre-order traversal with state;
  metrics by structural recursion with `int` overflow as `UB`.
* **Rules** (`ModelRules…`): all 73 rules of `oclint-rules/rules` (72 are built:
  FeatureEnvy is commented out of its CMakeLists.txt): size (C48–C53), basic
  (C55, C56, C62, C65, C74–C79), empty (C54), convention (C57–C59, C72, C80–C86), redundant
  (C60, C61, C88–C91), naming and unused (C63, C64, C70, C92), cuda (C87), design (C71, C98,
  C99), cocoa (C100–C104), migration (C105, C106). Each theorem says which nodes of an
  arbitrary tree are reported (`reports_exactly` and variants: completeness, soundness,
  multiplicity and order), by declarative patterns; where the rule recommends a rewriting, a
  big-step semantics of statements (`SpecExec`) shows the rewriting is safe (C55, C56, C60,
  C76, C81, C82, C89), or a counter-example that it is not.
* **Reporters** (C66–C69, C93–C96, `ModelReporters`): exact texts; validity against an
  independent JSON and an independent XML grammar (`SpecJSON`, `SpecXML`: the subsets the
  reporters use); read-back functions show losslessness, counter-examples where nothing is
  escaped.
* **Documentation generator** (C73, C107, `ModelDocgen`) and the table of shipped rules
  (C108–C111, `ModelRuleTable`, extracted mechanically from the sources).
* **The program as a whole** (C112–C121, `ModelProgram`, `SpecCatalogue`, `SpecSettings`, `SpecLanguages`, `SpecSuppression`): the 72 rule models, with their
  languages, attribute names, priorities and registration order from `ModelRuleTable`, are
  plugged into the analyzer, the driver and `main` (`takeoff`, `driver_of`, `program`). The
  state that outlives a unit — the two suppression caches and the stack of ShortVariableName —
  is explicit; C112 proves that neither makes a difference when units lie at different
  addresses. Limits are read where
  the code reads them: five rules in `setUp` (`with_setUp`), the others at each node they
  measure (`with_limit`).

Hypotheses that are more than typing: paths shorter than `getcwd`'s buffer (C21); the current
directory changes succeed (C29, C35); the ShortVariableName stack is empty at the start of a
unit (C63, refuted otherwise); the units of a run lie at different addresses and top-level
declarations are different objects (C112–C115, `separate`, `well_formed`); limits are not negative where stated (C52, C64); texts are
plain where the reporters escape nothing (C66–C68, C93), each with its refutation.

## Checking the transcription against OCLint's own tests

The theorems are about the model; that the model is the code is item 3 of the trusted base.
To test it, OCLint's own unit tests are evaluated on the model. `tools/conformance/extract.py`
reads the calls of `testRuleOn…Code` in `oclint-rules/test` and of `testMatcherOn…Code` in
`oclint-metrics/test`: the rule, its configuration, the snippet of C, C++ or Objective-C, and
the violations its authors expect. `tools/conformance/front.py` is a small front end, written
for this purpose, that turns the snippet into the tree Clang would build, with positions,
types and implicit nodes; it knows nothing of the rules. `tools/conformance/emit.py` writes
one `Example` per test: the carrier, fed with this tree, holds exactly the expected violation
(position and message) at the expected index. `vm_compute` decides each.

* 920 calls of the rule tests and 82 of the metric tests are included, and all hold. No model
  definition was changed to make one hold: every disagreement met was a fault of the front end.
* 82 further tests, of the core library, the rule filter and the six reporters
  (`ConformanceCore.v` by hand, `ConformanceResults.v` written by `tools/conformance/core.py`), hold too.
  Left out there: parts of a report that the model does not name separately (headers and footers with a
  version given by the test), values of type `double`, and `ViolationSet::operator==` (used by tests only).
* Left out of the rule tests (8 calls): the tests of `UnusedLocalVariable` about RAII types from the standard
  library (their input includes a hand-written `<mutex>` with templates), and one test of the
  helper of a rule on a function-like macro.
* These are tests, not proofs: they say nothing about other inputs and count as no property.
  They are evidence, independent of the author of the model, for item 3.

## What is not modelled

* Clang and LLVM themselves: parsing, semantic analysis, constant evaluation, YAML
  scanning and command-line parsing, diagnostics texts; the dynamic linker; the file system beyond the
  parameters above; memory exhaustion.
* The debug stream of `Logger.cpp` (builds with assertions only), `GenericException.cpp` (a string holder), version printers, the
  literal style sheet of the HTML report, the literal description/example texts of the rules.
* `RuleConfiguration::doubleForKey` (unused).
* The script `upload`; in `.github` everything but the commands that run scripts and the matrix of tests;
  of the CMake files, search paths and messages.
* Data races (OCLint is single-threaded).

## Findings (refuted expectations, each a theorem)

| theorem | what the code does |
|---|---|
| `c137_whole_licence_refuted` | the bundle has the first 44 lines of the licence of LLVM; a longer licence is cut |
| `c137_relative_llvm_refuted` | a relative `-llvm-root` names LLVM at first, but the script changes directory on its way and then fails |
| `c137_archive_again_refuted`, `c137_no_second_archive` | archiving the same version again fails, after the bundle was made anew |
| `c136_link_to_the_program_refuted` | started through a link to the program from another directory, oclint looks for its rules beside the link and finds none |
| `c136_empty_entry_of_PATH_refuted` | with an empty entry in PATH (the current directory), the rules of another installation than the one running are loaded |
| `c132_lines_in_order_refuted` | sorting the HTML table by location compares texts: line 10 comes before line 9 |
| `c133_first_letter_refuted`, `c133_digit_refuted` | scaffolding a class not starting with a capital drops its first letter from the name of the rule; a digit in the class makes the rule's identifier differ from the class |
| `c134_every_node_refuted` | node kinds whose colon is on the next line of the list (ObjCImpl and two more) get no visit function in a scaffolded rule |
| `c134_again` | scaffolding a rule that exists overwrites it and builds it twice (scaffolding a reporter refuses, `c134_reporter_refused`) |
| `c129_same_everywhere_refuted` | `//! oclint` hides a violation on Apple systems and nowhere else |
| `c04_summary_adds_up_refuted`, `c111_divergence_fails_the_run_refuted` | a rule of priority 10 (branch divergence) is in the total, but in no priority count, and never fails the run |
| `c05_counts_distinct_files_refuted` | "files with violations" counts the first path of each result set |
| `c06_reflects_all_recorded_refuted` | the de-duplicated view is stale after its first non-empty answer |
| `c09_…` | direct value lookup inserts, and is undefined before any configuration |
| `c15_disable_never_adds_refuted` | disabling the only enabled rule switches all others on |
| `c21_relative_output_under_cwd_refuted` | in a directory path of 300 bytes or more, relative output goes to the root |
| `c24_success_means_report_on_disk_refuted` | write errors of the report are not noticed |
| `c126_verbose_json_refuted` | `-verbose` mixes the progress log into the report on standard output: a JSON report is no longer JSON |
| `c127_json_refuted` | An annotation such as `oclint:enforce[prohibited method]["fgets"]` is quoted in a message: the JSON report of the run is not JSON |
| `c127_xml_refuted` | A call of a prohibited overloaded operator (`operator<`) makes the XML report of the run malformed |
| `c31_always_defined_refuted` | a compile command with fewer than two words reads out of bounds |
| `c33_error_names_jobs_refuted` | the multiple-jobs error may not name the jobs |
| `c36_analyzer_only_adds_bugs_refuted` | enabling the static analyzer replaces the action of the plain compilation, too: whatever the analysis action warns about there becomes a compiler warning (Clang's behaviour under either action is a parameter) |
| `c42_every_enclosing_declaration_hides_refuted` | constructor initialisers break the chain of suppressing declarations |
| `c43_comment_concerns_its_own_file_only_refuted` | a `//!OCLINT` comment suppresses the same line of every file of the unit |
| `c44_no_leak_between_rules_refuted`, `c44_own_suppression_honoured_refuted` | the range cache is filled for the first asking rule and used for all |
| `c49_npath_at_least_one_refuted` | NPath can be 0 |
| `c50_every_substatement_counted_refuted`, `c51_every_brace_counts_refuted` | range-based for and labelled statements are not entered by NCSS and depth |
| `c52_negative_parameter_limit_strict_refuted`, `c64_negative_limit_refuted` | negative limits wrap or overflow |
| `c55_inner_declaration_refuted` | merging collapsible ifs is wrong with a declaration in the inner condition |
| `c56_nested_label_refuted` | "dead" code with a nested label can run |
| `c57_inner_loop_break_refuted`, `c57_no_fall_through_refuted` | missing-break is decided by the last statement only |
| `c58_default_with_label_refuted` | `default: case 1:` is not reported |
| `c59_nested_cases_refuted`, `c80_nested_reported_twice_refuted` | nested switches are counted or reported for the outer one |
| `c60_label_refuted` | removing an "unnecessary" else is wrong with a label inside |
| `c61_unrelated_refuted`, `c61_different_numbers_refuted` | redundancy rules report assignments to different targets and different constants |
| `c63_after_long_name_refuted`, `c63_stale_stack_refuted` | the loop-variable stack misleads the short-name rule |
| `c66_line_feed_refuted`, `c67_quote_refuted`, `c67_forged_refuted`, `c68_pmd_path_refuted`, `c68_xml_malformed_refuted`, `c93_markup_refuted` | reporters do not escape messages or paths |
| `c69_right_date_refuted`, `c94_after_2038_refuted` | XML month is off by one; JSON time wraps in 2038 |
| `c70_pointer_refuted`, `c92_in_class_body_refuted` | exemption list and unused-parameter corner cases |
| `c71_super_refuted` | messages to super do not count as messages to self |
| `c73_index_category_refuted`, `c73_success_means_written_refuted` | a category "index" destroys the index; unwritable output is not noticed |
| `c78_reported_once_refuted` | nested finally blocks report a return repeatedly |
| `c84_shadowing_refuted`, `c88_same_name_refuted` | names are compared, not declarations |
| `c91_needed_check_refuted` | a needed nil check is reported |
| `c100_category_refuted`, `c101_class_method_refuted`, `c101_declaration_refuted`, `c103_protocol_refuted`, `c103_own_method_refuted`, `c103_function_refuted`, `c105_mutable_read_refuted` | Objective-C rules: see the comments at the theorems |
| `c108_every_rule_is_shipped_refuted` | the feature-envy rule is in the sources but not built |
| `c110_every_key_documented_refuted` | three configuration keys are undocumented |
| `c112_reused_memory_refuted` | if a unit is allocated where a freed one was, the short-variable-name rule can miss a variable |
| `c112_same_file_twice_refuted` | a file compiled twice (two compile commands with different flags): the line ranges suppressed in the first compilation stay in force for the second, where that declaration is not even present, so a violation there is lost |
| `c140_alternatives_refuted` | `if (a \|\| b) if (c) ;` has five courses, its NPath number is four: an alternative is counted once, not once for each course through the branch |
| `c140_negation_refuted` | the operators behind a negation are not counted: `if (!(a && b)) ;` counts 2 for three courses |
| `c140_fall_through_refuted` | a switch whose groups fall through has more courses than its number: the groups are added, not continued |
| `c140_range_for_refuted` | a range-based for counts 1 whatever it contains, though it can be skipped or entered |
| `c140_for_counts_one_more` | a `for` counts one more than the `while` with the same condition and body (an absent or plain initialisation adds 1) |
| `c140_early_return_refuted` | `{ if (a) return; if (b) return; }` counts 4 for three courses |
| `c141_continue_before_break_refuted` | `while (a) { if (b) continue; break; }` is reported for its closing break, though its body can run more than once |
| `c119_every_language_is_covered_refuted` | C before C99 is in no language: all rules but long line are silent (and the rules for C++ are silent about Objective-C++, `c119_cxx_rules_skip_objcxx`) |
| `c122_leading_zero_refuted` | a limit written with a leading zero in a configuration file is read in base 8: `max-priority-1: 010` is the limit 8 |
| `c123_costs_only_itself_refuted` | a typing error in one key of a configuration file silently drops other keys, also ones written before it |
| `c124_reading_is_defined_refuted` | the texts of a configuration file are copied after the buffer holding them is freed |
| `c138_blank_refuted` | in a checkout whose path has a blank, cmake is given another source directory: no path is quoted |
| `c139_elsewhere_refuted` | `ci` started in another directory than `oclint-scripts` runs other scripts (or none), since it names them relative to the current directory |
| `c139_release_tests_nothing` | `ci -release` ends with 0 without having run a test or checked the sources |
| `c144_duplicate_members_refuted`, `c144_other_members_refuted` | converting a library of LLVM drops members: of two members of one name the first, and all not named `*.o` |
| `c145_headers_refuted` | `test rules -llvm-root P` builds the tests with the LLVM at P, but always runs them with the headers of `build/llvm-install` |
| `c146_again_refuted`, `c146_two_categories_refuted` | the scaffolding script accepts a rule that is there already, or a class of this name in another category, and the build files are then refused by CMake: two targets of one name |
| `c146_class_name_refuted` | the class names `OCLintAbstract` and `CACHE` are accepted, and the build files then refused (a library of that name; `SET(… CACHE)`) |
| `c146_blank_refuted` | the rules of a category with a blank in its name are accepted and never built, without a message |
| `c147_user_flags_refuted` | `CMAKE_CXX_FLAGS` given by the user are thrown away if the compiler is Clang |
| `c144_intel_mac_refuted` | on a Mac with an Intel processor the LLVM release for ARM is fetched |

## Properties and theorems

<!-- generated by tools/designtable.py -->

| id | property | file | theorems |
|---|---|---|---|
| C01 | Duplicate removal keeps one copy of every violation, in first-seen order | PropResults.v | `c01_dedup_one_copy_each`, `c01_dedup_hash_independent`, `c01_same_violation_iff_all_fields` |
| C02 | Raw results report everything, in order, with multiplicity | PropResults.v | `c02_raw_reports_everything` |
| C03 | Allowing duplicates can only add | PropResults.v | `c03_dedup_subsequence_of_raw`, `c03_dedup_counts_at_most_raw`, `c03_priority_counts_at_most_raw`, `c03_equal_iff_no_repetition` |
| C04 | Priority summary accounts for the violations | PropResults.v | `c04_priority_count_exact`, `c04_has_priorityb_meaning`, `c04_priority_count_null_rule_ub`, `c04_summary_adds_up_iff_priorities_1_2_3`, `c04_summary_adds_up_refuted` |
| C05 | FilesWithViolations counts first paths only | PropResults.v | `c05_files_with_violations_counts_first_paths`, `c05_files_with_violations_at_most_files`, `c05_files_with_violations_zero_iff_none`, `c05_counts_distinct_files_refuted` |
| C06 | Result queries are stable, and stale after late recordings | PropResults.v | `c06_repeated_query_same_answer`, `c06_stale_after_nonempty_answer`, `c06_empty_answer_recomputed`, `c06_reflects_all_recorded_refuted` |
| C07 | A violation without a file is never recorded | PropResults.v | `c07_recorded_iff_path_nonempty`, `c07_sequence_of_reports` |
| C08 | Rule configuration is a last-write-wins map with defaults | PropConfig.v | `c08_last_value_wins`, `c08_default_when_absent`, `c08_every_key_covered`, `c08_lookups_safe_and_read_only`, `c08_history_without_numbers_is_safe` |
| C09 | Direct value lookup is neither safe nor read-only | PropConfig.v | `c09_direct_lookup_undefined_when_cleared`, `c09_direct_lookup_inserts_empty` |
| C10 | Numeric rule thresholds are parsed as decimal integers | PropConfig.v | `c10_threshold_text_read_as_its_number`, `c10_text_without_number_means_zero`, `c10_number_read_is_unique`, `c10_decimal_roundtrip`, `c10_out_of_range_undefined` |
| C11 | Rule identifiers are clean camel-case words | PropConfig.v | `c11_identifier_letters_capitalised_at_word_starts`, `c11_identifier_same_letters_up_to_case`, `c11_identifier_starts_upper`, `c11_identifier_fixed_point` |
| C12 | Rule registration and indexing | PropConfig.v | `c12_index_in_range`, `c12_number_of_rules`, `c12_index_too_large_no_rule`, `c12_negative_index_never_returns` |
| C13 | The rules that run are the enabled, not disabled ones, in load order | PropFilter.v | `c13_running_rules_are_the_selected_ones`, `c13_listed_names_are_the_running_rules` |
| C14 | For each rule name the last enable/disable request wins | PropFilter.v | `c14_last_request_wins`, `c14_never_both`, `c14_other_names_irrelevant` |
| C15 | Disabling a rule can switch other rules on | PropFilter.v | `c15_disable_only_removes`, `c15_disable_last_enabled_runs_everything`, `c15_disable_never_adds_refuted` |
| C16 | Option precedence | PropOptions.v | `c16_option_precedence`, `c16_processing_never_raises`, `c16_blank_file_says_nothing` |
| C17 | Rule threshold precedence | PropOptions.v | `c17_command_line_setting_wins`, `c17_last_file_setting_wins`, `c17_default_when_never_set` |
| C18 | Command-line enable/disable overrides configuration files | PropOptions.v | `c18_command_line_decides`, `c18_last_file_decides`, `c18_unnamed_rule_neither` |
| C19 | -rc key=value splitting | PropOptions.v | `c19_split_at_last_equals`, `c19_no_equals_sets_whole` |
| C20 | Rule search paths | PropOptions.v | `c20_rule_search_paths` |
| C21 | Report destination | PropOptions.v | `c21_report_destination`, `c21_working_path`, `c21_relative_output_under_cwd_refuted` |
| C22 | Configuration files cannot express every value | PropOptions.v | `c22_every_other_int_takes_effect`, `c22_every_nonempty_text_takes_effect`, `c22_sentinels_indistinguishable_from_absent` |
| C23 | Exit code decision table | PropMain.v | `c23_exit_code_table`, `c23_one_code_applies`, `c23_well_behaved_run_exits` |
| C24 | Success means within limits and compiled | PropMain.v | `c24_success_iff`, `c24_success_report_delivered`, `c24_success_means_report_on_disk_refuted` |
| C25 | Limits are monotone | PropMain.v | `c25_raising_limits_keeps_success`, `c25_exceeding_is_monotone` |
| C26 | Rule loading is all or error | PropMain.v | `c26_all_loaded_or_first_failure`, `c26_asked_is_a_function` |
| C27 | Reporter selection | PropMain.v | `c27_first_matching_reporter`, `c27_unreadable_directory` |
| C28 | One report per completed analysis | PropMain.v | `c28_events_of_every_run`, `c28_one_report_after_analysis` |
| C29 | Every compile command is processed exactly once, in order | PropDriver.v | `c29_every_command_once_in_order`, `c29_sources_are_independent` |
| C30 | Command line given to the front end | PropDriver.v | `c30_plain_arguments`, `c30_plain_arguments_defined` |
| C31 | Command line for the static analyzer | PropDriver.v | `c31_analyzer_arguments`, `c31_undefined_iff_short`, `c31_always_defined_refuted` |
| C32 | Path substitution in compile commands | PropDriver.v | `c32_replaces_every_occurrence`, `c32_no_occurrence_unchanged`, `c32_empty_placeholder_diverges` |
| C33 | Only one clang job is accepted | PropDriver.v | `c33_accepted_iff_usable`, `c33_others_raise`, `c33_error_names_jobs_refuted` |
| C34 | A unit that does not compile is never analysed by rules | PropDriver.v | `c34_rules_run_on_good_units`, `c34_completed_analysis_covers_good_units`, `c34_failed_directory_change_aborts` |
| C35 | Global analysis changes grouping only | PropDriver.v | `c35_modes_agree` |
| C36 | Diagnostics go to exactly one bucket by severity | PropDriver.v | `c36_plain_buckets`, `c36_checker_buckets`, `c36_static_analyzer_buckets`, `c36_static_analyzer_run`, `c36_analyzer_only_adds_bugs_refuted` |
| C37 | One result set per analysed unit | PropFilter.v | `c37_one_set_per_unit`, `c37_analysis_completes`, `c37_exception_keeps_earlier_units` |
| C38 | Source lines are delivered completely and numbered from 1 | PropSource.v | `c38_lines_complete_and_numbered`, `c38_lines_unique` |
| C39 | Long-line rule is exact | PropSource.v | `c39_long_lines_exactly` |
| C40 | Annotation matching | PropSource.v | `c40_plain_matches_itself_only`, `c40_bracketed_matches_by_prefix`, `c40_comment_between_brackets` |
| C41 | Suppression by annotation is per rule | PropSource.v | `c41_suppression_is_per_rule`, `c41_named_rule_only`, `c41_no_rule_no_suppression` |
| C42 | Suppression is inherited along the enclosing declarations | PropSource.v | `c42_decl_hidden_iff`, `c42_stmt_hidden_iff`, `c42_enclosing_is_on_chain`, `c42_every_enclosing_declaration_hides_refuted` |
| C43 | Line comments suppress their line, whatever the file | PropSource.v | `c43_comment_hides_its_line`, `c43_recorded_unless_commented`, `c43_comment_concerns_its_own_file_only_refuted` |
| C44 | Range suppression leaks between rules | PropSource.v | `c44_first_asker_decides`, `c44_right_when_rules_agree`, `c44_no_leak_between_rules_refuted`, `c44_own_suppression_honoured_refuted` |
| C45 | Language gating | PropSource.v | `c45_language_gating`, `c45_language_unique` |
| C46 | Only main-file declarations are inspected, CUDA kernels by opt-in | PropSource.v | `c46_cuda_units`, `c46_only_main_file` |
| C47 | Cyclomatic complexity counts decision points | PropAST.v | `c47_counts_decision_points`, `c47_at_least_one`, `c47_nesting_adds_up`, `c47_monotone`, `c47_not_counted` |
| C48 | NPath complexity follows its recurrences | PropAST.v | `c48_follows_recurrences`, `c48_recurrences_define_one_number`, `c48_straight_line_is_one` |
| C49 | NPath can be zero and can overflow | PropAST.v, PropDefined.v | `c49_unlabelled_switch_zeroes_block`, `c49_npath_at_least_one_refuted`, `c49_positive_when_switches_labelled`, `c49_overflow_exactly_when_too_large`, `c49_two_way_statements`, `c49_overflow_exactly` |
| C50 | NCSS counts statements once | PropAST.v | `c50_counts_each_statement`, `c50_enumeration_unique`, `c50_function_count`, `c50_additive_over_blocks`, `c50_not_negative`, `c50_every_substatement_counted_refuted`, `c50_range_for_counts_one`, `c50_label_counts_one` |
| C51 | Block depth is the maximal brace nesting | PropAST.v | `c51_depth_is_maximal_nesting`, `c51_one_per_block`, `c51_exactly_one_more`, `c51_monotone`, `c51_every_brace_counts_refuted` |
| C52 | Size rules compare strictly with the configured limit | PropRules.v | `c52_strictly_above_limit`, `c52_parameters_above_limit`, `c52_size_rules_complete`, `c52_measure_unique`, `c52_negative_parameter_limit`, `c52_negative_parameter_limit_strict_refuted` |
| C53 | Statement rules examine every node of the tree | PropAST.v, PropRules.v | `c53_every_node_in_order`, `c53_until_stopped`, `c53_depth_first`, `c53_nodes_complete`, `c53_no_part_forgotten`, `c53_shape_map_identity`, `c53_records_every_report`, `c53_selection_exists` |
| C54 | Empty-block rules | PropRulesBasic.v | `c54_exactly_empty_bodies`, `c54_one_body` |
| C55 | Collapsible-if rule is sound and exact | PropRulesBasic.v | `c55_exactly_collapsible`, `c55_merging_preserves_behaviour`, `c55_inner_declaration_refuted` |
| C56 | Dead-code rule is sound without labels | PropRulesBasic.v | `c56_reports_first_after_jump`, `c56_at_most_one_per_block`, `c56_reported_never_reached`, `c56_nested_label_refuted` |
| C57 | Missing-break rule | PropRulesConvention.v | `c57_by_first_unterminated_group`, `c57_groups_exist`, `c57_groups_unique`, `c57_all_groups_leave`, `c57_inner_loop_break_refuted`, `c57_no_fall_through_refuted` |
| C58 | Switch default rules are consistent | PropRulesConvention.v | `c58_missing_default_exactly`, `c58_unnecessary_default_exactly`, `c58_never_both`, `c58_labels_complete`, `c58_misplaced_default_exactly`, `c58_misplaced_unique`, `c58_default_with_label_refuted` |
| C59 | Too-few-branches counts nested cases | PropRulesConvention.v | `c59_fewer_than_limit`, `c59_total`, `c59_nested_cases_refuted` |
| C60 | Unnecessary-else reports each chain once, and soundly | PropRulesRedundant.v | `c60_exactly_unneeded`, `c60_one_per_chain`, `c60_removing_else_preserves`, `c60_label_refuted` |
| C61 | Redundant if / redundant conditional | PropRulesRedundant.v | `c61_if_exactly`, `c61_choice_exactly`, `c61_if_symmetric`, `c61_choice_symmetric`, `c61_if_is_its_condition`, `c61_choice_is_its_condition`, `c61_unrelated_refuted`, `c61_different_numbers_refuted` |
| C62 | Negation rules see through any parentheses | PropRulesBasic.v | `c62_double_negative_exactly`, `c62_multiple_unary_exactly`, `c62_double_negative_is_multiple`, `c62_double_not_is_identity` |
| C63 | Short-variable-name rule | PropRulesVars.v | `c63_exactly_short`, `c63_outside_heads_reported`, `c63_heads_not_reported`, `c63_after_long_name_refuted`, `c63_stale_stack_refuted` |
| C64 | Long-variable-name rule | PropRulesVars.v | `c64_exactly_long`, `c64_displayed_unique`, `c64_displayed_shape`, `c64_negative_limit_refuted` |
| C65 | Null-check rules are symmetric in operand order | PropRulesNullCheck.v | `c65_broken_exactly`, `c65_misplaced_exactly`, `c65_operand_order`, `c65_use_meets_null` |
| C66 | Text and Xcode reports list every violation | PropReporters.v | `c66_numbers`, `c66_xcode_exact`, `c66_xcode_lossless`, `c66_line_feed_refuted`, `c66_text_exact`, `c66_text_lossless` |
| C67 | JSON report is valid JSON for plain texts and lossless | PropReporters.v | `c67_valid_json`, `c67_one_reading`, `c67_lossless`, `c67_quote_refuted`, `c67_forged_refuted` |
| C68 | XML-family escaping | PropReporters.v | `c68_one_reading`, `c68_pmd_valid`, `c68_pmd_lossless`, `c68_escape`, `c68_pmd_path_refuted`, `c68_xml_valid`, `c68_xml_lossless`, `c68_xml_malformed_refuted` |
| C69 | XML report date | PropReporters.v | `c69_date`, `c69_right_date_refuted` |
| C70 | Unused local variables and the exemption list | PropRulesVars.v | `c70_words`, `c70_one_base_name`, `c70_exactly_unused`, `c70_pointer_refuted` |
| C71 | Feature envy compares with own class | PropRulesObjC.v | `c71_exactly_envied`, `c71_order_irrelevant`, `c71_own_class_never`, `c71_super_refuted` |
| C72 | Base-class destructor rule | PropRulesConvention.v | `c72_exactly_unsafe_bases` |
| C73 | Rule documentation index | PropDocgen.v | `c73_documentation`, `c73_reproducible`, `c73_no_rules`, `c73_index_category_refuted`, `c73_success_means_written_refuted` |
| C74 | Bitwise operators in conditions | PropRulesBasic.v | `c74_bitwise_condition_exactly` |
| C75 | Broken oddness check | PropRulesBasic.v | `c75_oddness_check_exactly`, `c75_symmetric`, `c75_check_wrong_for_negatives` |
| C76 | For loop should be while loop | PropRulesBasic.v | `c76_for_as_while_exactly`, `c76_while_behaves_alike` |
| C77 | Jumbled incrementer | PropRulesBasic.v | `c77_jumbled_exactly` |
| C78 | Leaving a finally block | PropRulesBasic.v | `c78_returns_in_finally`, `c78_throws_in_finally`, `c78_reported_once_refuted` |
| C79 | Constant conditions and goto | PropRulesBasic.v | `c79_constant_condition_exactly`, `c79_goto_exactly` |
| C80 | Non-case labels in switches | PropRulesConvention.v | `c80_labels_of_each_switch`, `c80_nested_reported_twice_refuted` |
| C81 | Inverted-logic advice is safe | PropRulesConvention.v | `c81_exactly_negated_two_way`, `c81_swapping_if_preserves`, `c81_swapping_choice_preserves`, `c81_swapping_unequal_preserves` |
| C82 | Early-exit advice is safe | PropRulesConvention.v | `c82_exactly_early_exits`, `c82_one_per_construct`, `c82_early_continue_preserves`, `c82_early_jump_preserves` |
| C83 | Branching statement last in loop | PropRulesConvention.v | `c83_exactly_last_in_loop`, `c83_last_continue_is_idle` |
| C84 | Parameter reassignment is by name | PropRulesConvention.v | `c84_assignments_to_parameter_names`, `c84_shadowing_refuted` |
| C85 | Destructor of virtual class | PropRulesConvention.v | `c85_polymorphic_without_virtual_destructor` |
| C86 | Ivar assignment outside accessors | PropRulesConvention.v | `c86_assigned_outside_accessors`, `c86_only_methods` |
| C87 | Branch divergence | PropRulesConvention.v | `c87_exactly_two_way_ifs` |
| C88 | Redundant local variable | PropRulesRedundant.v | `c88_exactly_redundant`, `c88_same_name_refuted` |
| C89 | Useless parentheses | PropRulesRedundant.v | `c89_exactly_useless`, `c89_removing_preserves` |
| C90 | Unnecessary null check before delete | PropRulesRedundant.v | `c90_exactly_guarded`, `c90_operand_order`, `c90_dropping_check_preserves` |
| C91 | Redundant nil check | PropRulesNullCheck.v | `c91_exactly_redundant`, `c91_dropping_check_preserves`, `c91_needed_check_refuted` |
| C92 | Unused-parameter rule | PropRulesVars.v | `c92_exactly_parameters`, `c92_not_both`, `c92_in_class_body_never`, `c92_in_class_body_refuted` |
| C93 | HTML report | PropReporters.v | `c93_html_exact`, `c93_html_lossless`, `c93_markup_refuted` |
| C94 | JSON timestamp wraps | PropReporters.v | `c94_timestamp`, `c94_after_2038_refuted`, `c94_reported_time` |
| C95 | Reporters on violations without a rule | PropReporters.v | `c95_without_rule`, `c95_with_rules` |
| C96 | Compiler diagnostics are left out of Xcode, JSON and XML reports | PropReporters.v | `c96_errors_left_out` |
| C97 | Exit code agrees with the printed report | PropReporters.v | `c97_exit_code_and_report` |
| C98 | Default arguments on virtual methods | PropRulesObjC.v | `c98_exactly_virtual_defaults` |
| C99 | Private static members | PropRulesObjC.v | `c99_exactly_private_static` |
| C100 | isEqual: without hash | PropRulesObjC.v | `c100_exactly_missing_hash`, `c100_category_refuted` |
| C101 | Methods that must call super | PropRulesObjC.v | `c101_exactly_forgotten`, `c101_class_method_refuted`, `c101_declaration_refuted` |
| C102 | Calls of prohibited methods and functions | PropRulesObjC.v | `c102_exactly_prohibited`, `c102_one_message`, `c102_where_marks_are`, `c102_not_a_suppression` |
| C103 | Calls of protected methods | PropRulesObjC.v | `c103_defined`, `c103_reports`, `c103_protocol_refuted`, `c103_own_method_refuted`, `c103_function_refuted` |
| C104 | Abstract methods must be implemented | PropRulesObjC.v | `c104_exactly_unimplemented` |
| C105 | Migration rules | PropRulesObjC.v | `c105_exactly_boxable`, `c105_exactly_number_literals`, `c105_exactly_container_literals`, `c105_exactly_subscripts`, `c105_mutable_read_refuted` |
| C106 | Migration rules never conflict | PropRulesObjC.v | `c106_at_most_one` |
| C107 | The documented annotation works | PropDocgen.v | `c107_documented_annotation_hides`, `c107_only_if_enabled` |
| C108 | Naming a shipped rule names one rule | PropRuleTable.v | `c108_names_are_unambiguous`, `c108_enable_runs_that_rule_alone`, `c108_disable_stops_that_rule_alone`, `c108_annotation_hides_that_rule_alone`, `c108_every_rule_is_shipped_refuted` |
| C109 | Documentation of the shipped rules | PropRuleTable.v | `c109_links_are_right`, `c109_pages_separate` |
| C110 | Documented thresholds | PropRuleTable.v | `c110_documented_thresholds_are_used`, `c110_keys_are_not_shared`, `c110_every_key_documented_refuted` |
| C111 | Priorities of the shipped rules | PropRuleTable.v | `c111_priorities`, `c111_divergence_fails_the_run_refuted` |
| C112 | Every rule works as if it were alone | PropProgram.v | `c112_each_rule_on_its_own`, `c112_completes`, `c112_reused_memory_refuted`, `c112_same_file_twice_refuted` |
| C113 | A rule records its unhidden findings and nothing else | PropProgram.v | `c113_findings_exactly`, `c113_long_lines`, `c113_size_rules` |
| C114 | A successful run with zero limits is a clean bill of health | PropProgram.v | `c114_success_iff_silent`, `c114_silent_iff_no_open_finding`, `c114_success_leaves_nothing_open`, `c114_success_bounds_sizes`, `c114_success_excludes_pattern`, `c114_success_means_no_goto`, `c114_success_bounds_lines` |
| C115 | Other rules, other files and their order do not change a rule's verdict | PropProgram.v | `c115_rows_are_the_shipped_rules`, `c115_other_rules_and_files_do_not_matter`, `c115_order_of_files` |
| C116 | Each rule does what its name says, through the whole program | PropCatalogue.v | `c116_one_rule_per_name`, `c116_catalogue_complete`, `c116_named_rule`, `c116_completes`, `c116_unnecessary_else`, `c116_short_variable_name`, `c116_base_class_destructor`, `c116_long_line`, `c116_success_leaves_nothing_open` |
| C117 | A rule depends on its own settings only | PropSettings.v | `c117_own_settings_only`, `c117_foreign_key`, `c117_another_rules_key`, `c117_default_spelled_out`, `c117_runs_agree` |
| C118 | The number the user writes is the limit the rule applies | PropSettings.v | `c118_text_in_force`, `c118_number_in_force`, `c118_limit_by_name`, `c118_limit_of_line`, `c118_limit_of_short_name`, `c118_green_run_respects_limits` |
| C119 | Rules look only at the languages they are for | PropLanguages.v | `c119_examined`, `c119_silent_in_other_languages`, `c119_looks_in_its_languages`, `c119_kernel_rule_outside_cuda`, `c119_every_language_is_covered_refuted`, `c119_cxx_rules_skip_objcxx` |
| C120 | A suppressing comment removes the violations on its line and nothing else | PropSuppression.v | `c120_comment_hides_its_line`, `c120_comment_on_long_line` |
| C121 | A suppressing annotation removes one rule's violations inside one declaration | PropSuppression.v | `c121_others_unaffected`, `c121_hides_its_rule_inside`, `c121_hides_all_inside` |
| C122 | Every documented key of a configuration file does what it says | PropConfigFile.v | `c122_document_says`, `c122_order_irrelevant`, `c122_other_keys_harmless`, `c122_options_in_force`, `c122_rules_in_force`, `c122_threshold_in_force`, `c122_plain_decimal`, `c122_leading_zero_refuted` |
| C123 | A mistake in a configuration file is contained | PropConfigFile.v | `c123_wrong_value`, `c123_own_key`, `c123_key_twice`, `c123_no_mapping`, `c123_right_or_wrong`, `c123_run_goes_on`, `c123_costs_only_itself_refuted` |
| C124 | Texts of a configuration file are read after its memory is released | PropConfigFile.v | `c124_right_while_memory_lives`, `c124_defined_without_texts`, `c124_text_undefined`, `c124_reading_is_defined_refuted` |
| C125 | The progress log tells what happened | PropVerbose.v | `c125_log_changes_nothing`, `c125_log_tells_the_story`, `c125_completed`, `c125_last_line_names_the_culprit` |
| C126 | Standard output is the report, unless -verbose is given | PropVerbose.v | `c126_quiet_output_is_the_report`, `c126_verbose_output`, `c126_report_in_a_file`, `c126_log_spoils_json`, `c126_verbose_json_refuted` |
| C127 | What messages can contain, and well-formed reports of whole runs | PropMessages.v | `c127_messages`, `c127_every_violation_has_a_rule`, `c127_json_report`, `c127_xml_report`, `c127_pmd_report`, `c127_xcode_reads_back`, `c127_json_output`, `c127_json_refuted`, `c127_xml_refuted` |
| C128 | What can crash or abort an analysis | PropDefined.v | `c128_defaults_fit`, `c128_oversized_setting`, `c128_too_many_paths`, `c128_protocol_method`, `c128_names`, `c128_rule_completes_iff`, `c128_run_completes_iff`, `c128_run_completes`, `c128_program_exits`, `c128_modest_code` |
| C129 | Suppressing comments on Apple systems | PropApple.v | `c129_recognised`, `c129_hides_its_line`, `c129_hides_at_least_as_much`, `c129_same_everywhere_refuted`, `c129_otherwise_alike`, `c129_can_be_rewritten` |
| C130 | Suppressing changes a run only by what it hides, and never for the worse | PropSuppressRuns.v | `c130_comment_takes_out_its_line`, `c130_annotation_takes_out_its_rule`, `c130_comment_keeps_success`, `c130_annotation_keeps_success` |
| C131 | What the project's configuration file says is what the run does | PropProject.v | `c131_rules_that_run`, `c131_disabled_rule_reports_nothing`, `c131_only_enabled_rules_report`, `c131_setting_given`, `c131_verdict`, `c131_report`, `c131_green_project`, `c131_enabling_restricts_refuted` |
| C132 | Sorting the table of an HTML report | PropSortTable.v | `c132_click_sorts`, `c132_click_unique`, `c132_second_click`, `c132_report_sorts`, `c132_lines_in_order_refuted` |
| C133 | Default names of scaffolded rules | PropScaffold.v | `c133_identifier_is_the_class`, `c133_names_differ`, `c133_lower_case`, `c133_suppressed_by_its_name`, `c133_first_letter_refuted`, `c133_digit_refuted` |
| C134 | Scaffolding writes what it says and nothing else | PropScaffold.v | `c134_visit_functions`, `c134_every_node_refuted`, `c134_rule`, `c134_again`, `c134_reporter_refused`, `c134_reporter` |
| C135 | The report lists exactly what the rules find | PropReport.v | `c135_report_of_single_findings`, `c135_listed_iff_found`, `c135_text_report`, `c135_json_output`, `c135_less_work_still_succeeds`, `c135_order_does_not_matter`, `c135_order_permutes_the_list`, `c135_groups_of_files`, `c135_halves` |
| C136 | oclint finds its own rules, reporters and settings | PropInstall.v | `c136_looks_beside_itself`, `c136_default_rules`, `c136_complete_installation_loads`, `c136_link_to_the_program_refuted`, `c136_empty_entry_of_PATH_refuted` |
| C137 | The bundle holds exactly what was built, and runs it | PropBundle.v | `c137_machine`, `c137_nothing_else_changes`, `c137_bundle_is_complete_and_fresh`, `c137_archive_holds_the_bundle`, `c137_built_is_what_runs`, `c137_plain_checkout_is_ready`, `c137_no_second_archive`, `c137_archive_again_refuted`, `c137_relative_llvm_refuted`, `c137_whole_licence_refuted` |
| C138 | The build runs the commands that its options ask for | PropBuild.v | `c138_configure`, `c138_configure_tests`, `c138_configure_check`, `c138_one_reading`, `c138_needed_first`, `c138_blank_refuted` |
| C139 | A green run of ci means that everything it stands for was done and succeeded | PropBuild.v | `c139_green_run`, `c139_stops_at_failure`, `c139_reset`, `c139_code`, `c139_history_is_true`, `c139_tested`, `c139_checked`, `c139_release_tests_nothing`, `c139_elsewhere_refuted` |
| C140 | NPath complexity bounds, and for structured code equals, the number of courses through a statement | PropCourses.v | `c140_never_fewer_than_courses`, `c140_counts_courses`, `c140_count_is_unique`, `c140_decisions_identify_course`, `c140_alternatives_refuted`, `c140_negation_refuted`, `c140_fall_through_refuted`, `c140_range_for_refuted`, `c140_for_counts_one_more`, `c140_early_return_refuted` |
| C141 | What empty blocks, constant conditions, jumps out of finally and closing breaks mean for execution | PropRulesEffect.v | `c141_jump_from_finally_hides_exception`, `c141_outcome_is_that_of_finally`, `c141_empty_block_does_nothing`, `c141_empty_if_only_tests`, `c141_empty_else_can_go`, `c141_empty_switch_selects_nothing`, `c141_empty_try_needs_no_handlers`, `c141_empty_catch_swallows`, `c141_empty_finally_can_go`, `c141_empty_while_never_ends`, `c141_constant_if_takes_one_branch`, `c141_constant_conditional_yields_one_operand`, `c141_closing_break_runs_once`, `c141_continue_before_break_refuted` |
| C142 | Following the advice of the rules, anywhere and time and again, keeps what a function does | PropAdvice.v | `c142_following_advice_keeps_behaviour`, `c142_local_changes_suffice` |
| C143 | Cyclomatic complexity is McCabe's number of the flow graph, and at most NPath | PropFlowGraph.v | `c143_cyclomatic_number`, `c143_is_mccabes_number`, `c143_graphs_exist`, `c143_one_number`, `c143_at_most_npath`, `c143_at_most_courses`, `c143_endless_for_refuted`, `c143_range_for_refuted`, `c143_shared_labels_refuted` |
| C144 | Fetching LLVM loses no library, whenever it stops | PropClang.v | `c144_no_library_is_lost`, `c144_others_untouched`, `c144_finished`, `c144_every_library_is_converted`, `c144_nothing_to_convert`, `c144_downloads`, `c144_code`, `c144_ordinary_libraries`, `c144_duplicate_members_refuted`, `c144_other_members_refuted`, `c144_intel_mac_refuted` |
| C145 | The build scripts do what their command lines ask for, and so do the scripts and jobs that run them | PropScripts.v | `c145_build`, `c145_test`, `c145_dogfooding`, `c145_google_test`, `c145_refused`, `c145_one_reading`, `c145_make`, `c145_make_refused`, `c145_docgen`, `c145_system_llvm`, `c145_system_llvm_usage`, `c145_system_llvm_jobs`, `c145_gh_build`, `c145_gh_docgen`, `c145_gh_test`, `c145_matrix`, `c145_release`, `c145_docs_needed_first`, `c145_headers_refuted` |
| C146 | Every rule that was scaffolded is built, and every shipped rule with it | PropCMake.v, PropCMakeCases.v, PropCMakeTests.v | `c146_rules`, `c146_again_refuted`, `c146_two_categories_refuted`, `c146_class_name_refuted`, `c146_blank_refuted`, `c146_tests` |
| C147 | What every module is compiled with | PropCMakeConfig.v | `c147_flags`, `c147_rpath`, `c147_always`, `c147_llvm_root`, `c147_user_flags_refuted` |
| C148 | Every reporter that was scaffolded is built, and asking again is harmless | PropCMakeReporters.v | `c148_answers`, `c148_reporters`, `c148_tests` |
| C149 | oclint-core, oclint-metrics and oclint-driver build all of their sources, and their tests exactly when asked | PropCMakeModules.v | `c149_core`, `c149_metrics`, `c149_driver` |
| C150 | What is built is what is released | PropRelease.v, PropReleaseRuns.v | `c150_rules`, `c150_reporters`, `c150_program`, `c150_rules_run` |
