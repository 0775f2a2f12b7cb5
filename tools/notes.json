{
 "C04": {
  "note": "Exact counts proved; the expectation that P1+P2+P3 is the total is refuted for rules of another priority (c04_summary_adds_up_refuted)."
 },
 "C05": {
  "note": "Counts first paths; the reading as number of distinct files is refuted (c05_counts_distinct_files_refuted)."
 },
 "C06": {
  "note": "Stable and stale behaviour proved; completeness after a late recording refuted."
 },
 "C09": {
  "note": "Last-wins lookup proved; see the _refuted theorem for the naive expectation."
 },
 "C15": {
  "note": "Proved unless the rule was the only enabled one; the unrestricted claim is refuted (c15_disable_never_adds_refuted)."
 },
 "C21": {
  "note": "Destination proved under the cwd bound of getcwd's 300-byte buffer; beyond it refuted."
 },
 "C22": {
  "note": "Round trip proved except for the sentinel values, which are refuted."
 },
 "C24": {
  "note": "Success iff proved; that success implies a complete report on disk is refuted (c24_success_means_report_on_disk_refuted)."
 },
 "C31": {
  "note": "Exact arguments proved; undefined behaviour for command lines shorter than two (c31_undefined_iff_short)."
 },
 "C33": {
  "note": "Proved; that every error names the jobs is refuted (c33_error_names_jobs_refuted)."
 },
 "C42": {
  "note": "Exact characterisation proved along declarations and statements; that every enclosing declaration hides is refuted (a constructor initialiser breaks the chain)."
 },
 "C43": {
  "note": "Proved; that a comment concerns its own file only is refuted."
 },
 "C44": {
  "note": "Exact answer for every history proved; both leak directions exhibited (_refuted), correctness under agreement proved."
 },
 "C55": {
  "note": "Exactness and behaviour preservation proved over a big-step semantics with arbitrary expression meanings; with a declaration in the inner condition refuted (c55_inner_declaration_refuted)."
 },
 "C56": {
  "note": "Soundness over all runs of any body; fails with a nested label (c56_nested_label_refuted)."
 },
 "C78": {
  "note": "Exact; that a return is reported once is refuted for nested finally blocks."
 },
 "C57": {
  "note": "Exact reports per switch by the first unterminated group; uniqueness of the grouping; two refutations on whether the reports match fall-through in the statement semantics."
 },
 "C58": {
  "note": "Relies on the order in which Clang enters labels (case before, default after its sub-statement), stated in the trusted base. The last part has the hypothesis named in the property; default_with_label shows it is needed."
 },
 "C59": {
  "note": "Exact, with the nested escape refuting the natural reading."
 },
 "C72": {
  "note": "Membership of reports; a base reached on several ways is reported several times."
 },
 "C81": {
  "note": "For != the hypothesis is that == gives the opposite truth value with the same effects."
 },
 "C82": {
  "note": "Semantics: SpecExec; condition variables are excluded (IfStmt with empty pre)."
 },
 "C60": {
  "note": "Addresses of nodes distinct (distinct_nodes). Label hypothesis needed: c60_label_refuted. The rule object's visited set is modelled per unit."
 },
 "C61": {
  "note": "Exact and symmetric; findings: unrelated assignments reported (c61_unrelated_refuted), casts of different non-zero numbers count as same constant (c61_different_numbers_refuted)."
 },
 "C88": {
  "note": "Exact; names, not declarations, are compared (c88_same_name_refuted)."
 },
 "C89": {
  "note": "Initial values of variables are outside the statement semantics, so preservation covers if and return."
 },
 "C90": {
  "note": "Clang's structural comparison of expressions is a parameter."
 },
 "C91": {
  "note": "Finding: a needed check is reported too (c91_needed_check_refuted)."
 },
 "C66": {
  "note": "Exact texts and read-back proved; a line feed in a message forges an entry (c66_line_feed_refuted)."
 },
 "C67": {
  "note": "Valid and lossless for plain texts; refuted in general (c67_quote_refuted, c67_forged_refuted)."
 },
 "C68": {
  "note": "Valid and lossless for plain texts; refuted in general (c68_pmd_path_refuted, c68_xml_malformed_refuted)."
 },
 "C69": {
  "note": "The month shown is one too small; that the date is right is refuted for every moment."
 },
 "C93": {
  "note": "Exact and lossless without '<'; refuted with markup in messages."
 },
 "C94": {
  "note": "Right within 32 bits; refuted from 2^31 on."
 },
 "C71": {
  "note": "The hash table's enumeration order is a parameter, any permutation. Finding (c71_super_refuted): messages to super do not count as messages to self. The rule is in the sources but its build is commented out."
 },
 "C100": {
  "note": "Finding (c100_category_refuted): category implementations are not checked."
 },
 "C101": {
  "note": "Findings: class methods are reported although they call super (c101_class_method_refuted); redeclarations in interfaces are reported although they have no body (c101_declaration_refuted)."
 },
 "C103": {
  "note": "Findings: null pointer read for protected protocol methods (c103_protocol_refuted); a class calling its own protected method through a subclass pointer is reported (c103_own_method_refuted); C functions are never checked (c103_function_refuted)."
 },
 "C104": {
  "note": "Only the direct superclass is looked at, so abstract methods of a grandparent are not enforced; the tree model carries the direct superclass's methods only, so this is visible in the statement rather than a refutation."
 },
 "C105": {
  "note": "Finding (c105_mutable_read_refuted): reading from an NSMutableArray or NSMutableDictionary variable is not reported."
 },
 "C73": {
  "note": "std::sort is a parameter with its standard specification (sorted permutation). Paths name files through a parameter; refuted for a category named index and for unwritable directories. Option parsing of the generator is not modelled."
 },
 "C107": {
  "note": "Uses the annotation model of C40-C42."
 },
 "C108": {
  "note": "The table of rules is extracted from the sources by tools/ruletable.py. Finding (c108_every_rule_is_shipped_refuted): FeatureEnvy is commented out of its CMakeLists.txt, so 72 of the 73 rules are shipped."
 },
 "C109": {
  "note": "Table extracted by tools/ruletable.py; description texts are arbitrary."
 },
 "C110": {
  "note": "Finding: MAXIMUM_IF_LENGTH, RAII_DEFAULT_CLASSES and RAII_CUSTOM_CLASSES are undocumented."
 },
 "C111": {
  "note": "The statement holds for all shipped rules but branch divergence; the exception and its effect are proved."
 },
 "C112": {
  "note": "Finding (c112_reused_memory_refuted): by default each unit is freed before the next is parsed; if a later unit is allocated at the addresses of an earlier one, the stack kept by the short-variable-name rule loses a violation. Hypothesis separate: distinct addresses; met in global analysis, where all units are alive together."
 },
 "C113": {
  "note": "c113_findings_exactly refers to the characterisations C48-C106 for what each rule finds; c113_size_rules and c113_long_lines spell them out."
 },
 "C114": {
  "note": "Branch divergence has priority 10 (C111) and does not count."
 },
 "C115": {
  "note": "Consequence of C112."
 },
 "C116": {
  "note": "SpecCatalogue.v lists the descriptions by name; c116_catalogue_complete: all rules but four, which have theorems of their own. Limits: where a characterisation has a hypothesis (negative limits, labels on default, names near INT_MAX bytes) it appears in the entry."
 },
 "C117": {
  "note": "same_settings compares the texts in force for the keys in sh_reads. LONG_LINE etc. are read once per call, as in the code."
 },
 "C118": {
  "note": "given (SpecSettings.v) is the precedence in words. Hypotheses: -rc arguments no longer than INT_MAX bytes; the number fits an int (otherwise atoi is undefined, C10). c118_limit_by_name covers the twelve rules of the catalogue with a limit, two more have theorems of their own."
 },
 "C119": {
  "note": "SpecLanguages.v holds the lists by public name, independent of the extracted table. long line reads the text of the main file whatever its language (c116_long_line does not mention the language)."
 },
 "C120": {
  "note": "same_code: same trees, language, locations and answers about expressions. In a fresh process (alone); C112 carries it to whole runs."
 },
 "C121": {
  "note": "The long-line rule is excepted: it asks about lines, see C44 (where a leak between rules is refuted). 'Below' is the chain of first parents (C42): one_more_above says the annotated declaration is met on it."
 },
 "C122": {
  "note": "ModelConfigFile models the field table and LLVM's YAMLTraits reader on an arbitrary document tree; the YAML scanner (text to tree) is the external parameter parse."
 },
 "C123": {
  "note": {
   "note": "wrong_under and the documented shapes cover every value (c123_right_or_wrong); c123_costs_only_itself_refuted is a finding."
  }
 },
 "C124": {
  "note": "Finding: processing any configuration file with a non-empty text is undefined behaviour (c124_reading_is_defined_refuted). The other option theorems describe the behaviour with the memory intact (c124_right_while_memory_lives)."
 },
 "C125": {
  "note": "c_str of file names: names without NUL assumed, as on every file system."
 },
 "C126": {
  "note": "The interleaving is arbitrary except in c126_log_spoils_json, which treats log first and report first; the debug stream of assertion builds is not modelled."
 },
 "C127": {
  "note": "Messages of all 72 rules, run-level well-formedness of JSON, XML, PMD, read-back of Xcode. Found: quotes in annotations break JSON, operator< breaks XML."
 },
 "C128": {
  "note": "Exact: each rule completes iff nothing trips it, from any state; run-level equivalences; exit codes with the shipped reporters."
 },
 "C129": {
  "note": "The regular expression engine is modelled for patterns of characters and stars and proved correct for all of them; translate_nocase of the classic locale is trusted."
 },
 "C130": {
  "note": "Composes C112 with C120/C121: the collections of two runs differ in one bucket, and that bucket is related to the former one by exactly the hidden violations; the limits are then respected by monotonicity of the counts in both duplicate modes. For the long-line rule the comment variant needs its threshold setting to be readable; the annotation variant excludes that rule, which has no syntax tree nodes (C38/C113 describe it)."
 },
 "C131": {
  "note": "Composes C122 (document to options), C18, C13, C118, C24, C28 and C114 on whole runs of the program with the 72 rules. Texts of the file are taken as read while its memory lives; C124 records that the code reads them later. Found: a file that disables exactly the rules it enables runs all the others."
 },
 "C36": {
  "note": "The comparison of runs with and without the static analyzer assumes that the plain compilation goes the same under both front-end actions; without that it is refuted."
 },
 "C134": {
  "note": "The values put into holes contain no braces (sensible); directories and failing writes are not modelled. Found: a rule scaffolded again overwrites the edited file and is built twice."
 },
 "C135": {
  "note": "Files whose syntax trees share memory are excluded (separate; C112 refutes the statement for them), and runs stopped by compile errors (exit 6) are compared only in what they list."
 },
 "C136": {
  "note": "PATH has no empty entries (refuted otherwise); file permissions other than the executable bit, case-insensitive file systems and limits on the number of links followed are not modelled; LLVM's path functions are modelled for POSIX paths, a leading // being a plain root."
 },
 "C137": {
  "note": "Hypothesis ready: absolute root and LLVM paths, no source lies behind what is replaced (c137_plain_checkout_is_ready gives plain sufficient conditions). Times and owners of files are not modelled; a dangling link in a copied tree makes the real script fail where the model leaves the entry out; replacing an empty directory by rename counts as failure; the tar format is the parameter e_pack; git and uname are parameters."
 },
 "C138": {
  "note": "words as the shell reads them; c138_blank_refuted: a path with a blank"
 },
 "C139": {
  "note": "refinement of the nested scripts to a flat plan for every outcome of every program; c139_elsewhere_refuted and c139_release_tests_nothing state the limits"
 },
 "C142": {
  "note": "Runs that end; side conditions on labels stand in the constructors of stmt_advice."
 },
 "C143": {
  "note": "Statements listed in SpecFlowGraph; deviations (endless and range-based for) are part of the statement and refuted variants are proved."
 },
 "C144": {
  "note": "Model of oclint-scripts/clang with every external command and system call a parameter; moments are the states of the installation directory from the unpacking on. rmtree and tar are one step each; a member name ending in .native is excluded from the exact description of a conversion. Refutations: duplicate member names, members not named *.o, Intel Macs."
 },
 "C145": {
  "note": "Words without characters special to the shell in paths; abbreviated options, -- and -use-llvm-clang are left out. c145_headers_refuted: -llvm-root does not reach the headers used by the tests of the rules."
 },
 "C146": {
  "note": "The subset of CMake the build files use is interpreted (ModelCMake), OCLintConfig.cmake included (ModelCMakeConfig). Parameters: what find_package(LLVM) sets (it must leave seven variables alone), the names of LLVM libraries, regular expressions and find_program. Classes must be new, and neither OCLintAbstract nor CACHE; categories need no quoting: each restriction is needed (refuted without). c146_tests is the build with TEST_BUILD. Reporters are left out."
 },
 "C147": {
  "note": "OCLintConfig.cmake is interpreted as text (ModelCMakeConfig). Parameters: which files exist, LLVMConfig.cmake (assumed to leave the variables in question alone), find_program, regular expressions. Include and link directories, definitions and messages are not kept."
 },
 "C148": {
  "note": "Unlike rules (C146), no class name and no repetition has to be excluded, because scaffoldReporter refuses what is there. The texts of the build files and templates are those of /repo (tools/cmaketexts.py)."
 },
 "C149": {
  "note": "The texts of the build files and the names of the sources are those of /repo (tools/cmaketexts.py). LLVM's own configuration is assumed to leave the variables named in machine and leaves alone."
 },
 "C150": {
  "note": "The compilers and the linker are a parameter (image); that make puts each target into the directory its properties or EXECUTABLE_OUTPUT_PATH name, and nothing else there, is the hypothesis made. The bundle of the documentation generator has no reporters, so c150_reporters excludes -docgen."
 }
}
