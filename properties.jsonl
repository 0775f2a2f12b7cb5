{"id": "C01", "title": "Duplicate removal keeps one copy of every violation, in first-seen order", "statement": "With duplicates disallowed (the default), the list of violations a run reports contains no violation twice (two violations are the same when rule, path, start line/column, end line/column and message all agree), contains exactly the violations that were recorded, and keeps them in the order in which each was first recorded. The result does not depend on the hash function of the hash set used.", "quantifier": "every history of recorded violation sets, every hash function", "why_tests_cant": "tests use two or three hand-made violations; set/permutation facts need every list and every hash collision pattern", "anchors": ["oclint-core/lib/UniqueResults.cpp: removeViolationDuplications, ViolationHash, UniqueResults::allViolations", "oclint-core/lib/Violation.cpp: operator=="]}
{"id": "C02", "title": "Raw results report everything, in order, with multiplicity", "statement": "With -allow-duplicated-violations the reported list is exactly the concatenation, in analysis order, of the violations of every analysed unit; nothing is dropped, reordered or invented; errors, warnings and static-analyzer bugs are the recorded ones in recording order.", "quantifier": "every history of recorded sets, errors, warnings and bugs", "why_tests_cant": "a test fixes the number of units and violations", "anchors": ["oclint-core/lib/RawResults.cpp", "oclint-core/lib/ResultCollector.cpp", "oclint-core/lib/ViolationSet.cpp"]}
{"id": "C03", "title": "Allowing duplicates can only add", "statement": "For the same analysis, the de-duplicated report is a subsequence of the raw report; every count (total, per priority, errors, warnings, bugs) of the de-duplicated report is at most the raw one, and they coincide when no two recorded violations are identical.", "quantifier": "every history of recorded results", "why_tests_cant": "comparing two views over all histories is a relational property", "anchors": ["oclint-core/lib/UniqueResults.cpp", "oclint-core/lib/RawResults.cpp", "oclint-core/lib/AbstractResults.cpp"]}
{"id": "C04", "title": "Priority summary accounts for the violations", "statement": "The number reported for priority p is exactly the number of reported violations whose rule has priority p. The P1, P2 and P3 numbers add up to the total exactly when every violation has priority 1, 2 or 3; a rule with any other priority (the CUDA branch-divergence rule has priority 10) makes the summary lose violations.", "quantifier": "every list of violations and every priority assignment", "why_tests_cant": "counting identities over arbitrary lists; tests check one summary", "anchors": ["oclint-core/lib/AbstractResults.cpp: numberOfViolationsWithPriority, numberOfViolations", "oclint-rules/rules/cuda/CudaBranchDivergenceRule.cpp: priority"]}
{"id": "C05", "title": "FilesWithViolations counts first paths only", "statement": "The summary's FilesWithViolations is the number of distinct paths of the first violation of each non-empty analysed unit; it never exceeds TotalFiles and is zero exactly when there is no violation. It is not the number of distinct files having a violation: a unit with violations in two files counts once.", "quantifier": "every history of recorded sets", "why_tests_cant": "tests only use one file per unit", "anchors": ["oclint-core/lib/AbstractResults.cpp: numberOfFiles, numberOfFilesWithViolations"]}
{"id": "C06", "title": "Result queries are stable, and stale after late recordings", "statement": "Asking a result object twice with no recording in between gives the same answer. After the first non-empty answer the object never reflects violations recorded later, while an empty answer is recomputed.", "quantifier": "every interleaving of recordings and queries", "why_tests_cant": "interleavings of two operations cannot be enumerated by tests", "anchors": ["oclint-core/lib/UniqueResults.cpp: allViolations, allErrors, allWarnings, allCheckerBugs"]}
{"id": "C07", "title": "A violation without a file is never recorded", "statement": "A rule that reports a violation has it recorded, with exactly the given rule, path, coordinates and message and after all violations recorded before it, if and only if the path is non-empty.", "quantifier": "every sequence of reports made by rules", "why_tests_cant": "tests report one violation", "anchors": ["oclint-core/lib/RuleCarrier.cpp: addViolation"]}
{"id": "C08", "title": "Rule configuration is a last-write-wins map with defaults", "statement": "After any sequence of addConfiguration, removeAll and lookups-with-default, looking a key up with a default yields the last value added for that key since the last removeAll, and the default if there is none; lookups with a default never change later answers and are safe in every state.", "quantifier": "every operation sequence, key, value and default", "why_tests_cant": "state machines need all histories", "anchors": ["oclint-core/lib/RuleConfiguration.cpp"]}
{"id": "C09", "title": "Direct value lookup is neither safe nor read-only", "statement": "RuleConfiguration::valueForKey on a fresh or cleared configuration dereferences a null pointer; on a configuration without the key it answers the empty string and makes hasKey answer true from then on, so that a later stringForKey with a default answers the empty string.", "quantifier": "every configuration state and key", "why_tests_cant": "the unit tests never look up a missing key directly", "anchors": ["oclint-core/lib/RuleConfiguration.cpp: valueForKey, hasKey"]}
{"id": "C10", "title": "Numeric rule thresholds are parsed as decimal integers", "statement": "A rule threshold given as text that is the decimal representation of an int (with optional sign, leading blanks and trailing non-digits) is used with that integer value; a text with no leading number means 0.", "quantifier": "every configuration text", "why_tests_cant": "infinitely many texts", "anchors": ["oclint-core/lib/RuleConfiguration.cpp: intForKey"]}
{"id": "C11", "title": "Rule identifiers are clean camel-case words", "statement": "The identifier a rule gets from its name consists of exactly the letters of the name in order up to case, starts with an upper-case letter unless empty, capitalises every letter following a non-letter, never changes other letters, and is a fixed point (identifier of an identifier is itself).", "quantifier": "every rule name", "why_tests_cant": "infinitely many names", "anchors": ["oclint-core/lib/RuleBase.cpp: identifier"]}
{"id": "C12", "title": "Rule registration and indexing", "statement": "Rules are kept in registration order: index i in range returns the i-th registered rule, any index at or above the number of rules returns no rule; a negative index raises or crashes.", "quantifier": "every registration sequence and every index", "why_tests_cant": "all indices and sequences", "anchors": ["oclint-core/lib/RuleSet.cpp"]}
{"id": "C13", "title": "The rules that run are the enabled, not disabled ones, in load order", "statement": "After any sequence of enable/disable requests, the rules that run are those loaded rules whose identifier is not disabled and, when some rule is enabled, is enabled; they run in load order and with the multiplicity of loading.", "quantifier": "every loaded rule list and request sequence", "why_tests_cant": "set/sequence quantification", "anchors": ["oclint-driver/lib/RulesetFilter.cpp: filteredRules, filteredRuleNames"]}
{"id": "C14", "title": "For each rule name the last enable/disable request wins", "statement": "No rule is both enabled and disabled. A name is enabled (disabled) exactly when the last request mentioning it was enable (disable), whatever requests for other names came between.", "quantifier": "every request sequence and name", "why_tests_cant": "histories", "anchors": ["oclint-driver/lib/RulesetFilter.cpp: enableRule, disableRule"]}
{"id": "C15", "title": "Disabling a rule can switch other rules on", "statement": "One would expect that disabling a rule never makes any other rule run. This fails exactly when the disabled rule was the only enabled one (all other not-disabled rules then start running); in every other case the set of running rules only loses the disabled rule.", "quantifier": "every filter state reachable by requests", "why_tests_cant": "needs the exact boundary over all states", "anchors": ["oclint-driver/lib/RulesetFilter.cpp: disableRule, filteredRules"]}
{"id": "C16", "title": "Option precedence", "statement": "For each of the options output, report type, max P1, max P2, max P3, allow duplicated violations, enable global analysis, enable clang static analyzer: the effective value is the command-line one if given, else the one of the last configuration file that sets it (project over home over installation), else the built-in default.", "quantifier": "every command line and every list of configuration files", "why_tests_cant": "combinations of sources are exponential", "anchors": ["oclint-driver/lib/Options.cpp: updateArgIfSet, processConfigFile, processConfigFiles, configFilePaths", "oclint-driver/lib/ConfigFile.cpp"]}
{"id": "C17", "title": "Rule threshold precedence", "statement": "For every rule-configuration key, the value used is the last -rc value on the command line for it, else the value of the last configuration file that sets it, last entry in that file first, else the rule's default.", "quantifier": "every set of -rc arguments and configuration files", "why_tests_cant": "combinations", "anchors": ["oclint-driver/lib/Options.cpp: process, processConfigFile"]}
{"id": "C18", "title": "Command-line enable/disable overrides configuration files", "statement": "For a rule named on the command line, -disable-rule decides disabled, else -rule decides enabled, regardless of every configuration file; for a rule not on the command line the last configuration file naming it decides, its disable list over its enable list.", "quantifier": "all files and command lines", "why_tests_cant": "combinations", "anchors": ["oclint-driver/lib/Options.cpp: process, processConfigFile"]}
{"id": "C19", "title": "-rc key=value splitting", "statement": "An -rc argument key=value whose value has no '=' sets exactly that key to exactly that value, whatever the key contains; the split is always at the last '='. An argument without '=' sets a key equal to the whole argument to the whole argument.", "quantifier": "every argument string", "why_tests_cant": "infinitely many strings", "anchors": ["oclint-driver/lib/Options.cpp: process"]}
{"id": "C20", "title": "Rule search paths", "statement": "The rule directories searched are those of the command line followed by those of the configuration files in order; only when there are none is the installation's rule directory used.", "quantifier": "all command lines and files", "why_tests_cant": "combinations", "anchors": ["oclint-driver/lib/Options.cpp: rulesPath, processConfigFile"]}
{"id": "C21", "title": "Report destination", "statement": "The report goes to standard output exactly when the output option is '-'; otherwise to the path itself if absolute, else to that path under the initial working directory; an empty output path raises an exception (reported as a reporting error).", "quantifier": "every output option text and working directory", "why_tests_cant": "all strings", "anchors": ["oclint-driver/lib/Options.cpp: hasOutputPath, outputPath", "oclint-driver/main.cpp: outStream"]}
{"id": "C22", "title": "Configuration files cannot express every value", "statement": "An integer limit in a configuration file takes effect for every int value except INT_MIN, and a text option for every text except the empty one; those are indistinguishable from absent.", "quantifier": "every configuration value", "why_tests_cant": "boundary in a 2^32 domain", "anchors": ["oclint-driver/lib/ConfigFile.cpp: createOptionalInt, createOptionalString, createOptionalBool"]}
{"id": "C23", "title": "Exit code decision table", "statement": "The process exit code is: 7 for unusable options; else 1 if rules cannot be loaded or none is loaded; else 2 if the reporter is missing; else 3 if analysis raised; else 4 if reporting raised; else 6 if there is a compilation error; else 5 if a priority limit is exceeded; else 0. Exactly one of them applies and earlier causes hide later ones.", "quantifier": "every outcome of every stage", "why_tests_cant": "the cross product of stage outcomes", "anchors": ["oclint-driver/main.cpp: main, prepare, handleExit", "oclint-driver/include/oclint/ExitCode.h"]}
{"id": "C24", "title": "Success means within limits and compiled", "statement": "If oclint exits 0, then every rule library and the reporter loaded, at least one rule was loaded, the report was written, there was no compilation error and the number of reported violations of priority 1, 2, 3 is at most the respective limit (limits are inclusive); and conversely.", "quantifier": "every run", "why_tests_cant": "an iff over all runs", "anchors": ["oclint-driver/main.cpp: numberOfViolationsExceedThreshold, handleExit"]}
{"id": "C25", "title": "Limits are monotone", "statement": "Raising any limit never turns an exit 0 run into a failing one; lowering never turns exit 5 into exit 0; recording more violations never turns exit 5 into exit 0; switching duplicates on never turns exit 5 into exit 0.", "quantifier": "all pairs of runs", "why_tests_cant": "relational (two runs)", "anchors": ["oclint-driver/main.cpp: numberOfViolationsExceedThreshold, handleExit, getResults"]}
{"id": "C26", "title": "Rule loading is all or error", "statement": "A rule directory that cannot be opened is ignored; in readable directories every entry not starting with '.' is loaded in order, and the first one that cannot be loaded stops loading with an error naming its path, leaving exactly the rules loaded before it registered.", "quantifier": "every directory content and load outcome", "why_tests_cant": "all directory listings", "anchors": ["oclint-driver/rules_dlfcn_port.cpp: dynamicLoadRules", "oclint-driver/main.cpp: consumeArgRulesPath"]}
{"id": "C27", "title": "Reporter selection", "statement": "The reporter used is the first library entry whose name equals the requested report type; entries after it are not touched; if none matches, or an entry before it cannot be opened, there is an error and no reporter.", "quantifier": "every directory content and requested type", "why_tests_cant": "all listings", "anchors": ["oclint-driver/reporters_dlfcn_port.cpp: loadReporter"]}
{"id": "C28", "title": "One report per completed analysis", "statement": "The reporter runs at most once per process, exactly when option parsing, loading and analysis have all completed, and it sees the results of the whole analysis; if analysis fails no report is written.", "quantifier": "every run", "why_tests_cant": "all stage outcomes", "anchors": ["oclint-driver/main.cpp: main, report"]}
{"id": "C29", "title": "Every compile command is processed exactly once, in order", "statement": "Each source file given contributes one unit per compile command the database has for it, in the order of the sources and of the database; a file without command contributes none and is announced on stderr, the others are unaffected.", "quantifier": "every source list and compilation database", "why_tests_cant": "all databases", "anchors": ["oclint-driver/lib/Driver.cpp: constructCompileCommands"]}
{"id": "C30", "title": "Command line given to the front end", "statement": "In normal mode the arguments handed to the compiler are the tool's executable, then the original arguments except '-gmodules' in order, then -D__OCLINT__ and nothing else.", "quantifier": "every command line", "why_tests_cant": "all argument vectors", "anchors": ["oclint-driver/lib/Driver.cpp: newCompilerInvocation, constructCompilers"]}
{"id": "C31", "title": "Command line for the static analyzer", "statement": "With the clang static analyzer the arguments are executable, --analyze, the original arguments without the first and the last one and without '-gmodules', then -D__OCLINT__; for a one-element command line the copying loop runs past the end (undefined behaviour).", "quantifier": "every command line", "why_tests_cant": "all argument vectors including degenerate ones", "anchors": ["oclint-driver/lib/Driver.cpp: newCompilerInvocation"]}
{"id": "C32", "title": "Path substitution in compile commands", "statement": "Replacing a non-empty placeholder in a string replaces all its non-overlapping occurrences, scanning left to right and never re-examining inserted text; the scan terminates for every replacement text, including one containing the placeholder; a string without the placeholder is unchanged. An empty placeholder makes the scan run for ever.", "quantifier": "all strings, placeholders and replacements", "why_tests_cant": "infinitely many; termination", "anchors": ["oclint-driver/lib/Driver.cpp: stringReplace"]}
{"id": "C33", "title": "Only one clang job is accepted", "statement": "A compilation is analysed only if the driver produces exactly one job (or several when one is an offloading action) and the first one is a command of the clang tool; every other job list raises an error, which names the jobs unless the first job is a command of another tool, and the arguments used are exactly those of the first job.", "quantifier": "every job list", "why_tests_cant": "all job lists", "anchors": ["oclint-driver/lib/Driver.cpp: getCC1Arguments"]}
{"id": "C34", "title": "A unit that does not compile is never analysed by rules", "statement": "Rules are applied exactly to those units that compiled without error and have an AST, in command order; a unit with errors contributes no rule violation and does not prevent the others; a failing directory change aborts the analysis.", "quantifier": "every list of commands and compile outcomes", "why_tests_cant": "all lists of outcomes", "anchors": ["oclint-driver/lib/Driver.cpp: constructCompilers, invoke, run"]}
{"id": "C35", "title": "Global analysis changes grouping only", "statement": "When no step raises, analysing all units together and analysing them one by one record the same violations for the same units in the same order.", "quantifier": "every list of commands", "why_tests_cant": "relational over two modes", "anchors": ["oclint-driver/lib/Driver.cpp: run, invoke"]}
{"id": "C36", "title": "Diagnostics go to exactly one bucket by severity", "statement": "In normal mode each compiler diagnostic of level warning becomes exactly one warning and each of level error or fatal exactly one error, others none; in static-analyzer mode every diagnostic becomes one checker bug and none a warning or error; each carries the presumed line and column and never a rule. In a completed run with the static analyzer enabled, errors and warnings come from the first pass and bugs from the second; compared with the same run without it, only bugs are added provided the first pass goes the same with both front-end actions.", "quantifier": "every diagnostic sequence", "why_tests_cant": "all sequences", "anchors": ["oclint-driver/lib/DiagnosticDispatcher.cpp", "oclint-driver/lib/CompilerInstance.cpp: getFrontendAction"]}
{"id": "C37", "title": "One result set per analysed unit", "statement": "Analysing n translation units adds exactly n violation sets, one per unit and in order, including empty ones; each holds what the active rules reported for that unit in rule order.", "quantifier": "every rule list and unit list", "why_tests_cant": "all lists", "anchors": ["oclint-driver/lib/RulesetBasedAnalyzer.cpp: analyze"]}
{"id": "C38", "title": "Source lines are delivered completely and numbered from 1", "statement": "A line-based rule sees, for every file content, the lines in order with numbers 1,2,3,...; the lines contain no newline and joining them with newlines gives back the content up to one final newline; a final newline produces no extra line.", "quantifier": "every file content", "why_tests_cant": "infinitely many texts", "anchors": ["oclint-rules/lib/AbstractSourceCodeReaderRule.cpp: apply"]}
{"id": "C39", "title": "Long-line rule is exact", "statement": "The long-line rule reports exactly the lines whose length exceeds the limit, once each, in order, spanning column 1 to the line length, unless suppressed; a line of exactly the limit is not reported.", "quantifier": "every content and limit", "why_tests_cant": "all texts", "anchors": ["oclint-rules/rules/size/LongLineRule.cpp: eachLine"]}
{"id": "C40", "title": "Annotation matching", "statement": "A plain annotation matches only itself; an annotation with a bracketed rule name matches exactly those annotation texts that begin with it; the comment extracted is the text between the brackets following it.", "quantifier": "every annotation text", "why_tests_cant": "all strings", "anchors": ["oclint-rules/lib/helper/AttributeHelper.cpp: attributeHasAnnotation"]}
{"id": "C41", "title": "Suppression by annotation is per rule", "statement": "A declaration annotated oclint:suppress hides the violations of every rule in it; oclint:suppress[name] hides exactly those of rules with that name.", "quantifier": "every annotation set and rule", "why_tests_cant": "all combinations", "anchors": ["oclint-rules/lib/helper/SuppressHelper.cpp: markedAsSuppress", "oclint-rules/lib/helper/AttributeHelper.cpp"]}
{"id": "C42", "title": "Suppression is inherited along the enclosing declarations", "statement": "A node's violation is hidden exactly when the node itself or a declaration on the chain of its first parents carries a matching suppression; statements on the chain never hide.", "quantifier": "every parent chain", "why_tests_cant": "unbounded depth", "anchors": ["oclint-rules/lib/helper/SuppressHelper.cpp: markedParentsAsSuppress, shouldSuppress"]}
{"id": "C43", "title": "Line comments suppress their line, whatever the file", "statement": "A //!OCLINT comment hides the violations whose start line is the comment's line. Because only line numbers of the main file are compared, a violation in another file on a line of the same number is hidden too.", "quantifier": "every comment set and violation location", "why_tests_cant": "needs the exact set of hidden locations", "anchors": ["oclint-rules/lib/helper/SuppressHelper.cpp: lineBasedShouldSuppress"]}
{"id": "C44", "title": "Range suppression leaks between rules", "statement": "For line-based rules, the ranges of declarations suppressed for the first rule that asks about a file are reused for every later rule on that file: a rule-specific suppression of one rule may hide another rule's violations and a rule-specific suppression of a later rule is ignored. The answer is right when all rules agree on the suppressed ranges.", "quantifier": "every sequence of queries by rules on files", "why_tests_cant": "cache histories", "anchors": ["oclint-rules/lib/helper/SuppressHelper.cpp: rangeBasedShouldSuppress"]}
{"id": "C45", "title": "Language gating", "statement": "Outside CUDA units, a rule inspects a unit only if it supports host code and the unit's language, taken as Objective-C if ObjC is on, else C++ if C++ is on, else C if C99 is on, else none; a rule that does not reports nothing and is not set up. (CUDA units are not gated by language, see C46.)", "quantifier": "every language mode combination and rule", "why_tests_cant": "all combinations", "anchors": ["oclint-rules/lib/AbstractASTRuleBase.cpp: isLanguageSupported", "oclint-rules/include/oclint/AbstractASTVisitorRule.h: apply, applyC"]}
{"id": "C46", "title": "Only main-file declarations are inspected, CUDA kernels by opt-in", "statement": "A visitor rule traverses exactly the top-level declarations located in the main file, in order; in CUDA units kernels only for rules supporting kernels, other functions only for rules supporting host code, all other declarations always.", "quantifier": "every declaration list", "why_tests_cant": "all lists", "anchors": ["oclint-rules/include/oclint/AbstractASTVisitorRule.h: applyC, applyCUDA, applyCUDADecl, isValidDecl"]}
{"id": "C47", "title": "Cyclomatic complexity counts decision points", "statement": "The cyclomatic complexity of a declaration is one plus the number of if, for, fast-enumeration, while, do, case, catch, conditional operators and short-circuit operators anywhere in it; it is at least 1, nesting adds up, and default labels, range-for and else do not count.", "quantifier": "every syntax tree", "why_tests_cant": "unbounded trees", "anchors": ["oclint-metrics/lib/CyclomaticComplexityMetric.cpp"]}
{"id": "C48", "title": "NPath complexity follows its recurrences", "statement": "NPath of a block is the product over its statements, of an if/loop the sum of condition operators, branches and the fall-through path, of a switch the sum over its case groups of products; a block of statements without control flow has NPath 1; NPath of every statement is non-negative.", "quantifier": "every syntax tree", "why_tests_cant": "unbounded trees", "anchors": ["oclint-metrics/lib/NPathComplexityMetric.cpp"]}
{"id": "C49", "title": "NPath can be zero and can overflow", "statement": "One would expect NPath at least 1. It is 0 for an empty switch, hence 0 for any block containing one however complex the rest; without empty-bodied switches it is at least 1. The mathematical value exceeds int after 31 two-way ifs in sequence, so the int computation overflows for some functions.", "quantifier": "every syntax tree", "why_tests_cant": "existence/absence over unbounded trees", "anchors": ["oclint-metrics/lib/NPathComplexityMetric.cpp: nPath(SwitchStmt*), nPath(CompoundStmt*)"]}
{"id": "C50", "title": "NCSS counts statements once", "statement": "The NCSS count of a function with a body is one plus the sum of the contributions of the statements in it (null statements and braces zero, do and else one extra); it is additive over blocks and never negative; a declaration without body counts 0.", "quantifier": "every syntax tree", "why_tests_cant": "unbounded trees", "anchors": ["oclint-metrics/lib/NcssMetric.cpp"]}
{"id": "C51", "title": "Block depth is the maximal brace nesting", "statement": "The depth of a statement equals the largest number of nested brace blocks met on a path from it through control statements; it grows by one per enclosing block and is monotone in sub-statements.", "quantifier": "every syntax tree", "why_tests_cant": "unbounded trees", "anchors": ["oclint-metrics/lib/StmtDepthMetric.cpp"]}
{"id": "C52", "title": "Size rules compare strictly with the configured limit", "statement": "Each size rule (cyclomatic complexity, NPath, NCSS, block depth, method length, class length, fields, methods, parameters) reports exactly the declarations whose measure is strictly greater than the limit in force, each once, and states measure and limit in the message; for the parameter rule a negative limit is read as a huge unsigned number so nothing is reported.", "quantifier": "every measure and limit", "why_tests_cant": "all limits incl. negative ones", "anchors": ["oclint-rules/rules/size/*.cpp"]}
{"id": "C53", "title": "Statement rules examine every node of the tree", "statement": "A visitor rule is offered every node of each inspected declaration exactly once, in depth-first order, at any depth; hence each pattern rule below reports a node iff its pattern holds there.", "quantifier": "every syntax tree", "why_tests_cant": "unbounded trees", "anchors": ["oclint-rules/include/oclint/AbstractASTVisitorRule.h", "oclint-rules/rules/**: Visit*"]}
{"id": "C54", "title": "Empty-block rules", "statement": "The empty-statement rules report exactly the bodies of the respective construct (if, else, while, do, for, switch, try, catch, finally) that are a lone semicolon or a block without statements.", "quantifier": "every syntax tree", "why_tests_cant": "unbounded trees", "anchors": ["oclint-rules/rules/abstract/AbstractEmptyBlockStmtRule.h", "oclint-rules/rules/empty/*.cpp"]}
{"id": "C55", "title": "Collapsible-if rule is sound and exact", "statement": "An if is reported exactly when it has no else and its then branch is, directly or as the only statement of a block, an if without else; merging the two conditions with && then preserves the behaviour of the statement from every entry point, provided the inner if declares nothing in its condition; with such a declaration the rule still reports but merging changes behaviour.", "quantifier": "every syntax tree and every evaluation of the conditions", "why_tests_cant": "semantic equivalence over all evaluations", "anchors": ["oclint-rules/rules/basic/CollapsibleIfStatementsRule.cpp"]}
{"id": "C56", "title": "Dead-code rule is sound without labels", "statement": "Per block at most one statement is reported as dead code: the first statement without label that follows a statement which always jumps away. It is never reached by any run of any function body, for every meaning of the expressions, provided the statement before it bears no label but case labels at its start; with a nested label a reported statement can be reached.", "quantifier": "every block and every execution", "why_tests_cant": "all executions", "anchors": ["oclint-rules/rules/basic/DeadCodeRule.cpp"]}
{"id": "C57", "title": "Missing-break rule", "statement": "The body of a switch falls uniquely into case groups (a labelled statement and the unlabelled ones after it). A group is terminated when a break, continue, return or throw is found anywhere in its labelled statement, as a later statement of the group, or anywhere in a later block of it. A switch with only terminated groups is never reported; otherwise it is reported, twice when another group follows the first unterminated one. A break of a loop inside a case therefore hides a fall-through, and a group ending in goto or in an if whose branches both return is reported though it cannot fall through.", "quantifier": "every switch body", "why_tests_cant": "all bodies", "anchors": ["oclint-rules/rules/convention/MissingBreakInSwitchStatementRule.cpp"]}
{"id": "C58", "title": "Switch default rules are consistent", "statement": "A switch is reported as missing default exactly when it has no default label of its own (labels of nested switches do not count) and does not cover its enum; as having an unnecessary default exactly when it has one and covers its enum; never both; the default is reported as misplaced exactly when only case labels, at least one, follow it in the source, provided no label stands directly behind a default label (`default: case 1:` is not reported).", "quantifier": "every switch", "why_tests_cant": "all label lists and nestings", "anchors": ["oclint-rules/rules/convention/SwitchStatementsShouldHaveDefaultRule.cpp", "oclint-rules/rules/convention/CoveredSwitchStatementsDontNeedDefaultRule.cpp", "oclint-rules/rules/convention/DefaultLabelNotLastInSwitchStatementRule.cpp"]}
{"id": "C59", "title": "Too-few-branches counts nested cases", "statement": "A switch is reported exactly when the number of case labels anywhere inside it, nested switches included, is below the limit; so a switch with too few own cases escapes if a nested switch has enough.", "quantifier": "every switch", "why_tests_cant": "unbounded nesting", "anchors": ["oclint-rules/rules/convention/TooFewBranchesInSwitchStatementRule.cpp"]}
{"id": "C60", "title": "Unnecessary-else reports each chain once, and soundly", "statement": "For each maximal if/else-if chain at most one violation is reported, at its final else, exactly when every earlier branch always returns. Putting the else statement behind the chain preserves behaviour, provided no branch contains a label and there are no condition variables.", "quantifier": "every set of trees of a unit, every block, every execution and meaning of expressions", "why_tests_cant": "visited-set histories, all trees, statement semantics", "anchors": ["oclint-rules/rules/redundant/UnnecessaryElseStatementRule.cpp"]}
{"id": "C61", "title": "Redundant if / redundant conditional", "statement": "An if is reported as redundant exactly when both branches return opposite boolean literals, or are binary operators with opposite boolean literals on the right; a conditional operator exactly when its branches are opposite booleans, the same constant or the same variable. Swapping the branches never changes whether it is reported. An if that returns opposite literals behaves as returning its condition (or its negation); so does the conditional operator.", "quantifier": "every tree; every execution", "why_tests_cant": "all expressions, semantics", "anchors": ["oclint-rules/rules/redundant/RedundantIfStatementRule.cpp", "oclint-rules/rules/redundant/RedundantConditionalOperatorRule.cpp"]}
{"id": "C62", "title": "Negation rules see through any parentheses", "statement": "A unary operator is reported as double negative exactly when its operand, after removing any number of parentheses, is the same kind of negation; every double negative is also a multiple unary operator violation.", "quantifier": "every expression, any parenthesis depth", "why_tests_cant": "unbounded nesting", "anchors": ["oclint-rules/rules/basic/DoubleNegativeRule.cpp", "oclint-rules/rules/basic/MultipleUnaryOperatorRule.cpp"]}
{"id": "C63", "title": "Short-variable-name rule", "statement": "A variable whose non-empty name is shorter than the limit is reported, in source order, unless it is exempt as variable of the closest loop or catch head before it in traversal order: a short name declared in no head is always reported, and the variables of a head are not if they are all short. The exemption is lost for a later variable of a head when an earlier one has a long name, and what one unit leaves behind can suppress a report in the next.", "quantifier": "every list of top-level trees, limit and leftover of earlier units", "why_tests_cant": "stateful visitor over all trees", "anchors": ["oclint-rules/rules/naming/ShortVariableNameRule.cpp"]}
{"id": "C64", "title": "Long-variable-name rule", "statement": "A variable is reported exactly when its name is longer than the limit; the message shows the whole name up to ten extra characters, else its first limit+3 characters, dots and its last three, which is shorter than the name; for limits below -8 the shortening throws on names shorter than three characters.", "quantifier": "every tree, name and limit", "why_tests_cant": "boundaries over all lengths and limits", "anchors": ["oclint-rules/rules/naming/LongVariableNameRule.cpp"]}
{"id": "C65", "title": "Null-check rules are symmetric in operand order", "statement": "p != NULL and NULL != p (and the == forms) are recognised alike; a broken or misplaced null check is reported only if the checked variable is dereferenced on the other side of the operator.", "quantifier": "every expression", "why_tests_cant": "all expressions", "anchors": ["oclint-rules/rules/abstract/AbstractNullCheckRule.h", "oclint-rules/rules/basic/BrokenNullCheckRule.cpp", "oclint-rules/rules/basic/MisplacedNullCheckRule.cpp"]}
{"id": "C66", "title": "Text and Xcode reports list every violation", "statement": "The Xcode report is the concatenation, in order, of one line path:line:col: warning: name [category|Pn] message per violation and nothing else; the text report lists every violation once between header and footer with matching summary numbers, and errors, warnings and bugs exactly when there are some. Numbers are plain decimals. If no message contains a line feed (and paths no colon), the entries can be read back from the report: equal reports mean equal entries. A line feed in a message makes one violation look like two.", "quantifier": "every result set", "why_tests_cant": "all result lists", "anchors": ["oclint-reporters/reporters/TextReporter.cpp", "oclint-reporters/reporters/XcodeReporter.cpp"]}
{"id": "C67", "title": "JSON report is valid JSON for plain texts and lossless", "statement": "If no path, name, category or message contains a quote, backslash or control character, the JSON report is a JSON document (in exactly one way) and gives back exactly the violations, clang bugs and file counts; otherwise, because nothing is escaped, the report can fail to be JSON, and a chosen message can make one result look like two.", "quantifier": "every result list", "why_tests_cant": "round trip over all lists; parser", "anchors": ["oclint-reporters/reporters/JSONReporter.cpp"]}
{"id": "C68", "title": "XML-family escaping", "statement": "The PMD report escapes messages: the escaped text contains no markup character and reads back as the message, so that for plain paths and rule names the report is an XML document giving back every finding; paths are not escaped and can make it malformed. The XML report is an XML document giving back violations, bugs, counts and date when all texts are plain; nothing is escaped there, so a message containing '<' makes it malformed.", "quantifier": "every message", "why_tests_cant": "all strings", "anchors": ["oclint-reporters/reporters/PMDReporter.cpp: xmlEscape, writeViolation", "oclint-reporters/reporters/XMLReporter.cpp"]}
{"id": "C69", "title": "XML report date", "statement": "The XML report's date shows a month one less than the actual one (00 for January), all other fields being right; it is never the right date.", "quantifier": "every time", "why_tests_cant": "all times", "anchors": ["oclint-reporters/reporters/XMLReporter.cpp: writeDatetime"]}
{"id": "C70", "title": "Unused local variables and the exemption list", "statement": "The configured lists of exempt classes are split at commas, semicolons, blanks and tabs into exactly the maximal separator-free words; an unused, unreferenced, named local variable outside templates is reported exactly unless its type's name without template arguments and leading qualifiers is one of these words. As everything behind the template arguments is cut off, pointers to and types nested in exempt class templates are exempt too.", "quantifier": "every tree, configuration text and type name", "why_tests_cant": "all strings", "anchors": ["oclint-rules/rules/unused/UnusedLocalVariableRule.cpp: splitClasses, isRAIIClass"]}
{"id": "C71", "title": "Feature envy compares with own class", "statement": "An Objective-C method of a class is reported exactly once for each class it addresses (explicit messages to instances or to the class, instance variables, property reads and writes) strictly more often than its own class; its own class is never reported, a method that addresses nobody is never reported, and the enumeration order of the counters only permutes the reports.", "quantifier": "every syntax tree, every enumeration order of the hash table", "why_tests_cant": "all multisets of messages and all hash table orders", "anchors": ["oclint-rules/rules/design/FeatureEnvyRule.cpp: MessageAnalyzer, VisitObjCMethodDecl"]}
{"id": "C72", "title": "Base-class destructor rule", "statement": "For a polymorphic class exactly those public bases, direct or reached through non-polymorphic public bases, are reported whose destructor is neither virtual nor protected.", "quantifier": "every inheritance graph", "why_tests_cant": "unbounded hierarchies", "anchors": ["oclint-rules/rules/convention/BaseClassDestructorShouldBeVirtualOrProtectedRule.cpp"]}
{"id": "C73", "title": "Rule documentation index", "statement": "The documentation generator lists every loaded rule exactly once, on the page of its category; pages are in strictly ascending category order, the rules of a page ascend by identifier, the index states the number of rules and lists the pages, every page has exactly the documented text, and no other file is touched. With distinct identifiers the result does not depend on the sorting algorithm. When loading fails nothing is written. (Findings: a category named 'index' destroys the index; success is claimed even if nothing could be written.)", "quantifier": "every list of rules, every file system, every sorting algorithm satisfying the standard", "why_tests_cant": "all rule lists and categories", "anchors": ["oclint-driver/main_docgen.cpp", "oclint-core/lib/RuleBase.cpp"]}
{"id": "C74", "title": "Bitwise operators in conditions", "statement": "The condition of an if, while, do or conditional operator is reported exactly when &, | or ^ occurs anywhere in it; nothing else is reported.", "quantifier": "every syntax tree", "why_tests_cant": "unbounded depth of conditions", "anchors": ["oclint-rules/rules/basic/BitwiseOperatorInConditionalRule.cpp", "oclint-core/lib/AbstractASTMatcherRule.cpp"]}
{"id": "C75", "title": "Broken oddness check", "statement": "Exactly the comparisons e % 2 == 1 and 1 == e % 2 are reported, independent of operand order; the reported test is wrong exactly for negative odd numbers.", "quantifier": "every expression, every integer", "why_tests_cant": "all expressions and integers", "anchors": ["oclint-rules/rules/basic/BrokenOddnessCheckRule.cpp"]}
{"id": "C76", "title": "For loop should be while loop", "statement": "Exactly the for loops with a condition but neither init statement nor increment are reported, and writing such a loop as a while loop preserves every execution.", "quantifier": "every tree, every execution", "why_tests_cant": "semantic equivalence over all executions", "anchors": ["oclint-rules/rules/basic/ForLoopShouldBeWhileLoopRule.cpp"]}
{"id": "C77", "title": "Jumbled incrementer", "statement": "An increment is reported exactly when it is the increment of a for loop that is the only statement of another for loop and it steps the single variable that loop declares.", "quantifier": "every tree", "why_tests_cant": "unbounded trees, identity of variables", "anchors": ["oclint-rules/rules/basic/JumbledIncrementerRule.cpp"]}
{"id": "C78", "title": "Leaving a finally block", "statement": "For each finally block every return (respectively throw and exception-raising message) inside it is reported, in order, and nothing else; a return inside two nested finally blocks is reported twice.", "quantifier": "every tree", "why_tests_cant": "unbounded nesting", "anchors": ["oclint-rules/rules/basic/ReturnFromFinallyBlockRule.cpp", "oclint-rules/rules/basic/ThrowExceptionFromFinallyBlockRule.cpp"]}
{"id": "C79", "title": "Constant conditions and goto", "statement": "Exactly the conditions of ifs and conditional operators the compiler can fold are reported by the respective rule, for every folding function, and exactly the goto statements by the goto rule.", "quantifier": "every tree and folding function", "why_tests_cant": "unbounded trees", "anchors": ["oclint-rules/rules/basic/ConstantConditionalOperatorRule.cpp", "oclint-rules/rules/basic/ConstantIfExpressionRule.cpp", "oclint-rules/rules/basic/GotoStatementRule.cpp"]}
{"id": "C80", "title": "Non-case labels in switches", "statement": "For each switch every goto label anywhere inside it is reported; a label inside nested switches is reported once per switch around it.", "quantifier": "every syntax tree", "why_tests_cant": "unbounded nesting", "anchors": ["oclint-rules/rules/convention/NonCaseLabelInSwitchStatementRule.cpp"]}
{"id": "C81", "title": "Inverted-logic advice is safe", "statement": "The condition of an if with else, or of a choice expression, is reported exactly when it is a negation or an inequality; swapping the branches and dropping the negation keeps the behaviour for every meaning of the parts.", "quantifier": "every syntax tree, every semantics of atomic expressions, every entry into the statement", "why_tests_cant": "all trees and all executions", "anchors": ["oclint-rules/rules/convention/InvertedLogicRule.cpp"]}
{"id": "C82", "title": "Early-exit advice is safe", "statement": "Exactly the ifs without else that are longer than the limit and end a loop body, or stand before the final jump of a block, are reported, with the rule's message; replacing `if (c) t` by `if (!c) continue; t` respectively `if (!c) jump; t; jump` keeps the behaviour of the loop or block.", "quantifier": "every syntax tree and configuration, every semantics of atomic expressions", "why_tests_cant": "all trees and all executions, including unending ones", "anchors": ["oclint-rules/rules/convention/PreferEarlyExitRule.cpp"]}
{"id": "C83", "title": "Branching statement last in loop", "statement": "A break, continue or return is reported exactly when it is the last statement of the block that is the body of a for, while, do or for-in loop; a reported continue can be replaced by an empty statement without changing what the loop does.", "quantifier": "every syntax tree, every semantics of atomic expressions", "why_tests_cant": "all trees and executions", "anchors": ["oclint-rules/rules/convention/AvoidBranchingStatementAsLastInLoopRule.cpp"]}
{"id": "C84", "title": "Parameter reassignment is by name", "statement": "Inside each function or Objective-C method exactly the plain assignments whose left side is a reference to something called like one of its named parameters are reported; so an assignment to a local variable that hides a parameter is reported too.", "quantifier": "every syntax tree", "why_tests_cant": "all trees", "anchors": ["oclint-rules/rules/convention/ParameterReassignmentRule.cpp"]}
{"id": "C85", "title": "Destructor of virtual class", "statement": "A class definition is reported exactly when it is polymorphic and has no virtual destructor, with a message naming it.", "quantifier": "every class", "why_tests_cant": "all classes", "anchors": ["oclint-rules/rules/convention/DestructorOfVirtualClassRule.cpp"]}
{"id": "C86", "title": "Ivar assignment outside accessors", "statement": "In each method every ivar reference in the assigned part of an assignment is reported, except when the selector is the ivar's name without underscores, is `set` + that name capitalised + `:`, or begins with `init`.", "quantifier": "every method body and selector", "why_tests_cant": "all names and trees", "anchors": ["oclint-rules/rules/convention/ObjCAssignIvarOutsideAccessorsRule.cpp", "oclint-rules/lib/util/StdUtil.cpp"]}
{"id": "C87", "title": "Branch divergence", "statement": "Exactly the if statements with an else branch are reported.", "quantifier": "every syntax tree", "why_tests_cant": "all trees", "anchors": ["oclint-rules/rules/cuda/CudaBranchDivergenceRule.cpp"]}
{"id": "C88", "title": "Redundant local variable", "statement": "A block is reported exactly when it ends with the declaration of a single entity followed by a return of a reference to the same name; the declared entity is what is reported.", "quantifier": "every tree", "why_tests_cant": "all trees", "anchors": ["oclint-rules/rules/redundant/RedundantLocalVariableRule.cpp"]}
{"id": "C89", "title": "Useless parentheses", "statement": "Parentheses are reported exactly when they enclose the whole of an if condition, a returned value or an initial value; without them an if or a return behaves the same.", "quantifier": "every tree; every execution", "why_tests_cant": "all trees, semantics", "anchors": ["oclint-rules/rules/redundant/UselessParenthesesRule.cpp"]}
{"id": "C90", "title": "Unnecessary null check before delete", "statement": "An if is reported exactly when it has no else, its condition tests a pointer for not being null (in either operand order or bare), and its branch only deletes that pointer, optionally setting it to null afterwards. Where the test has no effect and the branch does nothing on null, dropping the check preserves behaviour.", "quantifier": "every tree; every execution; every notion of equal expressions", "why_tests_cant": "all expressions, semantics", "anchors": ["oclint-rules/rules/redundant/UnnecessaryNullCheckForCXXDeallocRule.cpp", "oclint-rules/lib/util/ASTUtil.cpp"]}
{"id": "C91", "title": "Redundant nil check", "statement": "A conjunction is reported exactly when its left side tests a variable for not being nil and the right side, unless it is a negation, sends it a message. Dropping the check preserves the value if the right side is false on nil.", "quantifier": "every expression; every evaluation", "why_tests_cant": "all expressions, semantics", "anchors": ["oclint-rules/rules/redundant/RedundantNilCheckRule.cpp", "oclint-rules/rules/abstract/AbstractNullCheckRule.h"]}
{"id": "C92", "title": "Unused-parameter rule", "statement": "A named parameter is reported exactly when it is unused, not marked unused, outside templates, and nothing around it obliges the function to have it: no declaration without body, virtual function, interface, superclass or protocol method, IBAction, closure or class. So a parameter of a function defined inside a class body is never reported.", "quantifier": "every tree and every chain of lexical contexts", "why_tests_cant": "all trees and context chains", "anchors": ["oclint-rules/rules/unused/UnusedMethodParameterRule.cpp"]}
{"id": "C93", "title": "HTML report", "statement": "The HTML report has a summary row with the counts and one table row per violation, error, warning and bug, in order. If no text contains '<', the entries and file counts can be read back; markup in a message can make two different results give the same page.", "quantifier": "every result set, every page head and date text", "why_tests_cant": "all result lists and texts", "anchors": ["oclint-reporters/reporters/HTMLReporter.cpp"]}
{"id": "C94", "title": "JSON timestamp wraps", "statement": "The JSON report's timestamp is the current time reduced to 32 bits: it equals the time exactly as long as that fits a 32-bit int, and is negative from 2^31 (year 2038) on.", "quantifier": "every time", "why_tests_cant": "all times", "anchors": ["oclint-reporters/reporters/JSONReporter.cpp: writeHeader"]}
{"id": "C95", "title": "Reporters on violations without a rule", "statement": "When every violation has a rule, each of the six reporters produces one determined text; when some violation has none, the text, Xcode, JSON, XML and HTML reporters have undefined behaviour and the PMD reporter still writes a report.", "quantifier": "every result set", "why_tests_cant": "all result lists", "anchors": ["oclint-reporters/reporters/*.cpp", "oclint-core/lib/ViolationSet.cpp"]}
{"id": "C96", "title": "Compiler diagnostics are left out of Xcode, JSON and XML reports", "statement": "Two results that agree on violations, clang bugs and file counts get the same Xcode, JSON and XML reports whatever compiler errors and warnings they carry.", "quantifier": "every pair of result sets", "why_tests_cant": "relation between two runs", "anchors": ["oclint-reporters/reporters/JSONReporter.cpp: report", "oclint-reporters/reporters/XMLReporter.cpp: report", "oclint-reporters/reporters/XcodeReporter.cpp: report"]}
{"id": "C97", "title": "Exit code agrees with the printed report", "statement": "A run that finished (exit code 0, 5 or 6) with the text reporter to standard output has printed the text report of what the analysis collected; the code is 6 exactly when that report lists a compiler error, and 0 exactly when it lists none and the P1, P2 and P3 numbers it shows are within the configured limits.", "quantifier": "every run", "why_tests_cant": "all runs end to end", "anchors": ["oclint-driver/main.cpp", "oclint-reporters/reporters/TextReporter.cpp"]}
{"id": "C98", "title": "Default arguments on virtual methods", "statement": "Exactly the C++ member functions that are virtual and have a parameter with a default argument are reported, once each, in source order.", "quantifier": "every syntax tree", "why_tests_cant": "all trees", "anchors": ["oclint-rules/rules/design/AvoidDefaultArgumentsOnVirtualMethodsRule.cpp"]}
{"id": "C99", "title": "Private static members", "statement": "Exactly the private static data members and the private static member functions are reported, once each, in source order.", "quantifier": "every syntax tree", "why_tests_cant": "all trees", "anchors": ["oclint-rules/rules/design/AvoidPrivateStaticMembersRule.cpp"]}
{"id": "C100", "title": "isEqual: without hash", "statement": "A class implementation is reported exactly when its instance methods include isEqual: and not hash.", "quantifier": "every syntax tree", "why_tests_cant": "all trees", "anchors": ["oclint-rules/rules/cocoa/ObjCVerifyIsEqualHashRule.cpp: VisitObjCImplementationDecl"]}
{"id": "C101", "title": "Methods that must call super", "statement": "A method is reported exactly when it overrides a method annotated oclint:enforce[base method] (on the declaration, its property, protocol or categories) and contains no message to super, as an instance, with its own selector.", "quantifier": "every syntax tree with annotations", "why_tests_cant": "all trees and annotations", "anchors": ["oclint-rules/rules/cocoa/ObjCVerifyMustCallSuperRule.cpp: declRequiresSuperCall, VisitObjCMethodDecl", "oclint-rules/lib/helper/EnforceHelper.cpp: declHasEnforceAttribute"]}
{"id": "C102", "title": "Calls of prohibited methods and functions", "statement": "A call is reported exactly when the called function or method, or what it redeclares, is annotated oclint:enforce[prohibited method]; the message names it, and recommends the bracketed text of the first such annotation if there is one.", "quantifier": "every syntax tree with annotations", "why_tests_cant": "all trees and annotations", "anchors": ["oclint-rules/rules/cocoa/ObjCVerifyProhibitedCallRule.cpp: VisitCallExpr, VisitObjCMessageExpr", "oclint-rules/lib/helper/AttributeHelper.cpp: attributeHasAnnotation, declHasActionAttribute"]}
{"id": "C103", "title": "Calls of protected methods", "statement": "Within each class implementation, exactly the messages to methods annotated oclint:enforce[protected method] are reported whose receiver's static class is neither the implemented class nor one of its superclasses; the analysis ends normally unless such a method belongs to a protocol.", "quantifier": "every syntax tree with annotations", "why_tests_cant": "all trees, annotations and class hierarchies", "anchors": ["oclint-rules/rules/cocoa/ObjCVerifyProtectedMethodRule.cpp: CheckMethodsInsideClass, VisitObjCImplementationDecl", "oclint-rules/lib/util/ASTUtil.cpp: isObjCInterfaceClassOrSubclass"]}
{"id": "C104", "title": "Abstract methods must be implemented", "statement": "A class implementation is reported once for each method of its direct superclass annotated oclint:enforce[abstract method] that it does not implement with the same selector and kind (instance or class), in the superclass's order, and for nothing else.", "quantifier": "every syntax tree with annotations", "why_tests_cant": "all trees and annotations", "anchors": ["oclint-rules/rules/cocoa/ObjCVerifySubclassMustImplementRule.cpp: VisitObjCImplementationDecl"]}
{"id": "C105", "title": "Migration rules", "statement": "Each migration rule reports exactly the messages it can rewrite: boxed expressions, number literals, container literals and object subscripting, by receiver class, selector, and kind and type of the argument or receiver.", "quantifier": "every syntax tree", "why_tests_cant": "all trees", "anchors": ["oclint-rules/rules/migration/ObjCBoxedExpressionsRule.cpp", "oclint-rules/rules/migration/ObjCNSNumberLiteralsRule.cpp", "oclint-rules/rules/migration/ObjCContainerLiteralsRule.cpp", "oclint-rules/rules/migration/ObjCObjectSubscriptingRule.cpp"]}
{"id": "C106", "title": "Migration rules never conflict", "statement": "No message is reported by more than one of the four migration rules.", "quantifier": "every message expression", "why_tests_cant": "all expressions, relation between four rules", "anchors": ["oclint-rules/rules/migration/ObjCBoxedExpressionsRule.cpp", "oclint-rules/rules/migration/ObjCNSNumberLiteralsRule.cpp", "oclint-rules/rules/migration/ObjCContainerLiteralsRule.cpp", "oclint-rules/rules/migration/ObjCObjectSubscriptingRule.cpp"]}
{"id": "C107", "title": "The documented annotation works", "statement": "The annotation printed in the Suppress section of a rule's documentation hides that rule on every declaration carrying it, and no other rule.", "quantifier": "every rule, every declaration", "why_tests_cant": "all rules and declarations", "anchors": ["oclint-driver/main_docgen.cpp:writeRuleToCategory", "oclint-rules/lib/helper/SuppressHelper.cpp"]}
{"id": "C108", "title": "Naming a shipped rule names one rule", "statement": "Among the shipped rules, identifiers and suppression names are distinct; enabling one rule by identifier runs it alone, disabling it stops it alone, and an annotation naming it suppresses it alone, whatever rules are loaded in whatever order.", "quantifier": "every set and order of loaded shipped rules, every pair of shipped rules", "why_tests_cant": "all subsets, orders and pairs", "anchors": ["oclint-rules/rules", "oclint-driver/lib/RulesetFilter.cpp", "oclint-core/lib/RuleBase.cpp"]}
{"id": "C109", "title": "Documentation of the shipped rules", "statement": "For every shipped rule the documented source link is its source file, and the pages of any set of shipped rules do not overwrite each other or the index.", "quantifier": "every shipped rule, every set of shipped rules", "why_tests_cant": "all sets of rules", "anchors": ["oclint-driver/main_docgen.cpp", "oclint-rules/rules"]}
{"id": "C110", "title": "Documented thresholds", "statement": "Every documented threshold is read by its rule with the documented default, and no configuration key is shared by two rules. (Finding: three keys of two rules are not documented.)", "quantifier": "every shipped rule and configuration key", "why_tests_cant": "all pairs of rules and keys", "anchors": ["oclint-rules/rules", "oclint-core/lib/RuleConfiguration.cpp"]}
{"id": "C111", "title": "Priorities of the shipped rules", "statement": "Every shipped rule has priority 1, 2 or 3. (Refuted by one rule: branch divergence has priority 10, and however many branch divergences are found the run never exits with 'violations exceed threshold'.)", "quantifier": "every shipped rule, every run", "why_tests_cant": "all runs and numbers of violations", "anchors": ["oclint-rules/rules/cuda/CudaBranchDivergenceRule.cpp", "oclint-driver/main.cpp"]}
{"id": "C112", "title": "Every rule works as if it were alone", "statement": "In a run of the shipped rules that completes, what is recorded for a file is, rule after rule, exactly what each rule records when it is run alone on that file alone in a fresh process; and the run completes if each of these does. Required: no rule object is registered twice, the files' syntax trees lie at different addresses, and repeated compile commands for a file show the same comments and declarations. Without the last condition a violation can be lost.", "quantifier": "every set and order of shipped rules, every list of sources, compilation database, configuration and analysis mode", "why_tests_cant": "interference through the process-wide caches and the state kept in rule objects shows only for particular combinations of files and rules", "anchors": ["oclint-driver/lib/RulesetBasedAnalyzer.cpp", "oclint-rules/lib/helper/SuppressHelper.cpp", "oclint-rules/rules/naming/ShortVariableNameRule.cpp", "oclint-driver/lib/Driver.cpp"]}
{"id": "C113", "title": "A rule records its unhidden findings and nothing else", "statement": "For each shipped rule and file: the violations recorded are the rule's findings on the declarations it inspects (main file, supported language), in order and once each, minus those hidden by an annotation or comment and those without a file; for the size rules the functions, blocks and classes measuring strictly more than the limit in force; for the long-line rule the lines above the limit.", "quantifier": "every shipped rule, translation unit and configuration", "why_tests_cant": "all syntax trees, annotations and comments", "anchors": ["oclint-rules/include/oclint/AbstractASTVisitorRule.h", "oclint-core/lib/RuleBase.cpp", "oclint-rules/include/oclint/AbstractASTRuleBase.h", "oclint-rules/rules"]}
{"id": "C114", "title": "A successful run with zero limits is a clean bill of health", "statement": "When the limits for all priorities are zero and the run reaches its verdict, the exit code is 0 exactly when no selected rule of priority 1 to 3 has an unhidden finding on any file that compiles; so success means no unhidden function above a size limit, no unhidden goto, no unhidden long line, and so on for each rule.", "quantifier": "every project, rule selection, configuration and environment in which the process runs", "why_tests_cant": "a universally quantified guarantee over all source files", "anchors": ["oclint-driver/main.cpp", "oclint-driver/lib/ViolationsExceedThreshold.cpp", "oclint-rules/rules", "oclint-driver/lib/RulesetFilter.cpp"]}
{"id": "C115", "title": "Other rules, other files and their order do not change a rule's verdict", "statement": "Two completed runs with the same rule configuration record the same violations of a rule on a file, whatever other rules are enabled, whatever other files are analysed, and whatever the modes; giving the files in another order only permutes the per-file sets.", "quantifier": "every two runs sharing a file and a rule", "why_tests_cant": "all pairs of runs", "anchors": ["oclint-driver/lib/RulesetBasedAnalyzer.cpp", "oclint-driver/lib/Driver.cpp", "oclint-rules/rules"]}
{"id": "C116", "title": "Each rule does what its name says, through the whole program", "statement": "For each of the 72 shipped rules, identified by its public name (names are unique): what the program records for it on a file is what the rule's declarative description (C48-C106) says about the declarations it inspects, minus what is hidden; and a run that succeeds with zero limits leaves nothing of any selected rule open (branch divergence excepted).", "quantifier": "every rule name, file, configuration and run", "why_tests_cant": "all syntax trees and all rules, and the wiring of names to behaviours", "anchors": ["oclint-rules/rules", "oclint-driver/main.cpp"]}
{"id": "C117", "title": "A rule depends on its own settings only", "statement": "What a rule records on a file is the same under any two configurations that give the same text for the keys that rule reads: adding any other key, in particular another rule's, changes nothing, and writing a key's default explicitly is the same as leaving it out. Two runs that differ in everything else (files, rules, other settings) record the same violations of that rule for that file.", "quantifier": "every shipped rule, file, pair of configurations and pair of runs", "why_tests_cant": "all pairs of configurations, rules and syntax trees", "anchors": ["oclint-core/lib/RuleConfiguration.cpp", "oclint-rules/rules/size", "oclint-rules/rules/naming", "oclint-rules/rules/unused/UnusedLocalVariableRule.cpp"]}
{"id": "C118", "title": "The number the user writes is the limit the rule applies", "statement": "The text in force for a key is the one given by the last -rc argument for it, else by the last configuration file that has one, else the default; if it reads as a number, each of the 14 rules with a limit reports exactly what exceeds that number, and a run that succeeds with zero limits contains no inspected declaration measuring more unless a comment or annotation hides it.", "quantifier": "every command line, set of configuration files, limit, file and run", "why_tests_cant": "all combinations of option sources, number texts and syntax trees", "anchors": ["oclint-core/lib/Options.cpp", "oclint-core/lib/RuleConfiguration.cpp", "oclint-driver/main.cpp", "oclint-rules/rules/size"]}
{"id": "C119", "title": "Rules look only at the languages they are for", "statement": "Twelve rules (listed by name) look at Objective-C only, four at C++ only, two at C and C++ only, all others at any of the three; a rule records nothing for a unit in a language it is not for, and in one it is for it looks at every top-level declaration of the main file. The branch-divergence rule is silent outside CUDA units; in CUDA units only it and cyclomatic complexity look at kernels. Objective-C++ counts as Objective-C only, and C before C99 as no language: all rules but long line are silent there.", "quantifier": "every shipped rule, unit and language setting", "why_tests_cant": "all rules times all units", "anchors": ["oclint-rules/lib/AbstractASTRuleBase.cpp", "oclint-rules/rules"]}
{"id": "C120", "title": "A suppressing comment removes the violations on its line and nothing else", "statement": "Putting //!OCLINT on a line of the main file of a unit, without moving anything, removes from what each rule records on the unit exactly the violations that start on that line, in whatever file of the unit; all others stay, in order. For the long-line rule the text of that line may change.", "quantifier": "every shipped rule, unit, line and configuration", "why_tests_cant": "all pairs of units that differ in a comment, for all rules", "anchors": ["oclint-rules/lib/helper/SuppressHelper.cpp", "oclint-rules/lib/AbstractASTRuleBase.cpp", "oclint-core/lib/RuleCarrier.cpp"]}
{"id": "C121", "title": "A suppressing annotation removes one rule's violations inside one declaration", "statement": "Adding the annotation oclint:suppress[NAME] (with or without a reason) to a declaration changes nothing for any rule but the one named, and removes from that rule's violations exactly those about the declaration itself and the nodes below it; oclint:suppress does so for every rule.", "quantifier": "every shipped rule, unit, declaration, reason text and configuration", "why_tests_cant": "all pairs of units that differ in an annotation, for all pairs of rules", "anchors": ["oclint-rules/lib/helper/SuppressHelper.cpp", "oclint-rules/lib/AbstractASTRuleBase.cpp"]}
{"id": "C122", "title": "Every documented key of a configuration file does what it says", "statement": "In a configuration file that is a mapping with each key once and values of the documented shape, each of the twelve keys sets its own option to the value written, whatever the order of the keys; keys the tool does not know change nothing. Numbers may be decimal, hexadecimal (0x), binary (0b) or octal (0o or just a leading 0, so that a limit written 010 is 8). The project's file decides over the other files: its limits, texts, flags, enabled and disabled rules and thresholds are in force unless the command line says otherwise.", "quantifier": "every document tree, file, environment and command line", "why_tests_cant": "all documents and all orders of keys", "anchors": ["oclint-driver/lib/ConfigFile.cpp: ConfigFile::mapping, RuleConfigurationPair::mapping, ScalarEnumerationTraits<TriState>", "oclint-driver/lib/Options.cpp: processConfigFile"]}
{"id": "C123", "title": "A mistake in a configuration file is contained", "statement": "A configuration file with a mistake never stops the run. What stands under a known key has the documented shape or is wrong, with nothing in between. A wrong value makes the tool ignore its own key and all keys later in the tool's internal order, wherever they stand in the file, and no key before it; of a list with a wrong item, the items before it are kept and the wrong one leaves an empty entry. A key written twice or a document that is not a mapping loses everything. (That a mistake costs only its own key is refuted.)", "quantifier": "every document tree and every wrong value", "why_tests_cant": "all documents and all positions of a mistake", "anchors": ["oclint-driver/lib/ConfigFile.cpp: ConfigFile::ConfigFile, ConfigFile::mapping"]}
{"id": "C124", "title": "Texts of a configuration file are read after its memory is released", "statement": "The texts taken from a configuration file are references into a buffer that the reading function releases when it returns; they are copied afterwards. Processing the files is therefore defined exactly when no text in them has a character; with the buffer kept it would give what C16-C22 and C122 say.", "quantifier": "all lists of configuration files and all option states", "why_tests_cant": "use after free usually appears to work in a test", "anchors": ["oclint-driver/lib/ConfigFile.cpp:79-107", "oclint-driver/include/oclint/ConfigFile.h:33-38", "oclint-driver/lib/Options.cpp:141-173"]}
{"id": "C125", "title": "The progress log tells what happened", "statement": "With -verbose the tool logs, in order, one entry per compile command with Success exactly when the unit compiled without error and Failed otherwise, one entry per unit the rules were applied to, and with the static analyzer one entry per command again. A log of a completed run is complete; the last line of an interrupted log names the file the trouble is with. Asking for the log changes neither the results nor how the run ends.", "quantifier": "all toolchains, compile commands, rule lists, rule behaviours, with and without global analysis and static analyzer", "why_tests_cant": "all sequences of compile results and all points of interruption", "anchors": ["oclint-driver/lib/Logger.cpp", "oclint-driver/lib/Driver.cpp: constructCompilers, invokeClangStaticAnalyzer", "oclint-driver/lib/RulesetBasedAnalyzer.cpp: analyze"]}
{"id": "C126", "title": "Standard output is the report, unless -verbose is given", "statement": "Without -verbose and -list-enabled-rules, standard output of a run that makes its report is exactly the report (or nothing with -o). With -verbose it is the report only if there was nothing to compile, whatever the order in which the two output buffers are flushed; with -o it is exactly the log. A JSON document preceded or followed by the log is not a JSON document. (That a JSON report can be read from standard output with -verbose is refuted.)", "quantifier": "all worlds, inputs, options and all interleavings of the two streams", "why_tests_cant": "all runs and all flush schedules", "anchors": ["oclint-driver/main.cpp", "oclint-driver/lib/Logger.cpp: verboseStream", "oclint-driver/lib/Options.cpp:93, 328-331"]}
{"id": "C127", "title": "What messages can contain, and well-formed reports of whole runs", "statement": "Every violation in the results of a completed run is attributed to one of the selected rules, is located at a path of the translation unit it was found in, and its message consists of harmless printable characters and characters of names, selectors and annotation texts occurring in that unit. Consequently, if no such name and no path contains a control character, a quotation mark or a backslash, the JSON report of the run is a JSON document that says exactly what there is to report; likewise the XML report (no quotation mark, ampersand, opening angle bracket) and the PMD report (the same of the paths only); and two runs with the same Xcode report found the same violations.", "quantifier": "all completed runs: all options, rule selections, sources, syntax trees and states left behind by earlier units", "why_tests_cant": "The messages of 72 rules are concatenated from parts of arbitrary programs; that no rule lets an unexpected text through, from any state a previous unit leaves behind, ranges over all programs.", "anchors": ["oclint-rules/rules/**/*.cpp (messages passed to addViolation)", "oclint-rules/lib/AbstractASTRuleBase.cpp:addViolation", "oclint-reporters/reporters/JSONReporter.cpp", "oclint-reporters/reporters/XMLReporter.cpp", "oclint-reporters/reporters/PMDReporter.cpp", "oclint-reporters/reporters/XcodeReporter.cpp", "oclint-driver/main.cpp"]}
{"id": "C128", "title": "What can crash or abort an analysis", "statement": "Applying any of the shipped rules to any translation unit, whatever ran before in the same process, completes, with exactly these exceptions: a numeric setting of the rule whose text is a number outside the range of int (undefined behaviour as soon as the rule reads it: at the start of every unit in a language it supports for the rules on class length, numbers of fields, methods and parameters and early exits, at the first line for the rule on long lines, and otherwise at the first function, block, switch or variable the rule has to compare with it); for the NPath rule, a braced function body whose number of paths, or that of one of the statements entering the count or of an initial segment of a block or case group in it, exceeds the largest int (undefined behaviour); for the protected-method rule, a call of a protected method that no class declares (undefined behaviour); for the long-variable-name rule, a limit below -8 together with a name of at most two characters more than ten characters over the limit (an exception), or a limit within ten of the largest int and a longer name. The analysis part of a run over units that compile completes if and only if every selected rule completes on every unit, independently of order and repetition, that is, if and only if none of these conditions occurs. With the shipped reporters, if none of these conditions occurs, the process always ends with an exit code, and it is not 3.", "quantifier": "all rules, units, syntax trees, configurations, histories of the process, command lines and worlds", "why_tests_cant": "Absence of crashes has to hold for every syntax tree, setting and history; tests exercise a handful.", "anchors": ["oclint-rules/rules/**/*.cpp", "oclint-core/lib/RuleConfiguration.cpp:intForKey", "oclint-metrics/lib/NPathComplexityMetric.cpp", "oclint-rules/rules/cocoa/ObjCVerifyProtectedMethodRule.cpp", "oclint-rules/rules/naming/LongVariableNameRule.cpp", "oclint-driver/main.cpp:main", "oclint-core/lib/RuleBase.cpp:takeoff"]}
{"id": "C129", "title": "Suppressing comments on Apple systems", "statement": "On Apple systems a comment suppresses the violations of its line exactly if it contains \"//!\", any number of spaces and \"OCLINT\" in any mixture of upper and lower case. Whatever is suppressed elsewhere (where \"//!OCLINT\" has to be written exactly so) is suppressed there too; the converse is refuted, so the same source has different violations on different systems. Apart from that the systems agree: every question is answered and every violation recorded as elsewhere for the source with these comments rewritten.", "quantifier": "all comment texts, units, lines, rules and cache states", "why_tests_cant": "all texts of comments, and a branch that is compiled on one platform only", "anchors": ["oclint-rules/lib/helper/SuppressHelper.cpp:140-150: lineBasedShouldSuppress"]}
{"id": "C130", "title": "Suppressing changes a run only by what it hides, and never for the worse", "statement": "Compare two completed runs with the same rules and settings over the same files, where one file has been given a suppressing comment at the end of one line: every other file contributes exactly the same violations, and that file contributes exactly its former violations, in the same order, minus those that start on that line. If instead one declaration has been given the annotation naming one rule, the violations of every other rule are untouched and of that rule exactly those concerning the declaration or something inside it disappear. In both cases a command that exited with success still does not exit with 'too many violations' afterwards.", "quantifier": "all sets of source files, all selections of shipped rules, all settings and limits, both duplicate modes, every line and every declaration annotated", "why_tests_cant": "A test adds one comment to one file and runs some rules; that nothing else in any run changes, and that the exit code can never get worse, ranges over every code base, selection and limit.", "anchors": ["oclint-rules/lib/AbstractASTRuleBase.cpp", "oclint-rules/lib/helper/SuppressHelper.cpp shouldSuppress", "oclint-driver/lib/Driver.cpp", "oclint-driver/main.cpp", "oclint-core/lib/ResultCollector.cpp"]}
{"id": "C131", "title": "What the project's configuration file says is what the run does", "statement": "When the working directory has a well-written .oclint file and the command line does not say otherwise: a rule it disables reports nothing; if it is the only configuration, a rule runs exactly when it is not disabled there and, provided some rule is enabled and not also disabled there, is enabled there; a threshold it sets is the one the rule compares with; a run that reaches its verdict succeeds exactly when no priority has more distinct violations than the three limits in the file; the report is produced by the reporter it names and goes where it says (relative paths below the working directory). In particular success with three zero limits means nothing unhidden exceeds a size limit set in the file.", "quantifier": "all well-written configuration documents, command lines, environments, rule libraries, source files", "why_tests_cant": "The unit tests parse a few documents or run a few rules; none relates the file's contents to what a whole run reports and returns, let alone for every document, command line and code base.", "anchors": ["oclint-driver/lib/ConfigFile.cpp", "oclint-driver/lib/Options.cpp processConfigFile, process", "oclint-driver/lib/RulesetFilter.cpp", "oclint-driver/main.cpp", "oclint-core/lib/RuleConfiguration.cpp"]}
{"id": "C132", "title": "Sorting the table of an HTML report", "statement": "A click on a column heading of the HTML report always ends. It leaves the heading row in place, neither loses nor repeats a row, and sorts the rows in ascending dictionary order of the column's lower-cased text, or in descending order if they were in ascending order before; rows with the same text keep their order. Clicking again reverses the order. Numbers are compared as texts: line 10 comes before line 9.", "quantifier": "every table whose rows have the column, every column, every number of rows, every way of lower-casing", "why_tests_cant": "termination and order for all tables", "anchors": ["oclint-reporters/reporters/HTMLReporter.cpp: writeHead (sortTable)"]}
{"id": "C133", "title": "Default names of scaffolded rules", "statement": "A rule scaffolded under a class name made of letters and starting with a capital, without an explicit name, is selected and listed under exactly its class name, its documentation points at the file the script creates, its name has no capitals, different classes get different names, and an oclint:suppress annotation naming it hides that rule and no other scaffolded one. A class name starting in lower case loses its first letter; one with a digit gives an identifier different from the class.", "quantifier": "every class name", "why_tests_cant": "round trip for all class names", "anchors": ["oclint-scripts/scaffoldRule: lower_add_space", "oclint-core/lib/RuleBase.cpp: identifier", "oclint-core/lib/RuleBase.cpp: fileName"]}
{"id": "C134", "title": "Scaffolding writes what it says and nothing else", "statement": "Scaffolding a rule creates the rule's file, and with tests its test file, as the template with every known hole filled and everything else unchanged (one hole becomes a commented-out visit function for every kind of node listed), appends one build step to the lists of its category, adds the category to the parent lists exactly when its list did not exist, and changes no other file. Scaffolding a reporter does the same with its own templates and lists; if the reporter or its test exists it changes nothing and names what exists. Scaffolding a rule again overwrites an edited rule and builds it twice. A node kind whose definition in the list spans two lines gets no visit function.", "quantifier": "every file system, project directory, template, category and class name of letters", "why_tests_cant": "all contents of files and templates", "anchors": ["oclint-scripts/scaffoldRule: copy_template", "oclint-scripts/scaffoldRule: replace_wildcard", "oclint-scripts/scaffoldRule: pre_check", "oclint-scripts/scaffoldReporter: pre_validate", "oclint-scripts/scaffoldReporter: copy_template"]}
{"id": "C135", "title": "The report lists exactly what the rules find", "statement": "A run that reaches its verdict reports exactly the violations that its selected rules find, each rule run alone on each compiled file alone, file after file and rule after rule: all of them when duplicates are allowed, each once otherwise; the text report prints these lines and the number of files, and a JSON report on standard output has one reading, which lists them. Fewer files or rules, in any order and with limits at least as high, keep a successful run successful; the order of files and rules changes neither the exit code nor the set of listed violations; and with zero limits a project succeeds exactly if both halves of it, analysed in separate runs, succeed.", "quantifier": "every command line, configuration, set of loaded rules, list of files whose syntax trees do not share memory, and order of either", "why_tests_cant": "all projects, all ways of splitting or ordering them and all rule selections", "anchors": ["oclint-driver/main.cpp: main", "oclint-driver/lib/RulesetBasedAnalyzer.cpp: analyze", "oclint-core/lib/RawResults.cpp: allViolations", "oclint-core/lib/UniqueResults.cpp", "oclint-reporters/reporters/TextReporter.cpp", "oclint-reporters/reporters/JSONReporter.cpp"]}
{"id": "C136", "title": "oclint finds its own rules, reporters and settings", "statement": "However oclint is started (by an absolute or relative path, possibly through directory links, or by name through PATH), it looks for its rules, its reporters and its own configuration file beside the directory in which the started name was found: in ../lib/oclint/rules, ../lib/oclint/reporters and ../etc/oclint of it. Without rule paths from the user, the rules loaded are those registered by the libraries that the visible entries of that rules directory lead to, every entry has to be such a library, and one of them with a rule is enough. A link to the program itself from another directory, or an empty entry of PATH, makes it look elsewhere.", "quantifier": "every file system with links, current directory, PATH, way of naming the program and contents of the installation", "why_tests_cant": "all directory layouts, links and ways to start the program", "anchors": ["oclint-driver/lib/Options.cpp: preserveWorkingPath", "oclint-driver/lib/Options.cpp: preserveExecutablePath", "oclint-driver/lib/Options.cpp: rulesPath", "oclint-driver/lib/Options.cpp: reporterPath", "oclint-driver/lib/Options.cpp: configFilePaths", "oclint-driver/rules_dlfcn_port.cpp: dynamicLoadRules"]}
{"id": "C137", "title": "The bundle holds exactly what was built, and runs it", "statement": "The bundle script changes nothing but build/oclint-release (with -archive also the archived directory and file of the version), wherever it fails or is stopped. When it ends well, that directory holds the licences, the built programs with the link oclint to the versioned program, the built rules and reporters, the Clang headers and the helper scripts that are there, and nothing else, whatever it held before; with -archive the same tree is in build/oclint-<version>, the packed file beside it has it, and the working directory is gone. A program started from the bin directory of such a bundle, wherever that was moved to, runs by default with exactly the rules of the rule libraries that were built. A version can be archived only once; a path to LLVM that is relative does not do; of the licence of LLVM only the first 44 lines come along.", "quantifier": "every file system with links, checkout, LLVM installation, former bundle, set of options, operating system, failure at any operation leaving anything at its target, and later place of the bundle", "why_tests_cant": "all former contents, directory layouts, links and crash points", "anchors": ["oclint-scripts/bundle: setup_release_dir, install_binary, install_rules, install_reporters, install_clang_headers, install_licenses, archive", "oclint-scripts/oclintscripts/path.py: cp_r, rm_f, mkdir_p, mv, cd", "oclint-scripts/oclintscripts/version.py", "oclint-scripts/oclintscripts/environment.py", "oclint-driver/rules_dlfcn_port.cpp: dynamicLoadRules"]}
{"id": "C138", "title": "The build runs the commands that its options ask for", "statement": "For every checkout directory and LLVM directory without characters special to the shell, and every module, the command with which the build, test and dogFooding scripts configure the module is split by the shell into exactly the words asked for: the generator, the build type, the test and documentation switches, the LLVM directory, GoogleTest's directories, the source and build directories of the modules it uses (in the test tree when testing) and its own sources last; there is no other way to read them. Modules are built once each, and never before those they use. A blank in the path of the checkout breaks this.", "quantifier": "every checkout path, LLVM path, module and combination of options", "why_tests_cant": "all paths and option combinations; a test runs one", "anchors": ["oclint-scripts/build", "oclint-scripts/test", "oclint-scripts/dogFooding", "oclint-scripts/oclintscripts/cmake.py: CMakeBuilder", "oclint-scripts/oclintscripts/path.py"]}
{"id": "C139", "title": "A green run of ci means that everything it stands for was done and succeeded", "statement": "Whatever the programs it runs return and whichever file operation fails: ci ends with 0 exactly when nothing failed. Then the steps of its plan were done, all of them, in order and nothing else: for each module the tests were configured, built, run and passed, the module was built, the bundle was made after that, and on Linux and macOS the bundle checked the sources of every module without finding a violation. Otherwise it did the first steps of the plan until one failed, and after that only showed the results of the failing command; its own exit code is that of the failure, through two levels of processes. The recorded results are those of the machine. With -reset it runs no program and removes five directories, whatever else is asked for; with -release no test is run. Started in another directory it does not run these scripts.", "quantifier": "every host: return code of every command given all that happened before, outcome of every file operation, system name, number of processors, paths without special characters, and every combination of arguments", "why_tests_cant": "all failure points and outcomes of every program along a run of about a hundred steps, across nested processes", "anchors": ["oclint-scripts/ci", "oclint-scripts/test: run_tests, test_module", "oclint-scripts/build: build_module", "oclint-scripts/dogFooding: dogfooding", "oclint-scripts/googleTest", "oclint-scripts/oclintscripts/process.py: call, ninja, make", "oclint-scripts/oclintscripts/environment.py"]}
{"id": "C140", "title": "NPath complexity bounds, and for structured code equals, the number of courses through a statement", "statement": "A course through a statement is given by the decisions met on the way: how each test of a condition came out (with && and || cutting short) and where each switch was entered, every loop being entered at most once, jumps leaving early. For statements whose conditions are single tests, whose switches have a default and do not fall through, and which contain none of the statements NPath does not look into, the NPath number is at least the number of courses. If moreover there is no jump but the breaks closing the groups of switches and no other loop than while, it is exactly that number. Neither holds in general: || and && before a branching statement, operators behind a negation, falling through and range-based for loops give more courses than the number; for loops and early returns fewer.", "quantifier": "every statement of any size and nesting; the exact count for all structured ones, the bound for all with single tests and closed switch groups", "why_tests_cant": "the number of courses grows exponentially with the statement and has to be compared for statements of any shape and depth", "anchors": ["oclint-metrics/lib/NPathComplexityMetric.cpp", "oclint-rules/rules/size/NPathComplexityRule.cpp"]}
{"id": "C141", "title": "What empty blocks, constant conditions, jumps out of finally and closing breaks mean for execution", "statement": "For every meaning of expressions and declarations: a block reported as empty does nothing; an if with an empty then branch and no else only evaluates its condition; an empty else branch or an empty finally block can be dropped; a switch with an empty body selects nothing; an empty try block never runs a handler; empty catch blocks let a try statement end normally with the exception lost; a while loop with an empty body and a condition without effects never ends once the condition holds. If constant folding is right, an if reported for its constant condition always takes the same branch and a reported conditional operator always yields the same operand. A finally block that does not end normally replaces the outcome of the try block, so what was thrown is lost. A while loop whose body ends with a reported break and contains no continue runs its body at most once and does what the if with the same condition and body does; with a continue inside it is reported all the same but can go round again.", "quantifier": "every statement of the given forms, every meaning of atomic expressions, every start state and every completed or unfinished run", "why_tests_cant": "ranges over all programs and all executions, including endless ones", "anchors": ["oclint-rules/rules/empty/*", "oclint-rules/rules/basic/ConstantIfExpressionRule.cpp", "oclint-rules/rules/basic/ConstantConditionalOperatorRule.cpp", "oclint-rules/rules/basic/ReturnFromFinallyBlockRule.cpp", "oclint-rules/rules/basic/ThrowExceptionFromFinallyBlockRule.cpp", "oclint-rules/rules/convention/AvoidBranchingStatementAsLastInLoopRule.cpp"]}
{"id": "C142", "title": "Following the advice of the rules, anywhere and time and again, keeps what a function does", "statement": "Take a function body and change it as the rules advise: merge collapsible ifs; write while for a for loop without start and step; swap the branches of a negated if or conditional operator, also for != against ==; exit early from a long if at the end of a loop or before a final jump; drop a continue at the end of a loop; put the else of branches that all return behind the if (no labels in the branches); drop dead code (no labels in it, none but leading case labels before it); drop useless parentheses of a condition or return; return a condition instead of true or false by it; drop an empty then branch keeping the condition, an empty else, an empty try statement, an empty finally; keep one branch of a constant condition (no labels in the other). The changes may be made anywhere in the body, many at a time, and again in the result. Then every call of the function can end in exactly the same ways (outcome and final state) as before, gotos included, for every meaning of expressions in which truth literals, != and constant folding mean what they say.", "quantifier": "every function body, every sequence of sets of changes so advised, every such meaning of expressions and switch selection, every start state and every run that ends", "why_tests_cant": "ranges over all programs, all places and combinations of changes and all executions", "anchors": ["oclint-rules/rules/basic/CollapsibleIfStatementsRule.cpp", "oclint-rules/rules/basic/ForLoopShouldBeWhileLoopRule.cpp", "oclint-rules/rules/convention/InvertedLogicRule.cpp", "oclint-rules/rules/convention/PreferEarlyExitRule.cpp", "oclint-rules/rules/convention/AvoidBranchingStatementAsLastInLoopRule.cpp", "oclint-rules/rules/redundant/UnnecessaryElseStatementRule.cpp", "oclint-rules/rules/basic/DeadCodeRule.cpp", "oclint-rules/rules/redundant/UselessParenthesesRule.cpp", "oclint-rules/rules/redundant/RedundantIfStatementRule.cpp", "oclint-rules/rules/redundant/RedundantConditionalOperatorRule.cpp", "oclint-rules/rules/basic/ConstantIfExpressionRule.cpp", "oclint-rules/rules/basic/ConstantConditionalOperatorRule.cpp", "oclint-rules/rules/empty/*"]}
{"id": "C143", "title": "Cyclomatic complexity is McCabe's number of the flow graph, and at most NPath", "statement": "Draw any flow graph of a function: one exit, a vertex per step, two edges from each test, one edge per label plus one from a switch, one edge to each handler from a try, jumps to where they lead. Then edges minus vertices plus two, the cyclomatic number of McCabe, is the complexity OCLint computes, except that a for loop without condition is counted although it decides nothing, and a range-based for loop is not although it does. Every function whose jumps have targets, made of the statements listed (no @finally, lambdas, blocks, computed gotos), has a flow graph, and all its graphs have the same number. Where all decisions are in control statements and their conditions and every switch has a default and statements of its own for each label, the cyclomatic complexity is at most the NPath complexity, hence at most the number of courses where NPath counts these.", "quantifier": "every function or method and every flow graph of it; every statement", "why_tests_cant": "all functions and all ways to draw their graphs", "anchors": ["oclint-metrics/lib/CyclomaticComplexityMetric.cpp:getCyclomaticComplexity", "oclint-metrics/include/oclint/metric/CyclomaticComplexityMetric.h (reference to McCabe)", "oclint-metrics/lib/NPathComplexityMetric.cpp:nPath"]}
{"id": "C144", "title": "Fetching LLVM loses no library, whenever it stops", "statement": "Whatever tools and system calls fail, and at whatever moment the script that fetches LLVM is interrupted after unpacking, each static library of LLVM and clang is there unchanged, or its backup is, or the repacked library with the objects of the original, each either kept or as llc translated it; every other file is as unpacked, except that on macOS libc++, libunwind and the libc++ headers are removed. If the script succeeds, no backup of its own is left, every library is unchanged or repacked, exactly the libc++ files are removed (on macOS only), and if the tools work every library with objects is translated completely. Without llc, or with -skip-convert, libraries stay as they are. The release fetched is that of the platform, it is unpacked only if the download succeeded, and the exit code is 0 only if everything was done. Not so: of members of one name only the last survives, members not named *.o are lost, and a Mac with an Intel processor gets the release for ARM.", "quantifier": "every platform, state of the installation directory, contents of the release, behaviour of curl, tar, ar, llc and of the system calls, moment of interruption", "why_tests_cant": "all failures at all moments, all contents of the archive", "anchors": ["oclint-scripts/clang:convert_bitcode_libraries", "oclint-scripts/clang:remove_bundled_libcxx", "oclint-scripts/clang:remove_bundled_libcxx_headers", "oclint-scripts/clang:setup_prebuilt_binary", "oclint-scripts/oclintscripts/process.py:call"]}
{"id": "C145", "title": "The build scripts do what their command lines ask for, and so do the scripts and jobs that run them", "statement": "For every command line, build, test, dogFooding and googleTest either refuse it with code 2 before anything is done, or do exactly what its options and words ask for: the named module or all, configured with the chosen LLVM, build type, generator and number of jobs, after removing what is to be cleaned; every step in order with code 0, or up to the first failing step with its code. A command line has one reading. make removes, fetches and builds everything for a release; docGen, makeWithSystemLLVM and gh-actions do the builds they stand for; the jobs of the test workflow test every module once, after building exactly what it needs. Not so: test rules with another LLVM uses the headers of the default one.", "quantifier": "every list of words on the command line, machine, answer of every program and file operation", "why_tests_cant": "all command lines and all points of failure", "anchors": ["oclint-scripts/build", "oclint-scripts/test", "oclint-scripts/dogFooding", "oclint-scripts/googleTest", "oclint-scripts/make", "oclint-scripts/docGen", "oclint-scripts/makeWithSystemLLVM", "oclint-scripts/gh-actions", ".github/workflows/tests.yaml", ".github/workflows/release.yaml"]}
{"id": "C146", "title": "Every rule that was scaffolded is built, and every shipped rule with it", "statement": "Take a fresh copy of oclint-rules, ask the scaffolding script for any number of new rules, in shipped or new categories, with or without tests, editing and adding other files in between. Then configuring with CMake succeeds and gives every rule asked for, and every rule shipped and built before, exactly one shared library, made from its own source file, put into rules.dl of the build directory and linked with the libraries rules need; no other shared libraries, and no tests when the test build is off. Configured for the test build it gives instead one program for every test asked for, from the file the script wrote, and every shipped test source (the CUDA ones if nvcc is found) to some program; each program is linked with what tests need and run, under its own name, from bin of the build directory, testing being enabled, and no rule libraries are built. Not so: a class asked for twice (even in another category) breaks the build, so do the class names OCLintAbstract and CACHE; the rules of a category with a blank in its name are silently never built.", "quantifier": "every list of rules asked for and edits in between, every project and build directory, and every machine on which LLVM is found", "why_tests_cant": "all histories of a checkout; the result is the combined effect of a script, 30 build files and CMake's scoping", "anchors": ["oclint-scripts/scaffoldRule", "oclint-rules/CMakeLists.txt", "oclint-rules/rules/CMakeLists.txt", "oclint-rules/rules/*/CMakeLists.txt", "oclint-rules/lib/CMakeLists.txt", "oclint-rules/template", "oclint-rules/test/CMakeLists.txt", "oclint-rules/test/*/CMakeLists.txt", "oclint-core/cmake/OCLintConfig.cmake"]}
{"id": "C147", "title": "What every module is compiled with", "statement": "Every build file includes OCLintConfig.cmake. If it gets through, then, whatever was set before: the compiler flags are exactly -DDOCGEN for a documentation build, -O3 -DNDEBUG for OCLINT_BUILD_TYPE Release and -O0 -g for anything else, -std=c++17, the linker flags given, -fno-rtti -fPIC, and then -fcolor-diagnostics for a compiler whose name says Clang or else the flags given, with -fvisibility-inlines-hidden on Apple; the flags for shared libraries are -s (Release) or -g, the linker flags given and -fno-rtti; libraries are looked for relative to the program (../lib) on Apple and Unix, in the build tree too; the version is the one of the scripts; CMake's own build type has no say and builds in the source tree are off. With LLVM_ROOT set to a directory without include/llvm it stops; with any other it takes LLVM's configuration from lib/cmake/llvm of that directory, or from share/llvm/cmake if there is none. Not so: flags given by the user are lost if the compiler is Clang.", "quantifier": "every machine (files, LLVM configuration, programs found) and every setting of CMake's variables", "why_tests_cant": "all combinations of platform, compiler, options and installed LLVM", "anchors": ["oclint-core/cmake/OCLintConfig.cmake", "oclint-scripts/oclintscripts/version.py"]}
{"id": "C148", "title": "Every reporter that was scaffolded is built, and asking again is harmless", "statement": "Start from a fresh copy of oclint-reporters, ask scaffoldReporter for any number of reporters, with or without tests, and edit files in between without touching the build lists or deleting anything. The script always answers: it makes the reporter exactly if neither its source nor the test asked for is there already, and otherwise says so and changes nothing. CMake then accepts the project. It gets exactly one shared library for each reporter that was made and each that is shipped, from the reporter's own source, put into reporters.dl and linked with OCLintCore, and no other target. With TEST_BUILD it gets instead exactly one program for each test that was asked for and each that is shipped, linked with gtest, gmock, Clang and OCLintCore; every one of them is run, from the directory bin.", "quantifier": "every list of reporters asked for (any letters for class names), every interleaving with edits and refusals, every project and build directory, every machine", "why_tests_cant": "all histories of scaffolding and editing, all class names, all machines", "anchors": ["oclint-scripts/scaffoldReporter", "oclint-reporters/CMakeLists.txt", "oclint-reporters/reporters/CMakeLists.txt", "oclint-reporters/test/CMakeLists.txt", "oclint-core/cmake/OCLintConfig.cmake"]}
{"id": "C149", "title": "oclint-core, oclint-metrics and oclint-driver build all of their sources, and their tests exactly when asked", "statement": "CMake accepts oclint-core, oclint-metrics and oclint-driver wherever LLVM is found. Every source in lib of the module is compiled into one of its static libraries and into nothing else: OCLintCore and OCLintRuleSet, OCLintMetric, OCLintDriver. With TEST_BUILD every source in test becomes a program linked with the module's libraries, gtest, gmock and Clang, and is run from the directory bin; nothing else is run. Without it no test is compiled or run. oclint-driver builds the program oclint- followed by the version, from main.cpp, reporters_dlfcn_port.cpp and rules_dlfcn_port.cpp, linked with OCLint's libraries first and then Clang's; with DOC_GEN_BUILD it builds oclint-docgen too, and no other programs. No two targets have the same name, and nothing is compiled that is not a source of the module.", "quantifier": "every project and build directory, every machine, every choice of TEST_BUILD and DOC_GEN_BUILD, every copy of the module with other files besides", "why_tests_cant": "all machines, directories and settings; a source missing from a list goes unnoticed until something needs it", "anchors": ["oclint-core/CMakeLists.txt", "oclint-core/lib/CMakeLists.txt", "oclint-core/test/CMakeLists.txt", "oclint-metrics/CMakeLists.txt", "oclint-metrics/lib/CMakeLists.txt", "oclint-metrics/test/CMakeLists.txt", "oclint-driver/CMakeLists.txt", "oclint-driver/lib/CMakeLists.txt", "oclint-driver/test/CMakeLists.txt", "oclint-core/cmake/OCLintConfig.cmake"]}
{"id": "C150", "title": "What is built is what is released", "statement": "If a checkout without links was configured with CMake, made, and then bundled with success (archived or not), then for every rule and reporter that is shipped or was scaffolded the release has, where OCLint looks for rules and reporters, the library linked from the source of that rule or reporter, under the name derived from its class, and nothing else is there; and the name oclint in the bin directory of the release leads to the program linked from main.cpp. A program started from the bin directory of the release, wherever that was moved to, with no rule path, runs with the rules of the libraries of all these rules and with no others.", "quantifier": "every history of scaffolding and editing, machine, place of the checkout, file system, former release, option of bundle, compiler output and library suffix", "why_tests_cant": "the claim spans three trees of build files, CMake, the linker's output directories and the bundle script, for all histories and machines", "anchors": ["oclint-rules/CMakeLists.txt, oclint-rules/rules/CMakeLists.txt: build_dynamic_rule", "oclint-reporters/reporters/CMakeLists.txt", "oclint-driver/CMakeLists.txt", "oclint-core/cmake/OCLintConfig.cmake: EXECUTABLE_OUTPUT_PATH, OCLINT_VERSION_RELEASE", "oclint-scripts/bundle: install_binary, install_rules, install_reporters", "oclint-scripts/oclintscripts/version.py: oclint_version"]}
