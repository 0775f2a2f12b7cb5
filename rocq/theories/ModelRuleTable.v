(** * The rules shipped with OCLint: what each declares about itself

    Generated by tools/ruletable.py from oclint-rules/rules/*/*.cpp; every row cites the file
    and the line of [name()].  Functions not overridden are [None] and get the defaults of
    RuleBase.cpp and AbstractASTRuleBase.cpp below. *)
From Verif Require Import Base ModelResults ModelConfig ModelDocgen.

Record shipped := {
  sh_directory : str;                    (* directory under oclint-rules/rules *)
  sh_file : str;                         (* source file *)
  sh_name : str; sh_category : str; sh_priority : Z;
  sh_identifierOverride : option str; sh_attributeOverride : option str;
  sh_fileNameOverride : option str;
  sh_enableSuppress : bool;
  sh_built : bool;                       (* listed in the directory's CMakeLists.txt *)
  sh_languages : option N; sh_cuda : option N;
  sh_thresholds : list (str * str);      (* thresholds(): documented keys, in key order *)
  sh_reads : list (str * str)            (* configuration keys read, with the default *)
}.
Definition or_default {A} (o : option A) (d : A) : A := match o with Some x => x | None => d end.
(** RuleBase.cpp:11-41; AbstractASTRuleBase.cpp:50-53, 87-90 *)
Definition sh_identifier (s : shipped) : str := or_default (sh_identifierOverride s) (identifier (sh_name s)).
Definition sh_attributeName (s : shipped) : str := or_default (sh_attributeOverride s) (attributeName (sh_name s)).
Definition sh_fileName (s : shipped) : str := or_default (sh_fileNameOverride s) (sh_identifier s ++ $"Rule.cpp").
Definition sh_supportedLanguages (s : shipped) : N := or_default (sh_languages s) 7%N.
Definition sh_supportedCUDA (s : shipped) : N := or_default (sh_cuda s) 1%N.

(** basic/BitwiseOperatorInConditionalRule.cpp:12 *)
Definition sh_BitwiseOperatorInConditional : shipped :=
  {| sh_directory := $"basic"; sh_file := $"BitwiseOperatorInConditionalRule.cpp";
     sh_name := $"bitwise operator in conditional"; sh_category := $"basic"; sh_priority := 2%Z;
     sh_identifierOverride := None; sh_attributeOverride := None; sh_fileNameOverride := None;
     sh_enableSuppress := false; sh_built := true; sh_languages := None; sh_cuda := None;
     sh_thresholds := [];
     sh_reads := [] |}.
(** basic/BrokenNullCheckRule.cpp:61 *)
Definition sh_BrokenNullCheck : shipped :=
  {| sh_directory := $"basic"; sh_file := $"BrokenNullCheckRule.cpp";
     sh_name := $"broken null check"; sh_category := $"basic"; sh_priority := 1%Z;
     sh_identifierOverride := None; sh_attributeOverride := None; sh_fileNameOverride := None;
     sh_enableSuppress := false; sh_built := true; sh_languages := (Some 3%N); sh_cuda := None;
     sh_thresholds := [];
     sh_reads := [] |}.
(** basic/BrokenNullCheckRule.cpp:123 *)
Definition sh_BrokenNilCheck : shipped :=
  {| sh_directory := $"basic"; sh_file := $"BrokenNullCheckRule.cpp";
     sh_name := $"broken nil check"; sh_category := $"basic"; sh_priority := 2%Z;
     sh_identifierOverride := None; sh_attributeOverride := None; sh_fileNameOverride := (Some $"BrokenNullCheckRule.cpp");
     sh_enableSuppress := false; sh_built := true; sh_languages := (Some 4%N); sh_cuda := None;
     sh_thresholds := [];
     sh_reads := [] |}.
(** basic/BrokenOddnessCheckRule.cpp:31 *)
Definition sh_BrokenOddnessCheck : shipped :=
  {| sh_directory := $"basic"; sh_file := $"BrokenOddnessCheckRule.cpp";
     sh_name := $"broken oddness check"; sh_category := $"basic"; sh_priority := 2%Z;
     sh_identifierOverride := None; sh_attributeOverride := None; sh_fileNameOverride := None;
     sh_enableSuppress := false; sh_built := true; sh_languages := None; sh_cuda := None;
     sh_thresholds := [];
     sh_reads := [] |}.
(** basic/CollapsibleIfStatementsRule.cpp:40 *)
Definition sh_CollapsibleIfStatements : shipped :=
  {| sh_directory := $"basic"; sh_file := $"CollapsibleIfStatementsRule.cpp";
     sh_name := $"collapsible if statements"; sh_category := $"basic"; sh_priority := 3%Z;
     sh_identifierOverride := None; sh_attributeOverride := None; sh_fileNameOverride := None;
     sh_enableSuppress := false; sh_built := true; sh_languages := None; sh_cuda := None;
     sh_thresholds := [];
     sh_reads := [] |}.
(** basic/ConstantConditionalOperatorRule.cpp:12 *)
Definition sh_ConstantConditionalOperator : shipped :=
  {| sh_directory := $"basic"; sh_file := $"ConstantConditionalOperatorRule.cpp";
     sh_name := $"constant conditional operator"; sh_category := $"basic"; sh_priority := 2%Z;
     sh_identifierOverride := None; sh_attributeOverride := None; sh_fileNameOverride := None;
     sh_enableSuppress := false; sh_built := true; sh_languages := None; sh_cuda := None;
     sh_thresholds := [];
     sh_reads := [] |}.
(** basic/ConstantIfExpressionRule.cpp:11 *)
Definition sh_ConstantIfExpression : shipped :=
  {| sh_directory := $"basic"; sh_file := $"ConstantIfExpressionRule.cpp";
     sh_name := $"constant if expression"; sh_category := $"basic"; sh_priority := 2%Z;
     sh_identifierOverride := None; sh_attributeOverride := None; sh_fileNameOverride := None;
     sh_enableSuppress := false; sh_built := true; sh_languages := None; sh_cuda := None;
     sh_thresholds := [];
     sh_reads := [] |}.
(** basic/DeadCodeRule.cpp:92 *)
Definition sh_DeadCode : shipped :=
  {| sh_directory := $"basic"; sh_file := $"DeadCodeRule.cpp";
     sh_name := $"dead code"; sh_category := $"basic"; sh_priority := 2%Z;
     sh_identifierOverride := None; sh_attributeOverride := None; sh_fileNameOverride := None;
     sh_enableSuppress := false; sh_built := true; sh_languages := None; sh_cuda := None;
     sh_thresholds := [];
     sh_reads := [] |}.
(** basic/DoubleNegativeRule.cpp:22 *)
Definition sh_DoubleNegative : shipped :=
  {| sh_directory := $"basic"; sh_file := $"DoubleNegativeRule.cpp";
     sh_name := $"double negative"; sh_category := $"basic"; sh_priority := 2%Z;
     sh_identifierOverride := None; sh_attributeOverride := None; sh_fileNameOverride := None;
     sh_enableSuppress := false; sh_built := true; sh_languages := None; sh_cuda := None;
     sh_thresholds := [];
     sh_reads := [] |}.
(** basic/ForLoopShouldBeWhileLoopRule.cpp:11 *)
Definition sh_ForLoopShouldBeWhileLoop : shipped :=
  {| sh_directory := $"basic"; sh_file := $"ForLoopShouldBeWhileLoopRule.cpp";
     sh_name := $"for loop should be while loop"; sh_category := $"basic"; sh_priority := 3%Z;
     sh_identifierOverride := None; sh_attributeOverride := None; sh_fileNameOverride := None;
     sh_enableSuppress := false; sh_built := true; sh_languages := None; sh_cuda := None;
     sh_thresholds := [];
     sh_reads := [] |}.
(** basic/GotoStatementRule.cpp:18 *)
Definition sh_GotoStatement : shipped :=
  {| sh_directory := $"basic"; sh_file := $"GotoStatementRule.cpp";
     sh_name := $"goto statement"; sh_category := $"basic"; sh_priority := 3%Z;
     sh_identifierOverride := None; sh_attributeOverride := None; sh_fileNameOverride := None;
     sh_enableSuppress := false; sh_built := true; sh_languages := None; sh_cuda := None;
     sh_thresholds := [];
     sh_reads := [] |}.
(** basic/JumbledIncrementerRule.cpp:44 *)
Definition sh_JumbledIncrementer : shipped :=
  {| sh_directory := $"basic"; sh_file := $"JumbledIncrementerRule.cpp";
     sh_name := $"jumbled incrementer"; sh_category := $"basic"; sh_priority := 2%Z;
     sh_identifierOverride := None; sh_attributeOverride := None; sh_fileNameOverride := None;
     sh_enableSuppress := false; sh_built := true; sh_languages := None; sh_cuda := None;
     sh_thresholds := [];
     sh_reads := [] |}.
(** basic/MisplacedNullCheckRule.cpp:61 *)
Definition sh_MisplacedNullCheck : shipped :=
  {| sh_directory := $"basic"; sh_file := $"MisplacedNullCheckRule.cpp";
     sh_name := $"misplaced null check"; sh_category := $"basic"; sh_priority := 1%Z;
     sh_identifierOverride := None; sh_attributeOverride := None; sh_fileNameOverride := (Some $"MisplacedNullCheckRule.cpp");
     sh_enableSuppress := false; sh_built := true; sh_languages := (Some 3%N); sh_cuda := None;
     sh_thresholds := [];
     sh_reads := [] |}.
(** basic/MisplacedNullCheckRule.cpp:130 *)
Definition sh_MisplacedNilCheck : shipped :=
  {| sh_directory := $"basic"; sh_file := $"MisplacedNullCheckRule.cpp";
     sh_name := $"misplaced nil check"; sh_category := $"basic"; sh_priority := 3%Z;
     sh_identifierOverride := None; sh_attributeOverride := None; sh_fileNameOverride := (Some $"MisplacedNullCheckRule.cpp");
     sh_enableSuppress := false; sh_built := true; sh_languages := (Some 4%N); sh_cuda := None;
     sh_thresholds := [];
     sh_reads := [] |}.
(** basic/MultipleUnaryOperatorRule.cpp:20 *)
Definition sh_MultipleUnaryOperator : shipped :=
  {| sh_directory := $"basic"; sh_file := $"MultipleUnaryOperatorRule.cpp";
     sh_name := $"multiple unary operator"; sh_category := $"basic"; sh_priority := 2%Z;
     sh_identifierOverride := None; sh_attributeOverride := None; sh_fileNameOverride := None;
     sh_enableSuppress := false; sh_built := true; sh_languages := None; sh_cuda := None;
     sh_thresholds := [];
     sh_reads := [] |}.
(** basic/ReturnFromFinallyBlockRule.cpp:30 *)
Definition sh_ReturnFromFinallyBlock : shipped :=
  {| sh_directory := $"basic"; sh_file := $"ReturnFromFinallyBlockRule.cpp";
     sh_name := $"return from finally block"; sh_category := $"basic"; sh_priority := 2%Z;
     sh_identifierOverride := None; sh_attributeOverride := None; sh_fileNameOverride := None;
     sh_enableSuppress := false; sh_built := true; sh_languages := None; sh_cuda := None;
     sh_thresholds := [];
     sh_reads := [] |}.
(** basic/ThrowExceptionFromFinallyBlockRule.cpp:66 *)
Definition sh_ThrowExceptionFromFinallyBlock : shipped :=
  {| sh_directory := $"basic"; sh_file := $"ThrowExceptionFromFinallyBlockRule.cpp";
     sh_name := $"throw exception from finally block"; sh_category := $"basic"; sh_priority := 2%Z;
     sh_identifierOverride := None; sh_attributeOverride := None; sh_fileNameOverride := None;
     sh_enableSuppress := false; sh_built := true; sh_languages := (Some 4%N); sh_cuda := None;
     sh_thresholds := [];
     sh_reads := [] |}.
(** cocoa/ObjCVerifyIsEqualHashRule.cpp:16 *)
Definition sh_ObjCVerifyIsEqualHash : shipped :=
  {| sh_directory := $"cocoa"; sh_file := $"ObjCVerifyIsEqualHashRule.cpp";
     sh_name := $"missing hash method"; sh_category := $"cocoa"; sh_priority := 1%Z;
     sh_identifierOverride := None; sh_attributeOverride := None; sh_fileNameOverride := (Some $"ObjCVerifyIsEqualHashRule.cpp");
     sh_enableSuppress := false; sh_built := true; sh_languages := (Some 4%N); sh_cuda := None;
     sh_thresholds := [];
     sh_reads := [] |}.
(** cocoa/ObjCVerifyMustCallSuperRule.cpp:60 *)
Definition sh_ObjCVerifyMustCallSuper : shipped :=
  {| sh_directory := $"cocoa"; sh_file := $"ObjCVerifyMustCallSuperRule.cpp";
     sh_name := $"missing call to base method"; sh_category := $"cocoa"; sh_priority := 1%Z;
     sh_identifierOverride := None; sh_attributeOverride := (Some $"base method"); sh_fileNameOverride := (Some $"ObjCVerifyMustCallSuperRule.cpp");
     sh_enableSuppress := false; sh_built := true; sh_languages := (Some 4%N); sh_cuda := None;
     sh_thresholds := [];
     sh_reads := [] |}.
(** cocoa/ObjCVerifyProhibitedCallRule.cpp:41 *)
Definition sh_ObjCVerifyProhibitedCall : shipped :=
  {| sh_directory := $"cocoa"; sh_file := $"ObjCVerifyProhibitedCallRule.cpp";
     sh_name := $"calling prohibited method"; sh_category := $"cocoa"; sh_priority := 1%Z;
     sh_identifierOverride := None; sh_attributeOverride := (Some $"prohibited method"); sh_fileNameOverride := (Some $"ObjCVerifyProhibitedCallRule.cpp");
     sh_enableSuppress := false; sh_built := true; sh_languages := None; sh_cuda := None;
     sh_thresholds := [];
     sh_reads := [] |}.
(** cocoa/ObjCVerifyProtectedMethodRule.cpp:72 *)
Definition sh_ObjCVerifyProtectedMethod : shipped :=
  {| sh_directory := $"cocoa"; sh_file := $"ObjCVerifyProtectedMethodRule.cpp";
     sh_name := $"calling protected method"; sh_category := $"cocoa"; sh_priority := 1%Z;
     sh_identifierOverride := None; sh_attributeOverride := (Some $"protected method"); sh_fileNameOverride := (Some $"ObjCVerifyProtectedMethodRule.cpp");
     sh_enableSuppress := false; sh_built := true; sh_languages := (Some 4%N); sh_cuda := None;
     sh_thresholds := [];
     sh_reads := [] |}.
(** cocoa/ObjCVerifySubclassMustImplementRule.cpp:17 *)
Definition sh_ObjCVerifySubclassMustImplement : shipped :=
  {| sh_directory := $"cocoa"; sh_file := $"ObjCVerifySubclassMustImplementRule.cpp";
     sh_name := $"missing abstract method implementation"; sh_category := $"cocoa"; sh_priority := 1%Z;
     sh_identifierOverride := None; sh_attributeOverride := (Some $"abstract method"); sh_fileNameOverride := (Some $"ObjCVerifySubclassMustImplementRule.cpp");
     sh_enableSuppress := false; sh_built := true; sh_languages := (Some 4%N); sh_cuda := None;
     sh_thresholds := [];
     sh_reads := [] |}.
(** convention/AvoidBranchingStatementAsLastInLoopRule.cpp:37 *)
Definition sh_AvoidBranchingStatementAsLastInLoop : shipped :=
  {| sh_directory := $"convention"; sh_file := $"AvoidBranchingStatementAsLastInLoopRule.cpp";
     sh_name := $"avoid branching statement as last in loop"; sh_category := $"convention"; sh_priority := 2%Z;
     sh_identifierOverride := None; sh_attributeOverride := None; sh_fileNameOverride := None;
     sh_enableSuppress := false; sh_built := true; sh_languages := None; sh_cuda := None;
     sh_thresholds := [];
     sh_reads := [] |}.
(** convention/BaseClassDestructorShouldBeVirtualOrProtectedRule.cpp:39 *)
Definition sh_BaseClassDestructorShouldBeVirtualOrProtected : shipped :=
  {| sh_directory := $"convention"; sh_file := $"BaseClassDestructorShouldBeVirtualOrProtectedRule.cpp";
     sh_name := $"base class destructor should be virtual or protected"; sh_category := $"convention"; sh_priority := 2%Z;
     sh_identifierOverride := (Some $"ProblematicBaseClassDestructor"); sh_attributeOverride := None; sh_fileNameOverride := (Some $"BaseClassDestructorShouldBeVirtualOrProtectedRule.cpp");
     sh_enableSuppress := false; sh_built := true; sh_languages := (Some 2%N); sh_cuda := None;
     sh_thresholds := [];
     sh_reads := [] |}.
(** convention/CoveredSwitchStatementsDontNeedDefaultRule.cpp:12 *)
Definition sh_CoveredSwitchStatementsDontNeedDefault : shipped :=
  {| sh_directory := $"convention"; sh_file := $"CoveredSwitchStatementsDontNeedDefaultRule.cpp";
     sh_name := $"unnecessary default statement in covered switch statement"; sh_category := $"convention"; sh_priority := 3%Z;
     sh_identifierOverride := (Some $"UnnecessaryDefaultStatement"); sh_attributeOverride := None; sh_fileNameOverride := (Some $"CoveredSwitchStatementsDontNeedDefaultRule.cpp");
     sh_enableSuppress := false; sh_built := true; sh_languages := None; sh_cuda := None;
     sh_thresholds := [];
     sh_reads := [] |}.
(** convention/DefaultLabelNotLastInSwitchStatementRule.cpp:12 *)
Definition sh_DefaultLabelNotLastInSwitchStatement : shipped :=
  {| sh_directory := $"convention"; sh_file := $"DefaultLabelNotLastInSwitchStatementRule.cpp";
     sh_name := $"ill-placed default label in switch statement"; sh_category := $"convention"; sh_priority := 3%Z;
     sh_identifierOverride := (Some $"MisplacedDefaultLabel"); sh_attributeOverride := None; sh_fileNameOverride := (Some $"DefaultLabelNotLastInSwitchStatementRule.cpp");
     sh_enableSuppress := false; sh_built := true; sh_languages := None; sh_cuda := None;
     sh_thresholds := [];
     sh_reads := [] |}.
(** convention/DestructorOfVirtualClassRule.cpp:23 *)
Definition sh_DestructorOfVirtualClass : shipped :=
  {| sh_directory := $"convention"; sh_file := $"DestructorOfVirtualClassRule.cpp";
     sh_name := $"destructor of virtual class"; sh_category := $"convention"; sh_priority := 2%Z;
     sh_identifierOverride := None; sh_attributeOverride := None; sh_fileNameOverride := None;
     sh_enableSuppress := false; sh_built := true; sh_languages := (Some 2%N); sh_cuda := None;
     sh_thresholds := [];
     sh_reads := [] |}.
(** convention/InvertedLogicRule.cpp:20 *)
Definition sh_InvertedLogic : shipped :=
  {| sh_directory := $"convention"; sh_file := $"InvertedLogicRule.cpp";
     sh_name := $"inverted logic"; sh_category := $"convention"; sh_priority := 3%Z;
     sh_identifierOverride := None; sh_attributeOverride := None; sh_fileNameOverride := None;
     sh_enableSuppress := false; sh_built := true; sh_languages := None; sh_cuda := None;
     sh_thresholds := [];
     sh_reads := [] |}.
(** convention/MissingBreakInSwitchStatementRule.cpp:50 *)
Definition sh_MissingBreakInSwitchStatement : shipped :=
  {| sh_directory := $"convention"; sh_file := $"MissingBreakInSwitchStatementRule.cpp";
     sh_name := $"missing break in switch statement"; sh_category := $"convention"; sh_priority := 2%Z;
     sh_identifierOverride := None; sh_attributeOverride := None; sh_fileNameOverride := None;
     sh_enableSuppress := false; sh_built := true; sh_languages := None; sh_cuda := None;
     sh_thresholds := [];
     sh_reads := [] |}.
(** convention/NonCaseLabelInSwitchStatementRule.cpp:31 *)
Definition sh_NonCaseLabelInSwitchStatement : shipped :=
  {| sh_directory := $"convention"; sh_file := $"NonCaseLabelInSwitchStatementRule.cpp";
     sh_name := $"non case label in switch statement"; sh_category := $"convention"; sh_priority := 3%Z;
     sh_identifierOverride := None; sh_attributeOverride := None; sh_fileNameOverride := None;
     sh_enableSuppress := false; sh_built := true; sh_languages := None; sh_cuda := None;
     sh_thresholds := [];
     sh_reads := [] |}.
(** convention/ObjCAssignIvarOutsideAccessorsRule.cpp:70 *)
Definition sh_ObjCAssignIvarOutsideAccessors : shipped :=
  {| sh_directory := $"convention"; sh_file := $"ObjCAssignIvarOutsideAccessorsRule.cpp";
     sh_name := $"ivar assignment outside accessors or init"; sh_category := $"convention"; sh_priority := 2%Z;
     sh_identifierOverride := (Some $"AssignIvarOutsideAccessors"); sh_attributeOverride := None; sh_fileNameOverride := (Some $"ObjCAssignIvarOutsideAccessorsRule.cpp");
     sh_enableSuppress := false; sh_built := true; sh_languages := None; sh_cuda := None;
     sh_thresholds := [];
     sh_reads := [] |}.
(** convention/ParameterReassignmentRule.cpp:59 *)
Definition sh_ParameterReassignment : shipped :=
  {| sh_directory := $"convention"; sh_file := $"ParameterReassignmentRule.cpp";
     sh_name := $"parameter reassignment"; sh_category := $"convention"; sh_priority := 3%Z;
     sh_identifierOverride := None; sh_attributeOverride := None; sh_fileNameOverride := None;
     sh_enableSuppress := false; sh_built := true; sh_languages := None; sh_cuda := None;
     sh_thresholds := [];
     sh_reads := [] |}.
(** convention/PreferEarlyExitRule.cpp:68 *)
Definition sh_PreferEarlyExit : shipped :=
  {| sh_directory := $"convention"; sh_file := $"PreferEarlyExitRule.cpp";
     sh_name := $"prefer early exits and continue"; sh_category := $"convention"; sh_priority := 3%Z;
     sh_identifierOverride := (Some $"PreferEarlyExit"); sh_attributeOverride := None; sh_fileNameOverride := (Some $"PreferEarlyExitRule.cpp");
     sh_enableSuppress := false; sh_built := true; sh_languages := None; sh_cuda := None;
     sh_thresholds := [];
     sh_reads := [($"MAXIMUM_IF_LENGTH", $"15")] |}.
(** convention/SwitchStatementsShouldHaveDefaultRule.cpp:12 *)
Definition sh_SwitchStatementsShouldHaveDefault : shipped :=
  {| sh_directory := $"convention"; sh_file := $"SwitchStatementsShouldHaveDefaultRule.cpp";
     sh_name := $"missing default in switch statements"; sh_category := $"convention"; sh_priority := 3%Z;
     sh_identifierOverride := (Some $"MissingDefaultStatement"); sh_attributeOverride := None; sh_fileNameOverride := (Some $"SwitchStatementsShouldHaveDefaultRule.cpp");
     sh_enableSuppress := false; sh_built := true; sh_languages := None; sh_cuda := None;
     sh_thresholds := [];
     sh_reads := [] |}.
(** convention/TooFewBranchesInSwitchStatementRule.cpp:33 *)
Definition sh_TooFewBranchesInSwitchStatement : shipped :=
  {| sh_directory := $"convention"; sh_file := $"TooFewBranchesInSwitchStatementRule.cpp";
     sh_name := $"too few branches in switch statement"; sh_category := $"convention"; sh_priority := 3%Z;
     sh_identifierOverride := None; sh_attributeOverride := None; sh_fileNameOverride := None;
     sh_enableSuppress := false; sh_built := true; sh_languages := None; sh_cuda := None;
     sh_thresholds := [($"MINIMUM_CASES_IN_SWITCH", $"The reporting threshold for count of case statements in a switch statement, default value is 3.")];
     sh_reads := [($"MINIMUM_CASES_IN_SWITCH", $"3")] |}.
(** cuda/CudaBranchDivergenceRule.cpp:16 *)
Definition sh_CudaBranchDivergence : shipped :=
  {| sh_directory := $"cuda"; sh_file := $"CudaBranchDivergenceRule.cpp";
     sh_name := $"branch divergence"; sh_category := $"cuda"; sh_priority := 10%Z;
     sh_identifierOverride := None; sh_attributeOverride := None; sh_fileNameOverride := (Some $"CudaBranchDivergenceRule.cpp");
     sh_enableSuppress := false; sh_built := true; sh_languages := None; sh_cuda := (Some 2%N);
     sh_thresholds := [];
     sh_reads := [] |}.
(** design/AvoidDefaultArgumentsOnVirtualMethodsRule.cpp:21 *)
Definition sh_AvoidDefaultArgumentsOnVirtualMethods : shipped :=
  {| sh_directory := $"design"; sh_file := $"AvoidDefaultArgumentsOnVirtualMethodsRule.cpp";
     sh_name := $"avoid default arguments on virtual methods"; sh_category := $"design"; sh_priority := 3%Z;
     sh_identifierOverride := None; sh_attributeOverride := None; sh_fileNameOverride := None;
     sh_enableSuppress := false; sh_built := true; sh_languages := (Some 2%N); sh_cuda := None;
     sh_thresholds := [];
     sh_reads := [] |}.
(** design/AvoidPrivateStaticMembersRule.cpp:26 *)
Definition sh_AvoidPrivateStaticMembers : shipped :=
  {| sh_directory := $"design"; sh_file := $"AvoidPrivateStaticMembersRule.cpp";
     sh_name := $"avoid private static members"; sh_category := $"design"; sh_priority := 3%Z;
     sh_identifierOverride := None; sh_attributeOverride := None; sh_fileNameOverride := None;
     sh_enableSuppress := false; sh_built := true; sh_languages := None; sh_cuda := None;
     sh_thresholds := [];
     sh_reads := [] |}.
(** design/FeatureEnvyRule.cpp:186 *)
Definition sh_FeatureEnvy : shipped :=
  {| sh_directory := $"design"; sh_file := $"FeatureEnvyRule.cpp";
     sh_name := $"feature envy"; sh_category := $"design"; sh_priority := 3%Z;
     sh_identifierOverride := None; sh_attributeOverride := None; sh_fileNameOverride := None;
     sh_enableSuppress := false; sh_built := false; sh_languages := None; sh_cuda := None;
     sh_thresholds := [];
     sh_reads := [] |}.
(** empty/EmptyCatchStatementRule.cpp:13 *)
Definition sh_EmptyCatchStatement : shipped :=
  {| sh_directory := $"empty"; sh_file := $"EmptyCatchStatementRule.cpp";
     sh_name := $"empty catch statement"; sh_category := $"empty"; sh_priority := 2%Z;
     sh_identifierOverride := None; sh_attributeOverride := None; sh_fileNameOverride := None;
     sh_enableSuppress := false; sh_built := true; sh_languages := None; sh_cuda := None;
     sh_thresholds := [];
     sh_reads := [] |}.
(** empty/EmptyDoWhileStatementRule.cpp:13 *)
Definition sh_EmptyDoWhileStatement : shipped :=
  {| sh_directory := $"empty"; sh_file := $"EmptyDoWhileStatementRule.cpp";
     sh_name := $"empty do/while statement"; sh_category := $"empty"; sh_priority := 2%Z;
     sh_identifierOverride := None; sh_attributeOverride := None; sh_fileNameOverride := None;
     sh_enableSuppress := false; sh_built := true; sh_languages := None; sh_cuda := None;
     sh_thresholds := [];
     sh_reads := [] |}.
(** empty/EmptyElseBlockRule.cpp:13 *)
Definition sh_EmptyElseBlock : shipped :=
  {| sh_directory := $"empty"; sh_file := $"EmptyElseBlockRule.cpp";
     sh_name := $"empty else block"; sh_category := $"empty"; sh_priority := 2%Z;
     sh_identifierOverride := None; sh_attributeOverride := None; sh_fileNameOverride := (Some $"EmptyElseBlockRule.cpp");
     sh_enableSuppress := false; sh_built := true; sh_languages := None; sh_cuda := None;
     sh_thresholds := [];
     sh_reads := [] |}.
(** empty/EmptyFinallyStatementRule.cpp:13 *)
Definition sh_EmptyFinallyStatement : shipped :=
  {| sh_directory := $"empty"; sh_file := $"EmptyFinallyStatementRule.cpp";
     sh_name := $"empty finally statement"; sh_category := $"empty"; sh_priority := 2%Z;
     sh_identifierOverride := None; sh_attributeOverride := None; sh_fileNameOverride := None;
     sh_enableSuppress := false; sh_built := true; sh_languages := None; sh_cuda := None;
     sh_thresholds := [];
     sh_reads := [] |}.
(** empty/EmptyForStatementRule.cpp:13 *)
Definition sh_EmptyForStatement : shipped :=
  {| sh_directory := $"empty"; sh_file := $"EmptyForStatementRule.cpp";
     sh_name := $"empty for statement"; sh_category := $"empty"; sh_priority := 2%Z;
     sh_identifierOverride := None; sh_attributeOverride := None; sh_fileNameOverride := None;
     sh_enableSuppress := false; sh_built := true; sh_languages := None; sh_cuda := None;
     sh_thresholds := [];
     sh_reads := [] |}.
(** empty/EmptyIfStatementRule.cpp:13 *)
Definition sh_EmptyIfStatement : shipped :=
  {| sh_directory := $"empty"; sh_file := $"EmptyIfStatementRule.cpp";
     sh_name := $"empty if statement"; sh_category := $"empty"; sh_priority := 2%Z;
     sh_identifierOverride := None; sh_attributeOverride := None; sh_fileNameOverride := None;
     sh_enableSuppress := false; sh_built := true; sh_languages := None; sh_cuda := None;
     sh_thresholds := [];
     sh_reads := [] |}.
(** empty/EmptySwitchStatementRule.cpp:13 *)
Definition sh_EmptySwitchStatement : shipped :=
  {| sh_directory := $"empty"; sh_file := $"EmptySwitchStatementRule.cpp";
     sh_name := $"empty switch statement"; sh_category := $"empty"; sh_priority := 2%Z;
     sh_identifierOverride := None; sh_attributeOverride := None; sh_fileNameOverride := None;
     sh_enableSuppress := false; sh_built := true; sh_languages := None; sh_cuda := None;
     sh_thresholds := [];
     sh_reads := [] |}.
(** empty/EmptyTryStatementRule.cpp:13 *)
Definition sh_EmptyTryStatement : shipped :=
  {| sh_directory := $"empty"; sh_file := $"EmptyTryStatementRule.cpp";
     sh_name := $"empty try statement"; sh_category := $"empty"; sh_priority := 2%Z;
     sh_identifierOverride := None; sh_attributeOverride := None; sh_fileNameOverride := None;
     sh_enableSuppress := false; sh_built := true; sh_languages := None; sh_cuda := None;
     sh_thresholds := [];
     sh_reads := [] |}.
(** empty/EmptyWhileStatementRule.cpp:13 *)
Definition sh_EmptyWhileStatement : shipped :=
  {| sh_directory := $"empty"; sh_file := $"EmptyWhileStatementRule.cpp";
     sh_name := $"empty while statement"; sh_category := $"empty"; sh_priority := 2%Z;
     sh_identifierOverride := None; sh_attributeOverride := None; sh_fileNameOverride := None;
     sh_enableSuppress := false; sh_built := true; sh_languages := None; sh_cuda := None;
     sh_thresholds := [];
     sh_reads := [] |}.
(** migration/ObjCBoxedExpressionsRule.cpp:81 *)
Definition sh_ObjCBoxedExpressions : shipped :=
  {| sh_directory := $"migration"; sh_file := $"ObjCBoxedExpressionsRule.cpp";
     sh_name := $"use boxed expression"; sh_category := $"migration"; sh_priority := 3%Z;
     sh_identifierOverride := None; sh_attributeOverride := None; sh_fileNameOverride := (Some $"ObjCBoxedExpressionsRule.cpp");
     sh_enableSuppress := false; sh_built := true; sh_languages := (Some 4%N); sh_cuda := None;
     sh_thresholds := [];
     sh_reads := [] |}.
(** migration/ObjCContainerLiteralsRule.cpp:12 *)
Definition sh_ObjCContainerLiterals : shipped :=
  {| sh_directory := $"migration"; sh_file := $"ObjCContainerLiteralsRule.cpp";
     sh_name := $"use container literal"; sh_category := $"migration"; sh_priority := 3%Z;
     sh_identifierOverride := None; sh_attributeOverride := None; sh_fileNameOverride := (Some $"ObjCContainerLiteralsRule.cpp");
     sh_enableSuppress := false; sh_built := true; sh_languages := (Some 4%N); sh_cuda := None;
     sh_thresholds := [];
     sh_reads := [] |}.
(** migration/ObjCNSNumberLiteralsRule.cpp:75 *)
Definition sh_ObjCNSNumberLiterals : shipped :=
  {| sh_directory := $"migration"; sh_file := $"ObjCNSNumberLiteralsRule.cpp";
     sh_name := $"use number literal"; sh_category := $"migration"; sh_priority := 3%Z;
     sh_identifierOverride := None; sh_attributeOverride := None; sh_fileNameOverride := (Some $"ObjCNSNumberLiteralsRule.cpp");
     sh_enableSuppress := false; sh_built := true; sh_languages := (Some 4%N); sh_cuda := None;
     sh_thresholds := [];
     sh_reads := [] |}.
(** migration/ObjCObjectSubscriptingRule.cpp:53 *)
Definition sh_ObjCObjectSubscripting : shipped :=
  {| sh_directory := $"migration"; sh_file := $"ObjCObjectSubscriptingRule.cpp";
     sh_name := $"use object subscripting"; sh_category := $"migration"; sh_priority := 3%Z;
     sh_identifierOverride := None; sh_attributeOverride := None; sh_fileNameOverride := (Some $"ObjCObjectSubscriptingRule.cpp");
     sh_enableSuppress := false; sh_built := true; sh_languages := (Some 4%N); sh_cuda := None;
     sh_thresholds := [];
     sh_reads := [] |}.
(** naming/LongVariableNameRule.cpp:14 *)
Definition sh_LongVariableName : shipped :=
  {| sh_directory := $"naming"; sh_file := $"LongVariableNameRule.cpp";
     sh_name := $"long variable name"; sh_category := $"naming"; sh_priority := 3%Z;
     sh_identifierOverride := None; sh_attributeOverride := None; sh_fileNameOverride := None;
     sh_enableSuppress := false; sh_built := true; sh_languages := None; sh_cuda := None;
     sh_thresholds := [($"LONG_VARIABLE_NAME", $"The long variable name reporting threshold, default value is 20.")];
     sh_reads := [($"LONG_VARIABLE_NAME", $"20")] |}.
(** naming/ShortVariableNameRule.cpp:55 *)
Definition sh_ShortVariableName : shipped :=
  {| sh_directory := $"naming"; sh_file := $"ShortVariableNameRule.cpp";
     sh_name := $"short variable name"; sh_category := $"naming"; sh_priority := 3%Z;
     sh_identifierOverride := None; sh_attributeOverride := None; sh_fileNameOverride := None;
     sh_enableSuppress := false; sh_built := true; sh_languages := None; sh_cuda := None;
     sh_thresholds := [($"SHORT_VARIABLE_NAME", $"The short variable name reporting threshold, default value is 3.")];
     sh_reads := [($"SHORT_VARIABLE_NAME", $"3")] |}.
(** redundant/RedundantConditionalOperatorRule.cpp:148 *)
Definition sh_RedundantConditionalOperator : shipped :=
  {| sh_directory := $"redundant"; sh_file := $"RedundantConditionalOperatorRule.cpp";
     sh_name := $"redundant conditional operator"; sh_category := $"redundant"; sh_priority := 3%Z;
     sh_identifierOverride := None; sh_attributeOverride := None; sh_fileNameOverride := None;
     sh_enableSuppress := false; sh_built := true; sh_languages := None; sh_cuda := None;
     sh_thresholds := [];
     sh_reads := [] |}.
(** redundant/RedundantIfStatementRule.cpp:78 *)
Definition sh_RedundantIfStatement : shipped :=
  {| sh_directory := $"redundant"; sh_file := $"RedundantIfStatementRule.cpp";
     sh_name := $"redundant if statement"; sh_category := $"redundant"; sh_priority := 3%Z;
     sh_identifierOverride := None; sh_attributeOverride := None; sh_fileNameOverride := None;
     sh_enableSuppress := false; sh_built := true; sh_languages := None; sh_cuda := None;
     sh_thresholds := [];
     sh_reads := [] |}.
(** redundant/RedundantLocalVariableRule.cpp:45 *)
Definition sh_RedundantLocalVariable : shipped :=
  {| sh_directory := $"redundant"; sh_file := $"RedundantLocalVariableRule.cpp";
     sh_name := $"redundant local variable"; sh_category := $"redundant"; sh_priority := 3%Z;
     sh_identifierOverride := None; sh_attributeOverride := None; sh_fileNameOverride := None;
     sh_enableSuppress := false; sh_built := true; sh_languages := None; sh_cuda := None;
     sh_thresholds := [];
     sh_reads := [] |}.
(** redundant/RedundantNilCheckRule.cpp:43 *)
Definition sh_RedundantNilCheck : shipped :=
  {| sh_directory := $"redundant"; sh_file := $"RedundantNilCheckRule.cpp";
     sh_name := $"redundant nil check"; sh_category := $"redundant"; sh_priority := 3%Z;
     sh_identifierOverride := None; sh_attributeOverride := None; sh_fileNameOverride := None;
     sh_enableSuppress := false; sh_built := true; sh_languages := (Some 4%N); sh_cuda := None;
     sh_thresholds := [];
     sh_reads := [] |}.
(** redundant/UnnecessaryElseStatementRule.cpp:75 *)
Definition sh_UnnecessaryElseStatement : shipped :=
  {| sh_directory := $"redundant"; sh_file := $"UnnecessaryElseStatementRule.cpp";
     sh_name := $"unnecessary else statement"; sh_category := $"redundant"; sh_priority := 3%Z;
     sh_identifierOverride := None; sh_attributeOverride := None; sh_fileNameOverride := None;
     sh_enableSuppress := false; sh_built := true; sh_languages := None; sh_cuda := None;
     sh_thresholds := [];
     sh_reads := [] |}.
(** redundant/UnnecessaryNullCheckForCXXDeallocRule.cpp:100 *)
Definition sh_UnnecessaryNullCheckForCXXDealloc : shipped :=
  {| sh_directory := $"redundant"; sh_file := $"UnnecessaryNullCheckForCXXDeallocRule.cpp";
     sh_name := $"unnecessary null check for dealloc"; sh_category := $"redundant"; sh_priority := 3%Z;
     sh_identifierOverride := None; sh_attributeOverride := None; sh_fileNameOverride := (Some $"UnnecessaryNullCheckForCXXDeallocRule.cpp");
     sh_enableSuppress := false; sh_built := true; sh_languages := (Some 2%N); sh_cuda := None;
     sh_thresholds := [];
     sh_reads := [] |}.
(** redundant/UselessParenthesesRule.cpp:20 *)
Definition sh_UselessParentheses : shipped :=
  {| sh_directory := $"redundant"; sh_file := $"UselessParenthesesRule.cpp";
     sh_name := $"useless parentheses"; sh_category := $"redundant"; sh_priority := 3%Z;
     sh_identifierOverride := None; sh_attributeOverride := None; sh_fileNameOverride := None;
     sh_enableSuppress := false; sh_built := true; sh_languages := None; sh_cuda := None;
     sh_thresholds := [];
     sh_reads := [] |}.
(** size/CyclomaticComplexityRule.cpp:35 *)
Definition sh_CyclomaticComplexity : shipped :=
  {| sh_directory := $"size"; sh_file := $"CyclomaticComplexityRule.cpp";
     sh_name := $"high cyclomatic complexity"; sh_category := $"size"; sh_priority := 2%Z;
     sh_identifierOverride := None; sh_attributeOverride := None; sh_fileNameOverride := (Some $"CyclomaticComplexityRule.cpp");
     sh_enableSuppress := true; sh_built := true; sh_languages := None; sh_cuda := (Some 3%N);
     sh_thresholds := [($"CYCLOMATIC_COMPLEXITY", $"The cyclomatic complexity reporting threshold, default value is 10.")];
     sh_reads := [($"CYCLOMATIC_COMPLEXITY", $"10")] |}.
(** size/LongClassRule.cpp:28 *)
Definition sh_LongClass : shipped :=
  {| sh_directory := $"size"; sh_file := $"LongClassRule.cpp";
     sh_name := $"long class"; sh_category := $"size"; sh_priority := 3%Z;
     sh_identifierOverride := None; sh_attributeOverride := None; sh_fileNameOverride := None;
     sh_enableSuppress := false; sh_built := true; sh_languages := None; sh_cuda := None;
     sh_thresholds := [($"LONG_CLASS", $"The class size reporting threshold, default value is 1000.")];
     sh_reads := [($"LONG_CLASS", $"1000")] |}.
(** size/LongLineRule.cpp:12 *)
Definition sh_LongLine : shipped :=
  {| sh_directory := $"size"; sh_file := $"LongLineRule.cpp";
     sh_name := $"long line"; sh_category := $"size"; sh_priority := 3%Z;
     sh_identifierOverride := None; sh_attributeOverride := None; sh_fileNameOverride := None;
     sh_enableSuppress := false; sh_built := true; sh_languages := None; sh_cuda := None;
     sh_thresholds := [($"LONG_LINE", $"The long line reporting threshold, default value is 100.")];
     sh_reads := [($"LONG_LINE", $"100")] |}.
(** size/LongMethodRule.cpp:32 *)
Definition sh_LongMethod : shipped :=
  {| sh_directory := $"size"; sh_file := $"LongMethodRule.cpp";
     sh_name := $"long method"; sh_category := $"size"; sh_priority := 3%Z;
     sh_identifierOverride := None; sh_attributeOverride := None; sh_fileNameOverride := None;
     sh_enableSuppress := false; sh_built := true; sh_languages := None; sh_cuda := None;
     sh_thresholds := [($"LONG_METHOD", $"The long method reporting threshold, default value is 50.")];
     sh_reads := [($"LONG_METHOD", $"50")] |}.
(** size/NPathComplexityRule.cpp:41 *)
Definition sh_NPathComplexity : shipped :=
  {| sh_directory := $"size"; sh_file := $"NPathComplexityRule.cpp";
     sh_name := $"high npath complexity"; sh_category := $"size"; sh_priority := 2%Z;
     sh_identifierOverride := (Some $"HighNPathComplexity"); sh_attributeOverride := None; sh_fileNameOverride := (Some $"NPathComplexityRule.cpp");
     sh_enableSuppress := true; sh_built := true; sh_languages := None; sh_cuda := None;
     sh_thresholds := [($"NPATH_COMPLEXITY", $"The NPath complexity reporting threshold, default value is 200.")];
     sh_reads := [($"NPATH_COMPLEXITY", $"200")] |}.
(** size/NcssMethodCountRule.cpp:27 *)
Definition sh_NcssMethodCount : shipped :=
  {| sh_directory := $"size"; sh_file := $"NcssMethodCountRule.cpp";
     sh_name := $"high ncss method"; sh_category := $"size"; sh_priority := 2%Z;
     sh_identifierOverride := None; sh_attributeOverride := None; sh_fileNameOverride := (Some $"NcssMethodCountRule.cpp");
     sh_enableSuppress := true; sh_built := true; sh_languages := None; sh_cuda := None;
     sh_thresholds := [($"NCSS_METHOD", $"The high NCSS method reporting threshold, default value is 30.")];
     sh_reads := [($"NCSS_METHOD", $"30")] |}.
(** size/NestedBlockDepthRule.cpp:14 *)
Definition sh_NestedBlockDepth : shipped :=
  {| sh_directory := $"size"; sh_file := $"NestedBlockDepthRule.cpp";
     sh_name := $"deep nested block"; sh_category := $"size"; sh_priority := 3%Z;
     sh_identifierOverride := None; sh_attributeOverride := None; sh_fileNameOverride := (Some $"NestedBlockDepthRule.cpp");
     sh_enableSuppress := false; sh_built := true; sh_languages := None; sh_cuda := None;
     sh_thresholds := [($"NESTED_BLOCK_DEPTH", $"The depth of a block or compound statement reporting threshold, default value is 5.")];
     sh_reads := [($"NESTED_BLOCK_DEPTH", $"5")] |}.
(** size/TooManyFieldsRule.cpp:16 *)
Definition sh_TooManyFields : shipped :=
  {| sh_directory := $"size"; sh_file := $"TooManyFieldsRule.cpp";
     sh_name := $"too many fields"; sh_category := $"size"; sh_priority := 3%Z;
     sh_identifierOverride := None; sh_attributeOverride := None; sh_fileNameOverride := None;
     sh_enableSuppress := false; sh_built := true; sh_languages := None; sh_cuda := None;
     sh_thresholds := [($"TOO_MANY_FIELDS", $"The reporting threshold for too many fields, default value is 20.")];
     sh_reads := [($"TOO_MANY_FIELDS", $"20")] |}.
(** size/TooManyMethodsRule.cpp:16 *)
Definition sh_TooManyMethods : shipped :=
  {| sh_directory := $"size"; sh_file := $"TooManyMethodsRule.cpp";
     sh_name := $"too many methods"; sh_category := $"size"; sh_priority := 3%Z;
     sh_identifierOverride := None; sh_attributeOverride := None; sh_fileNameOverride := None;
     sh_enableSuppress := false; sh_built := true; sh_languages := None; sh_cuda := None;
     sh_thresholds := [($"TOO_MANY_METHODS", $"The reporting threshold for too many methods, default value is 30.")];
     sh_reads := [($"TOO_MANY_METHODS", $"30")] |}.
(** size/TooManyParametersRule.cpp:28 *)
Definition sh_TooManyParameters : shipped :=
  {| sh_directory := $"size"; sh_file := $"TooManyParametersRule.cpp";
     sh_name := $"too many parameters"; sh_category := $"size"; sh_priority := 3%Z;
     sh_identifierOverride := None; sh_attributeOverride := None; sh_fileNameOverride := None;
     sh_enableSuppress := false; sh_built := true; sh_languages := None; sh_cuda := None;
     sh_thresholds := [($"TOO_MANY_PARAMETERS", $"The reporting threshold for too many parameters, default value is 10.")];
     sh_reads := [($"TOO_MANY_PARAMETERS", $"10")] |}.
(** unused/UnusedLocalVariableRule.cpp:137 *)
Definition sh_UnusedLocalVariable : shipped :=
  {| sh_directory := $"unused"; sh_file := $"UnusedLocalVariableRule.cpp";
     sh_name := $"unused local variable"; sh_category := $"unused"; sh_priority := 3%Z;
     sh_identifierOverride := None; sh_attributeOverride := None; sh_fileNameOverride := None;
     sh_enableSuppress := true; sh_built := true; sh_languages := None; sh_cuda := None;
     sh_thresholds := [];
     sh_reads := [($"RAII_DEFAULT_CLASSES", $"std::lock_guard, std::unique_lock"); ($"RAII_CUSTOM_CLASSES", $"")] |}.
(** unused/UnusedMethodParameterRule.cpp:131 *)
Definition sh_UnusedMethodParameter : shipped :=
  {| sh_directory := $"unused"; sh_file := $"UnusedMethodParameterRule.cpp";
     sh_name := $"unused method parameter"; sh_category := $"unused"; sh_priority := 3%Z;
     sh_identifierOverride := None; sh_attributeOverride := None; sh_fileNameOverride := None;
     sh_enableSuppress := true; sh_built := true; sh_languages := None; sh_cuda := None;
     sh_thresholds := [];
     sh_reads := [] |}.

(** oclint-rules/rules: one static RuleSet object per rule. *)
Definition rule_table : list shipped :=
  [sh_BitwiseOperatorInConditional;
   sh_BrokenNullCheck;
   sh_BrokenNilCheck;
   sh_BrokenOddnessCheck;
   sh_CollapsibleIfStatements;
   sh_ConstantConditionalOperator;
   sh_ConstantIfExpression;
   sh_DeadCode;
   sh_DoubleNegative;
   sh_ForLoopShouldBeWhileLoop;
   sh_GotoStatement;
   sh_JumbledIncrementer;
   sh_MisplacedNullCheck;
   sh_MisplacedNilCheck;
   sh_MultipleUnaryOperator;
   sh_ReturnFromFinallyBlock;
   sh_ThrowExceptionFromFinallyBlock;
   sh_ObjCVerifyIsEqualHash;
   sh_ObjCVerifyMustCallSuper;
   sh_ObjCVerifyProhibitedCall;
   sh_ObjCVerifyProtectedMethod;
   sh_ObjCVerifySubclassMustImplement;
   sh_AvoidBranchingStatementAsLastInLoop;
   sh_BaseClassDestructorShouldBeVirtualOrProtected;
   sh_CoveredSwitchStatementsDontNeedDefault;
   sh_DefaultLabelNotLastInSwitchStatement;
   sh_DestructorOfVirtualClass;
   sh_InvertedLogic;
   sh_MissingBreakInSwitchStatement;
   sh_NonCaseLabelInSwitchStatement;
   sh_ObjCAssignIvarOutsideAccessors;
   sh_ParameterReassignment;
   sh_PreferEarlyExit;
   sh_SwitchStatementsShouldHaveDefault;
   sh_TooFewBranchesInSwitchStatement;
   sh_CudaBranchDivergence;
   sh_AvoidDefaultArgumentsOnVirtualMethods;
   sh_AvoidPrivateStaticMembers;
   sh_FeatureEnvy;
   sh_EmptyCatchStatement;
   sh_EmptyDoWhileStatement;
   sh_EmptyElseBlock;
   sh_EmptyFinallyStatement;
   sh_EmptyForStatement;
   sh_EmptyIfStatement;
   sh_EmptySwitchStatement;
   sh_EmptyTryStatement;
   sh_EmptyWhileStatement;
   sh_ObjCBoxedExpressions;
   sh_ObjCContainerLiterals;
   sh_ObjCNSNumberLiterals;
   sh_ObjCObjectSubscripting;
   sh_LongVariableName;
   sh_ShortVariableName;
   sh_RedundantConditionalOperator;
   sh_RedundantIfStatement;
   sh_RedundantLocalVariable;
   sh_RedundantNilCheck;
   sh_UnnecessaryElseStatement;
   sh_UnnecessaryNullCheckForCXXDealloc;
   sh_UselessParentheses;
   sh_CyclomaticComplexity;
   sh_LongClass;
   sh_LongLine;
   sh_LongMethod;
   sh_NPathComplexity;
   sh_NcssMethodCount;
   sh_NestedBlockDepth;
   sh_TooManyFields;
   sh_TooManyMethods;
   sh_TooManyParameters;
   sh_UnusedLocalVariable;
   sh_UnusedMethodParameter].
(** The rules that are built, oclint-rules/rules/*/CMakeLists.txt *)
Definition shipped_rules : list shipped :=
  [sh_BitwiseOperatorInConditional;
   sh_BrokenNullCheck;
   sh_BrokenNilCheck;
   sh_BrokenOddnessCheck;
   sh_CollapsibleIfStatements;
   sh_ConstantConditionalOperator;
   sh_ConstantIfExpression;
   sh_DeadCode;
   sh_DoubleNegative;
   sh_ForLoopShouldBeWhileLoop;
   sh_GotoStatement;
   sh_JumbledIncrementer;
   sh_MisplacedNullCheck;
   sh_MisplacedNilCheck;
   sh_MultipleUnaryOperator;
   sh_ReturnFromFinallyBlock;
   sh_ThrowExceptionFromFinallyBlock;
   sh_ObjCVerifyIsEqualHash;
   sh_ObjCVerifyMustCallSuper;
   sh_ObjCVerifyProhibitedCall;
   sh_ObjCVerifyProtectedMethod;
   sh_ObjCVerifySubclassMustImplement;
   sh_AvoidBranchingStatementAsLastInLoop;
   sh_BaseClassDestructorShouldBeVirtualOrProtected;
   sh_CoveredSwitchStatementsDontNeedDefault;
   sh_DefaultLabelNotLastInSwitchStatement;
   sh_DestructorOfVirtualClass;
   sh_InvertedLogic;
   sh_MissingBreakInSwitchStatement;
   sh_NonCaseLabelInSwitchStatement;
   sh_ObjCAssignIvarOutsideAccessors;
   sh_ParameterReassignment;
   sh_PreferEarlyExit;
   sh_SwitchStatementsShouldHaveDefault;
   sh_TooFewBranchesInSwitchStatement;
   sh_CudaBranchDivergence;
   sh_AvoidDefaultArgumentsOnVirtualMethods;
   sh_AvoidPrivateStaticMembers;
   sh_EmptyCatchStatement;
   sh_EmptyDoWhileStatement;
   sh_EmptyElseBlock;
   sh_EmptyFinallyStatement;
   sh_EmptyForStatement;
   sh_EmptyIfStatement;
   sh_EmptySwitchStatement;
   sh_EmptyTryStatement;
   sh_EmptyWhileStatement;
   sh_ObjCBoxedExpressions;
   sh_ObjCContainerLiterals;
   sh_ObjCNSNumberLiterals;
   sh_ObjCObjectSubscripting;
   sh_LongVariableName;
   sh_ShortVariableName;
   sh_RedundantConditionalOperator;
   sh_RedundantIfStatement;
   sh_RedundantLocalVariable;
   sh_RedundantNilCheck;
   sh_UnnecessaryElseStatement;
   sh_UnnecessaryNullCheckForCXXDealloc;
   sh_UselessParentheses;
   sh_CyclomaticComplexity;
   sh_LongClass;
   sh_LongLine;
   sh_LongMethod;
   sh_NPathComplexity;
   sh_NcssMethodCount;
   sh_NestedBlockDepth;
   sh_TooManyFields;
   sh_TooManyMethods;
   sh_TooManyParameters;
   sh_UnusedLocalVariable;
   sh_UnusedMethodParameter].
(** Rule objects [0], [1], ... are the shipped rules. *)
Definition shipped_env : ruleenv := fun k =>
  let s := nth k shipped_rules sh_LongLine in
  {| ri_name := sh_name s; ri_identifier := sh_identifier s; ri_category := sh_category s;
     ri_priority := sh_priority s |}.
