(** * The build files of the modules, and the templates

    Written by tools/cmaketexts.py from /repo; each text is that of the file named, as it is. *)
From Verif Require Import Base.

(** oclint-core *)
Definition core_lists : list (str * str) :=
  [($"CMakeLists.txt", $"CMAKE_MINIMUM_REQUIRED(VERSION 3.20)
PROJECT(OCLINT_CORE)

SET(CMAKE_MODULE_PATH
    ${CMAKE_MODULE_PATH}
    ""${CMAKE_CURRENT_SOURCE_DIR}/cmake""
    )

INCLUDE(OCLintConfig)

INCLUDE_DIRECTORIES(${CMAKE_CURRENT_SOURCE_DIR}/include)

ADD_SUBDIRECTORY(lib)

IF(TEST_BUILD)
    ADD_SUBDIRECTORY(test)
ENDIF()
");
   ($"lib/CMakeLists.txt", $"ADD_LIBRARY(OCLintCore
    AbstractResults.cpp
    Constants.cpp
    ResultCollector.cpp
    UniqueResults.cpp
    RawResults.cpp
    RuleBase.cpp
    RuleCarrier.cpp
    Violation.cpp
    ViolationSet.cpp
    )

ADD_LIBRARY(OCLintRuleSet
    RuleConfiguration.cpp
    RuleSet.cpp
    )
");
   ($"test/CMakeLists.txt", $"MACRO(build_test name)
    ADD_EXECUTABLE(${name} ${name}.cpp)
    TARGET_LINK_LIBRARIES(${name}
        OCLintRuleSet
        OCLintCore
        ${GTEST_LIBS}
        ${PROFILE_RT_LIBS}
        ${CLANG_LIBRARIES}
        ${REQ_LLVM_LIBRARIES}
        ${CMAKE_DL_LIBS}
        )

    ADD_TEST(${name} ${EXECUTABLE_OUTPUT_PATH}/${name})
ENDMACRO(build_test)

BUILD_TEST(CanaryTest)
BUILD_TEST(RawResultsTest)
BUILD_TEST(ResultCollectorTest)
BUILD_TEST(RuleBaseTest)
BUILD_TEST(RuleCarrierTest)
BUILD_TEST(RuleConfigurationTest)
BUILD_TEST(RuleSetTest)
BUILD_TEST(UniqueResultsTest)
TARGET_LINK_LIBRARIES(RuleSetTest OCLintRuleSet)

BUILD_TEST(VersionTest)
BUILD_TEST(ViolationSetTest)
BUILD_TEST(ViolationTest)
")].

(** the sources in oclint-core *)
Definition core_sources : list str :=
  [$"lib/AbstractResults.cpp";
   $"lib/Constants.cpp";
   $"lib/RawResults.cpp";
   $"lib/ResultCollector.cpp";
   $"lib/RuleBase.cpp";
   $"lib/RuleCarrier.cpp";
   $"lib/RuleConfiguration.cpp";
   $"lib/RuleSet.cpp";
   $"lib/UniqueResults.cpp";
   $"lib/Violation.cpp";
   $"lib/ViolationSet.cpp";
   $"test/CanaryTest.cpp";
   $"test/RawResultsTest.cpp";
   $"test/ResultCollectorTest.cpp";
   $"test/RuleBaseTest.cpp";
   $"test/RuleCarrierTest.cpp";
   $"test/RuleConfigurationTest.cpp";
   $"test/RuleSetTest.cpp";
   $"test/UniqueResultsTest.cpp";
   $"test/VersionTest.cpp";
   $"test/ViolationSetTest.cpp";
   $"test/ViolationTest.cpp"].

(** oclint-metrics *)
Definition metrics_lists : list (str * str) :=
  [($"CMakeLists.txt", $"CMAKE_MINIMUM_REQUIRED(VERSION 3.20)
PROJECT(OCLINT_METRICS)

SET(CMAKE_MODULE_PATH
    ${CMAKE_MODULE_PATH}
    ""${CMAKE_CURRENT_SOURCE_DIR}/../oclint-core/cmake""
    )

INCLUDE(OCLintConfig)

INCLUDE_DIRECTORIES(${OCLINT_METRICS_SOURCE_DIR}/include)

ADD_SUBDIRECTORY(lib)

IF(TEST_BUILD)
    INCLUDE_DIRECTORIES(${OCLINT_METRICS_SOURCE_DIR}/test/headers)
    ADD_SUBDIRECTORY(test)
ENDIF()
");
   ($"lib/CMakeLists.txt", $"
SET (MetricSource
    CyclomaticComplexityMetric.cpp
    NcssMetric.cpp
    NPathComplexityMetric.cpp
    StmtDepthMetric.cpp
)

ADD_LIBRARY(OCLintMetric ${MetricSource})
");
   ($"test/CMakeLists.txt", $"MACRO(build_test name)
    ADD_EXECUTABLE(${name} ${name}.cpp)
    TARGET_LINK_LIBRARIES(${name}
        OCLintMetric
        ${GTEST_LIBS}
        ${PROFILE_RT_LIBS}
        ${CLANG_LIBRARIES}
        ${REQ_LLVM_LIBRARIES}
        ${CMAKE_DL_LIBS}
    )

    ADD_TEST(${name} ${EXECUTABLE_OUTPUT_PATH}/${name})
ENDMACRO(build_test)

BUILD_TEST(CanaryTest)
BUILD_TEST(CyclomaticComplexityMetricTest)
BUILD_TEST(NPathComplexityMetricTest)
BUILD_TEST(NcssMetricTest)
BUILD_TEST(StmtDepthMetricTest)
")].

(** the sources in oclint-metrics *)
Definition metrics_sources : list str :=
  [$"lib/CyclomaticComplexityMetric.cpp";
   $"lib/NPathComplexityMetric.cpp";
   $"lib/NcssMetric.cpp";
   $"lib/StmtDepthMetric.cpp";
   $"test/CanaryTest.cpp";
   $"test/CyclomaticComplexityMetricTest.cpp";
   $"test/NPathComplexityMetricTest.cpp";
   $"test/NcssMetricTest.cpp";
   $"test/StmtDepthMetricTest.cpp"].

(** oclint-rules *)
Definition rules_lists : list (str * str) :=
  [($"CMakeLists.txt", $"CMAKE_MINIMUM_REQUIRED(VERSION 3.20)
PROJECT(OCLINT_RULES)

SET(CMAKE_MODULE_PATH
    ${CMAKE_MODULE_PATH}
    ""${CMAKE_CURRENT_SOURCE_DIR}/../oclint-core/cmake""
    )

INCLUDE(OCLintConfig)

INCLUDE_DIRECTORIES(
    ${OCLINT_SOURCE_DIR}/include
    ${OCLINT_METRICS_SOURCE_DIR}/include
    ${OCLINT_RULES_SOURCE_DIR}/include
    ${OCLINT_RULES_SOURCE_DIR}
    )
LINK_DIRECTORIES(
    ${OCLINT_BUILD_DIR}/lib
    ${OCLINT_METRICS_BUILD_DIR}/lib
    )

ADD_SUBDIRECTORY(lib)

IF(TEST_BUILD)
    INCLUDE_DIRECTORIES(${OCLINT_RULES_SOURCE_DIR}/test/headers)
    ADD_SUBDIRECTORY(test)
ELSE(TEST_BUILD)
    ADD_SUBDIRECTORY(rules)
ENDIF()
");
   ($"lib/CMakeLists.txt", $"ADD_SUBDIRECTORY(helper)
ADD_SUBDIRECTORY(util)

SET (AbstractSource
    AbstractASTMatcherRule.cpp
    AbstractASTRuleBase.cpp
    AbstractSourceCodeReaderRule.cpp
)

ADD_LIBRARY(OCLintAbstractRule ${AbstractSource})
");
   ($"lib/helper/CMakeLists.txt", $"ADD_LIBRARY(OCLintHelper
    AttributeHelper.cpp
    EnforceHelper.cpp
    SuppressHelper.cpp
)
");
   ($"lib/util/CMakeLists.txt", $"ADD_LIBRARY(OCLintUtil
    ASTUtil.cpp
    StdUtil.cpp
)
");
   ($"rules/CMakeLists.txt", $"MACRO(build_dynamic_rule name)
    IF (${CMAKE_SYSTEM_NAME} MATCHES ""Darwin"")
        SET(CMAKE_SHARED_LINKER_FLAGS ""-undefined dynamic_lookup"")
    ENDIF()

    ADD_LIBRARY(${name}Rule SHARED ${name}Rule.cpp)

    SET_TARGET_PROPERTIES(${name}Rule
        PROPERTIES LIBRARY_OUTPUT_DIRECTORY ${PROJECT_BINARY_DIR}/rules.dl
                   RUNTIME_OUTPUT_DIRECTORY ${PROJECT_BINARY_DIR}/rules.dl
        )

    TARGET_LINK_LIBRARIES(${name}Rule OCLintAbstractRule)

    TARGET_LINK_LIBRARIES(${name}Rule
        clangASTMatchers
    ) # TODO: might be redundant

    TARGET_LINK_LIBRARIES(${name}Rule
        OCLintMetric
        OCLintHelper
        OCLintUtil
        OCLintCore
    )

    IF (${CMAKE_SYSTEM_NAME} MATCHES ""FreeBSD"")
        TARGET_LINK_LIBRARIES(${name}Rule
            ${CLANG_LIBRARIES}
            ${REQ_LLVM_LIBRARIES}
            OCLintRuleSet
        )
    ENDIF()

ENDMACRO(build_dynamic_rule)

MACRO(build_dynamic_rules rules)
    FOREACH(it ${rules})
        BUILD_DYNAMIC_RULE(${it})
    ENDFOREACH(it)
ENDMACRO(build_dynamic_rules)

MACRO(add_rule_category_directory category)
    IF(EXISTS ${CMAKE_CURRENT_SOURCE_DIR}/${category}/CMakeLists.txt)
        ADD_SUBDIRECTORY(${category})
    ENDIF()
ENDMACRO(add_rule_category_directory)

ADD_RULE_CATEGORY_DIRECTORY(basic)
ADD_RULE_CATEGORY_DIRECTORY(cocoa)
ADD_RULE_CATEGORY_DIRECTORY(convention)
ADD_RULE_CATEGORY_DIRECTORY(cuda)
ADD_RULE_CATEGORY_DIRECTORY(design)
ADD_RULE_CATEGORY_DIRECTORY(empty)
ADD_RULE_CATEGORY_DIRECTORY(migration)
ADD_RULE_CATEGORY_DIRECTORY(naming)
ADD_RULE_CATEGORY_DIRECTORY(redundant)
ADD_RULE_CATEGORY_DIRECTORY(size)
ADD_RULE_CATEGORY_DIRECTORY(unused)
");
   ($"rules/basic/CMakeLists.txt", $"SET(LIST_OF_RULES
    BitwiseOperatorInConditional
    BrokenNullCheck
    BrokenOddnessCheck
    CollapsibleIfStatements
    ConstantConditionalOperator
    ConstantIfExpression
    DeadCode
    DoubleNegative
    ForLoopShouldBeWhileLoop
    GotoStatement
    JumbledIncrementer
    MisplacedNullCheck
    MultipleUnaryOperator
    ReturnFromFinallyBlock
    ThrowExceptionFromFinallyBlock
    )

BUILD_DYNAMIC_RULES(""${LIST_OF_RULES}"")
");
   ($"rules/cocoa/CMakeLists.txt", $"SET(LIST_OF_RULES
    ObjCVerifyIsEqualHash
    ObjCVerifyMustCallSuper
    ObjCVerifySubclassMustImplement
    ObjCVerifyProhibitedCall
    ObjCVerifyProtectedMethod
    )

BUILD_DYNAMIC_RULES(""${LIST_OF_RULES}"")
");
   ($"rules/convention/CMakeLists.txt", $"SET(LIST_OF_RULES
    AvoidBranchingStatementAsLastInLoop
    BaseClassDestructorShouldBeVirtualOrProtected
    DefaultLabelNotLastInSwitchStatement
    DestructorOfVirtualClass
    InvertedLogic
    MissingBreakInSwitchStatement
    NonCaseLabelInSwitchStatement
    ObjCAssignIvarOutsideAccessors
    ParameterReassignment
    PreferEarlyExit
    SwitchStatementsShouldHaveDefault
    CoveredSwitchStatementsDontNeedDefault
    TooFewBranchesInSwitchStatement
    )

BUILD_DYNAMIC_RULES(""${LIST_OF_RULES}"")
");
   ($"rules/cuda/CMakeLists.txt", $"SET(LIST_OF_RULES
    CudaBranchDivergence
    )

BUILD_DYNAMIC_RULES(""${LIST_OF_RULES}"")
");
   ($"rules/design/CMakeLists.txt", $"SET(LIST_OF_RULES
    AvoidDefaultArgumentsOnVirtualMethods
    AvoidPrivateStaticMembers
    #FeatureEnvy
    )

BUILD_DYNAMIC_RULES(""${LIST_OF_RULES}"")
");
   ($"rules/empty/CMakeLists.txt", $"SET(LIST_OF_RULES
    EmptyCatchStatement
    EmptyDoWhileStatement
    EmptyElseBlock
    EmptyFinallyStatement
    EmptyForStatement
    EmptyIfStatement
    EmptySwitchStatement
    EmptyTryStatement
    EmptyWhileStatement
    )

BUILD_DYNAMIC_RULES(""${LIST_OF_RULES}"")
");
   ($"rules/migration/CMakeLists.txt", $"SET(LIST_OF_RULES
    ObjCBoxedExpressions
    ObjCContainerLiterals
    ObjCNSNumberLiterals
    ObjCObjectSubscripting
    )

BUILD_DYNAMIC_RULES(""${LIST_OF_RULES}"")
");
   ($"rules/naming/CMakeLists.txt", $"SET(LIST_OF_RULES
    LongVariableName
    ShortVariableName
    )

BUILD_DYNAMIC_RULES(""${LIST_OF_RULES}"")
");
   ($"rules/redundant/CMakeLists.txt", $"SET(LIST_OF_RULES
    RedundantConditionalOperator
    RedundantIfStatement
    RedundantLocalVariable
    RedundantNilCheck
    UnnecessaryElseStatement
    UnnecessaryNullCheckForCXXDealloc
    UselessParentheses
    )

BUILD_DYNAMIC_RULES(""${LIST_OF_RULES}"")
");
   ($"rules/size/CMakeLists.txt", $"SET(LIST_OF_RULES
    CyclomaticComplexity
    LongClass
    LongLine
    LongMethod
    NcssMethodCount
    NestedBlockDepth
    NPathComplexity
    TooManyFields
    TooManyMethods
    TooManyParameters
    )

BUILD_DYNAMIC_RULES(""${LIST_OF_RULES}"")
");
   ($"rules/unused/CMakeLists.txt", $"SET(LIST_OF_RULES
    UnusedLocalVariable
    UnusedMethodParameter
    )

BUILD_DYNAMIC_RULES(""${LIST_OF_RULES}"")
");
   ($"test/CMakeLists.txt", $"ADD_LIBRARY(test_helper headers/TestRuleOnCode.cpp)
SET(TEST_LIBS
    test_helper
    OCLintAbstractRule
    OCLintMetric
    OCLintHelper
    OCLintUtil
    OCLintCore
    OCLintRuleSet
    ${GTEST_LIBS}
    gtest_main
    gmock_main
    ${PROFILE_RT_LIBS}
    ${CLANG_LIBRARIES}
    ${REQ_LLVM_LIBRARIES}
)
MACRO(build_test name)
    ADD_EXECUTABLE(${name} ${ARGN})
    TARGET_LINK_LIBRARIES(${name} ${TEST_LIBS})
    ADD_TEST(${name} ${EXECUTABLE_OUTPUT_PATH}/${name})
ENDMACRO(build_test)

BUILD_TEST(CanaryTest CanaryTest.cpp)

ADD_SUBDIRECTORY(abstract)
ADD_SUBDIRECTORY(helper)

ADD_SUBDIRECTORY(basic)
ADD_SUBDIRECTORY(cocoa)
ADD_SUBDIRECTORY(convention)
ADD_SUBDIRECTORY(cuda)
ADD_SUBDIRECTORY(design)
ADD_SUBDIRECTORY(empty)
ADD_SUBDIRECTORY(migration)
ADD_SUBDIRECTORY(naming)
ADD_SUBDIRECTORY(redundant)
ADD_SUBDIRECTORY(size)
ADD_SUBDIRECTORY(unused)
");
   ($"test/abstract/CMakeLists.txt", $"BUILD_TEST(AbstractTests
    LanguageSelectionTest.cpp
    MacroLocationTest.cpp
    TagBasedViolationTest.cpp
)

IF(TEST_CUDA)
    BUILD_TEST(AbstractCUDATests
        CUDASupportTest.cpp
    )
ENDIF()
");
   ($"test/basic/CMakeLists.txt", $"BUILD_TEST(BasicTests
    BitwiseOperatorInConditionalRuleTest.cpp
    BrokenNullCheckRuleTest.cpp
    BrokenOddnessCheckRuleTest.cpp
    CollapsibleIfStatementsRuleTest.cpp
    ConstantConditionalOperatorRuleTest.cpp
    ConstantIfExpressionRuleTest.cpp
    DeadCodeRuleTest.cpp
    DoubleNegativeRuleTest.cpp
    ForLoopShouldBeWhileLoopRuleTest.cpp
    GotoStatementRuleTest.cpp
    JumbledIncrementerRuleTest.cpp
    MisplacedNullCheckRuleTest.cpp
    MultipleUnaryOperatorRuleTest.cpp
    ReturnFromFinallyBlockRuleTest.cpp
    ThrowExceptionFromFinallyBlockRuleTest.cpp
)
");
   ($"test/cocoa/CMakeLists.txt", $"BUILD_TEST(CocoaTests
    ObjCVerifyIsEqualHashRuleTest.cpp
    ObjCVerifyMustCallSuperRuleTest.cpp
    ObjCVerifyProhibitedCallRuleTest.cpp
    ObjCVerifyProtectedMethodRuleTest.cpp
    ObjCVerifySubclassMustImplementRuleTest.cpp
)
");
   ($"test/convention/CMakeLists.txt", $"BUILD_TEST(ConventionTests
    AvoidBranchingStatementAsLastInLoopRuleTest.cpp
    BaseClassDestructorShouldBeVirtualOrProtectedRuleTest.cpp
    CoveredSwitchStatementsDontNeedDefaultRuleTest.cpp
    DefaultLabelNotLastInSwitchStatementRuleTest.cpp
    DestructorOfVirtualClassRuleTest.cpp
    InvertedLogicRuleTest.cpp
    MissingBreakInSwitchStatementRuleTest.cpp
    NonCaseLabelInSwitchStatementRuleTest.cpp
    ObjCAssignIvarOutsideAccessorsRuleTest.cpp
    ParameterReassignmentRuleTest.cpp
    PreferEarlyExitRuleTest.cpp
    SwitchStatementsShouldHaveDefaultRuleTest.cpp
    TooFewBranchesInSwitchStatementRuleTest.cpp
)
");
   ($"test/cuda/CMakeLists.txt", $"IF(TEST_CUDA)
BUILD_TEST(CUDATests
    CudaBranchDivergenceRuleTest.cpp
    CudaCyclomaticComplexityRuleTest.cpp
)
ENDIF()
");
   ($"test/design/CMakeLists.txt", $"BUILD_TEST(DesignTests
    AvoidDefaultArgumentsOnVirtualMethodsRuleTest.cpp
    AvoidPrivateStaticMembersRuleTest.cpp
    FeatureEnvyRuleTest.cpp
)
");
   ($"test/empty/CMakeLists.txt", $"BUILD_TEST(EmptyTests
    EmptyCatchStatementRuleTest.cpp
    EmptyDoWhileStatementRuleTest.cpp
    EmptyElseBlockRuleTest.cpp
    EmptyFinallyStatementRuleTest.cpp
    EmptyForStatementRuleTest.cpp
    EmptyIfStatementRuleTest.cpp
    EmptySwitchStatementRuleTest.cpp
    EmptyTryStatementRuleTest.cpp
    EmptyWhileStatementRuleTest.cpp
)
");
   ($"test/helper/CMakeLists.txt", $"BUILD_TEST(HelperTests
    AttributeHelperTest.cpp
    SuppressHelperTest.cpp
)
");
   ($"test/migration/CMakeLists.txt", $"BUILD_TEST(MigrationTests
    ObjCBoxedExpressionsRuleTest.cpp
    ObjCContainerLiteralsRuleTest.cpp
    ObjCNSNumberLiteralsRuleTest.cpp
    ObjCObjectSubscriptingRuleTest.cpp
)
");
   ($"test/naming/CMakeLists.txt", $"BUILD_TEST(NamingTests
    LongVariableNameRuleTest.cpp
    ShortVariableNameRuleTest.cpp
)
");
   ($"test/redundant/CMakeLists.txt", $"BUILD_TEST(RedundantTests
    RedundantConditionalOperatorRuleTest.cpp
    RedundantIfStatementRuleTest.cpp
    RedundantLocalVariableRuleTest.cpp
    RedundantNilCheckRuleTest.cpp
    UnnecessaryElseStatementRuleTest.cpp
    UnnecessaryNullCheckForCXXDeallocRuleTest.cpp
    UselessParenthesesRuleTest.cpp
)
");
   ($"test/size/CMakeLists.txt", $"BUILD_TEST(SizeTests
    CyclomaticComplexityRuleTest.cpp
    LongClassRuleTest.cpp
    LongLineRuleTest.cpp
    LongMethodRuleTest.cpp
    NPathComplexityRuleTest.cpp
    NcssMethodCountRuleTest.cpp
    NestedBlockDepthRuleTest.cpp
    TooManyFieldsRuleTest.cpp
    TooManyMethodsRuleTest.cpp
    TooManyParametersRuleTest.cpp
)
");
   ($"test/unused/CMakeLists.txt", $"BUILD_TEST(UnusedTests
    UnusedLocalVariableRuleTest.cpp
    UnusedMethodParameterRuleTest.cpp
)
")].

(** oclint-rules *)
Definition rules_templates : list (str * str) :=
  [($"template/ASTMatcherRule.tmpl", $"#include ""oclint/AbstractASTMatcherRule.h""
#include ""oclint/RuleSet.h""

using namespace std;
using namespace clang;
using namespace clang::ast_matchers;
using namespace oclint;

class {{RULE_CLASS_NAME}}Rule : public AbstractASTMatcherRule
{
public:
    virtual const string name() const override
    {
        return ""{{RULE_NAME}}"";
    }

    virtual int priority() const override
    {
        return {{RULE_PRIORITY}};
    }

    virtual const string category() const override
    {
        return ""{{RULE_CATEGORY}}"";
    }

#ifdef DOCGEN
    virtual const std::string since() const override
    {
        return ""{{OCLINT_VERSION}}"";
    }

    virtual const std::string description() const override
    {
        return """"; // TODO: fill in the description of the rule.
    }

    virtual const std::string example() const override
    {
        return R""rst(
.. code-block:: cpp

    void example()
    {
        // TODO: modify the example for this rule.
    }
        )rst"";
    }

    /* fill in the file name only when it does not match the rule identifier
    virtual const std::string fileName() const override
    {
        return """";
    }
    */

    /* add each threshold's key, description, and its default value to the map.
    virtual const std::map<std::string, std::string> thresholds() const override
    {
        std::map<std::string, std::string> thresholdMapping;
        return thresholdMapping;
    }
    */

    /* add additional document for the rule, like references, notes, etc.
    virtual const std::string additionalDocument() const override
    {
        return """";
    }
    */

    /* uncomment this method when the rule is enabled to be suppressed.
    virtual bool enableSuppress() const override
    {
        return true;
    }
    */
#endif

    virtual void callback(const MatchFinder::MatchResult &result) override
    {
    }

    virtual void setUpMatcher() override
    {
    }

};

static RuleSet rules(new {{RULE_CLASS_NAME}}Rule());
");
   ($"template/ASTVisitorRule.tmpl", $"#include ""oclint/AbstractASTVisitorRule.h""
#include ""oclint/RuleSet.h""

using namespace std;
using namespace clang;
using namespace oclint;

class {{RULE_CLASS_NAME}}Rule : public AbstractASTVisitorRule<{{RULE_CLASS_NAME}}Rule>
{
public:
    virtual const string name() const override
    {
        return ""{{RULE_NAME}}"";
    }

    virtual int priority() const override
    {
        return {{RULE_PRIORITY}};
    }

    virtual const string category() const override
    {
        return ""{{RULE_CATEGORY}}"";
    }

#ifdef DOCGEN
    virtual const std::string since() const override
    {
        return ""{{OCLINT_VERSION}}"";
    }

    virtual const std::string description() const override
    {
        return """"; // TODO: fill in the description of the rule.
    }

    virtual const std::string example() const override
    {
        return R""rst(
.. code-block:: cpp

    void example()
    {
        // TODO: modify the example for this rule.
    }
        )rst"";
    }

    /* fill in the file name only when it does not match the rule identifier
    virtual const std::string fileName() const override
    {
        return """";
    }
    */

    /* add each threshold's key, description, and its default value to the map.
    virtual const std::map<std::string, std::string> thresholds() const override
    {
        std::map<std::string, std::string> thresholdMapping;
        return thresholdMapping;
    }
    */

    /* add additional document for the rule, like references, notes, etc.
    virtual const std::string additionalDocument() const override
    {
        return """";
    }
    */

    /* uncomment this method when the rule is enabled to be suppressed.
    virtual bool enableSuppress() const override
    {
        return true;
    }
    */
#endif

    virtual void setUp() override {}
    virtual void tearDown() override {}

    {{VISIT_AST_NODE_BLOCK}}
};

static RuleSet rules(new {{RULE_CLASS_NAME}}Rule());
");
   ($"template/ClangDeclNodes", $"// Extracted from
// https://github.com/llvm/llvm-project/blob/master/clang/include/clang/Basic/DeclNodes.td
// Part of the LLVM Project, under the Apache License v2.0 with LLVM Exceptions.


// declarations
def Decl : DeclNode<?, """", 1>;
def TranslationUnit : DeclNode<Decl>, DeclContext;
def PragmaComment : DeclNode<Decl>;
def PragmaDetectMismatch : DeclNode<Decl>;
def ExternCContext : DeclNode<Decl>, DeclContext;
def Named : DeclNode<Decl, ""named declarations"", 1>;
  def Namespace : DeclNode<Named, ""namespaces"">, DeclContext;
  def UsingDirective : DeclNode<Named>;
  def NamespaceAlias : DeclNode<Named>;
  def Label : DeclNode<Named, ""labels"">;
  def Type : DeclNode<Named, ""types"", 1>;
    def TypedefName : DeclNode<Type, ""typedefs"", 1>;
      def Typedef : DeclNode<TypedefName>;
      def TypeAlias : DeclNode<TypedefName>;
      def ObjCTypeParam : DeclNode<TypedefName>;
    def UnresolvedUsingTypename : DeclNode<Type>;
    def Tag : DeclNode<Type, ""tag types"", 1>, DeclContext;
      def Enum : DeclNode<Tag, ""enums"">;
      def Record : DeclNode<Tag, ""structs, unions, classes"">;
        def CXXRecord : DeclNode<Record, ""classes"">;
          def ClassTemplateSpecialization : DeclNode<CXXRecord>;
            def ClassTemplatePartialSpecialization
              : DeclNode<ClassTemplateSpecialization>;
    def TemplateTypeParm : DeclNode<Type>;
  def Value : DeclNode<Named, ""value declarations"", 1>;
    def EnumConstant : DeclNode<Value, ""enumerators"">;
    def UnresolvedUsingValue : DeclNode<Value>;
    def IndirectField : DeclNode<Value>;
    def Binding : DeclNode<Value>;
    def OMPDeclareReduction : DeclNode<Value>, DeclContext;
    def OMPDeclareMapper : DeclNode<Value>, DeclContext;
    def MSGuid : DeclNode<Value>;
    def Declarator : DeclNode<Value, ""declarators"", 1>;
      def Field : DeclNode<Declarator, ""non-static data members"">;
        def ObjCIvar : DeclNode<Field>;
        def ObjCAtDefsField : DeclNode<Field>;
      def MSProperty : DeclNode<Declarator>;
      def Function : DeclNode<Declarator, ""functions"">, DeclContext;
        def CXXDeductionGuide : DeclNode<Function>;
        def CXXMethod : DeclNode<Function>;
          def CXXConstructor : DeclNode<CXXMethod>;
          def CXXDestructor : DeclNode<CXXMethod>;
          def CXXConversion : DeclNode<CXXMethod>;
      def Var : DeclNode<Declarator, ""variables"">;
        def VarTemplateSpecialization : DeclNode<Var>;
          def VarTemplatePartialSpecialization
            : DeclNode<VarTemplateSpecialization>;
        def ImplicitParam : DeclNode<Var>;
        def ParmVar : DeclNode<Var, ""parameters"">;
        def Decomposition : DeclNode<Var>;
        def OMPCapturedExpr : DeclNode<Var>;
      def NonTypeTemplateParm : DeclNode<Declarator>;
  def Template : DeclNode<Named, ""templates"", 1>;
    def RedeclarableTemplate : DeclNode<Template, ""redeclarable templates"", 1>;
      def FunctionTemplate : DeclNode<RedeclarableTemplate>;
      def ClassTemplate : DeclNode<RedeclarableTemplate>;
      def VarTemplate : DeclNode<RedeclarableTemplate>;
      def TypeAliasTemplate : DeclNode<RedeclarableTemplate>;
    def TemplateTemplateParm : DeclNode<Template>;
    def BuiltinTemplate : DeclNode<Template>;
    def Concept : DeclNode<Template>;
  def Using : DeclNode<Named>;
  def UsingPack : DeclNode<Named>;
  def UsingShadow : DeclNode<Named>;
    def ConstructorUsingShadow : DeclNode<UsingShadow>;
  def ObjCMethod : DeclNode<Named, ""Objective-C methods"">, DeclContext;
  def ObjCContainer : DeclNode<Named, ""Objective-C containers"", 1>, DeclContext;
    def ObjCCategory : DeclNode<ObjCContainer>;
    def ObjCProtocol : DeclNode<ObjCContainer, ""Objective-C protocols"">;
    def ObjCInterface : DeclNode<ObjCContainer, ""Objective-C interfaces"">;
    def ObjCImpl
        : DeclNode<ObjCContainer, ""Objective-C implementation declarations"", 1>;
      def ObjCCategoryImpl : DeclNode<ObjCImpl>;
      def ObjCImplementation : DeclNode<ObjCImpl>;
  def ObjCProperty : DeclNode<Named, ""Objective-C properties"">;
  def ObjCCompatibleAlias : DeclNode<Named>;
def LinkageSpec : DeclNode<Decl>, DeclContext;
def Export : DeclNode<Decl>, DeclContext;
def ObjCPropertyImpl : DeclNode<Decl>;
def FileScopeAsm : DeclNode<Decl>;
def AccessSpec : DeclNode<Decl>;
def Friend : DeclNode<Decl>;
def FriendTemplate : DeclNode<Decl>;
def StaticAssert : DeclNode<Decl>;
def Block : DeclNode<Decl, ""blocks"">, DeclContext;
def Captured : DeclNode<Decl>, DeclContext;
def ClassScopeFunctionSpecialization : DeclNode<Decl>;
def Import : DeclNode<Decl>;
def OMPThreadPrivate : DeclNode<Decl>;
def OMPAllocate : DeclNode<Decl>;
def OMPRequires : DeclNode<Decl>;
def Empty : DeclNode<Decl>;
def RequiresExprBody : DeclNode<Decl>, DeclContext;
def LifetimeExtendedTemporary : DeclNode<Decl>;
");
   ($"template/ClangStmtNodes", $"// Extracted from
// https://github.com/llvm/llvm-project/blob/master/clang/include/clang/Basic/StmtNodes.td
// Part of the LLVM Project, under the Apache License v2.0 with LLVM Exceptions.

// Statements
def Stmt : StmtNode<?, 1>;
def NullStmt : StmtNode<Stmt>;
def CompoundStmt : StmtNode<Stmt>;
def IfStmt : StmtNode<Stmt>;
def SwitchStmt : StmtNode<Stmt>;
def WhileStmt : StmtNode<Stmt>;
def DoStmt : StmtNode<Stmt>;
def ForStmt : StmtNode<Stmt>;
def GotoStmt : StmtNode<Stmt>;
def IndirectGotoStmt : StmtNode<Stmt>;
def ContinueStmt : StmtNode<Stmt>;
def BreakStmt : StmtNode<Stmt>;
def ReturnStmt : StmtNode<Stmt>;
def DeclStmt  : StmtNode<Stmt>;
def SwitchCase : StmtNode<Stmt, 1>;
def CaseStmt : StmtNode<SwitchCase>;
def DefaultStmt : StmtNode<SwitchCase>;
def CapturedStmt : StmtNode<Stmt>;

// Statements that might produce a value (for example, as the last non-null
// statement in a GNU statement-expression).
def ValueStmt : StmtNode<Stmt, 1>;
def LabelStmt : StmtNode<ValueStmt>;
def AttributedStmt : StmtNode<ValueStmt>;

// Asm statements
def AsmStmt : StmtNode<Stmt, 1>;
def GCCAsmStmt : StmtNode<AsmStmt>;
def MSAsmStmt : StmtNode<AsmStmt>;

// Obj-C statements
def ObjCAtTryStmt : StmtNode<Stmt>;
def ObjCAtCatchStmt : StmtNode<Stmt>;
def ObjCAtFinallyStmt : StmtNode<Stmt>;
def ObjCAtThrowStmt : StmtNode<Stmt>;
def ObjCAtSynchronizedStmt : StmtNode<Stmt>;
def ObjCForCollectionStmt : StmtNode<Stmt>;
def ObjCAutoreleasePoolStmt : StmtNode<Stmt>;

// C++ statements
def CXXCatchStmt : StmtNode<Stmt>;
def CXXTryStmt : StmtNode<Stmt>;
def CXXForRangeStmt : StmtNode<Stmt>;

// C++ Coroutines TS statements
def CoroutineBodyStmt : StmtNode<Stmt>;
def CoreturnStmt : StmtNode<Stmt>;

// Expressions
def Expr : StmtNode<ValueStmt, 1>;
def PredefinedExpr : StmtNode<Expr>;
def DeclRefExpr : StmtNode<Expr>;
def IntegerLiteral : StmtNode<Expr>;
def FixedPointLiteral : StmtNode<Expr>;
def FloatingLiteral : StmtNode<Expr>;
def ImaginaryLiteral : StmtNode<Expr>;
def StringLiteral : StmtNode<Expr>;
def CharacterLiteral : StmtNode<Expr>;
def ParenExpr : StmtNode<Expr>;
def UnaryOperator : StmtNode<Expr>;
def OffsetOfExpr : StmtNode<Expr>;
def UnaryExprOrTypeTraitExpr : StmtNode<Expr>;
def ArraySubscriptExpr : StmtNode<Expr>;
def OMPArraySectionExpr : StmtNode<Expr>;
def OMPIteratorExpr : StmtNode<Expr>;
def CallExpr : StmtNode<Expr>;
def MemberExpr : StmtNode<Expr>;
def CastExpr : StmtNode<Expr, 1>;
def BinaryOperator : StmtNode<Expr>;
def CompoundAssignOperator : StmtNode<BinaryOperator>;
def AbstractConditionalOperator : StmtNode<Expr, 1>;
def ConditionalOperator : StmtNode<AbstractConditionalOperator>;
def BinaryConditionalOperator : StmtNode<AbstractConditionalOperator>;
def ImplicitCastExpr : StmtNode<CastExpr>;
def ExplicitCastExpr : StmtNode<CastExpr, 1>;
def CStyleCastExpr : StmtNode<ExplicitCastExpr>;
def OMPArrayShapingExpr : StmtNode<Expr>;
def CompoundLiteralExpr : StmtNode<Expr>;
def ExtVectorElementExpr : StmtNode<Expr>;
def InitListExpr : StmtNode<Expr>;
def DesignatedInitExpr : StmtNode<Expr>;
def DesignatedInitUpdateExpr : StmtNode<Expr>;
def ImplicitValueInitExpr : StmtNode<Expr>;
def NoInitExpr : StmtNode<Expr>;
def ArrayInitLoopExpr : StmtNode<Expr>;
def ArrayInitIndexExpr : StmtNode<Expr>;
def ParenListExpr : StmtNode<Expr>;
def VAArgExpr : StmtNode<Expr>;
def GenericSelectionExpr : StmtNode<Expr>;
def PseudoObjectExpr : StmtNode<Expr>;
def SourceLocExpr : StmtNode<Expr>;

// Wrapper expressions
def FullExpr : StmtNode<Expr, 1>;
def ConstantExpr : StmtNode<FullExpr>;

// Atomic expressions
def AtomicExpr : StmtNode<Expr>;

// GNU Extensions.
def AddrLabelExpr : StmtNode<Expr>;
def StmtExpr : StmtNode<Expr>;
def ChooseExpr : StmtNode<Expr>;
def GNUNullExpr : StmtNode<Expr>;

// C++ Expressions.
def CXXOperatorCallExpr : StmtNode<CallExpr>;
def CXXMemberCallExpr : StmtNode<CallExpr>;
def CXXRewrittenBinaryOperator : StmtNode<Expr>;
def CXXNamedCastExpr : StmtNode<ExplicitCastExpr, 1>;
def CXXStaticCastExpr : StmtNode<CXXNamedCastExpr>;
def CXXDynamicCastExpr : StmtNode<CXXNamedCastExpr>;
def CXXReinterpretCastExpr : StmtNode<CXXNamedCastExpr>;
def CXXConstCastExpr : StmtNode<CXXNamedCastExpr>;
def CXXAddrspaceCastExpr : StmtNode<CXXNamedCastExpr>;
def CXXFunctionalCastExpr : StmtNode<ExplicitCastExpr>;
def CXXTypeidExpr : StmtNode<Expr>;
def UserDefinedLiteral : StmtNode<CallExpr>;
def CXXBoolLiteralExpr : StmtNode<Expr>;
def CXXNullPtrLiteralExpr : StmtNode<Expr>;
def CXXThisExpr : StmtNode<Expr>;
def CXXThrowExpr : StmtNode<Expr>;
def CXXDefaultArgExpr : StmtNode<Expr>;
def CXXDefaultInitExpr : StmtNode<Expr>;
def CXXScalarValueInitExpr : StmtNode<Expr>;
def CXXStdInitializerListExpr : StmtNode<Expr>;
def CXXNewExpr : StmtNode<Expr>;
def CXXDeleteExpr : StmtNode<Expr>;
def CXXPseudoDestructorExpr : StmtNode<Expr>;
def TypeTraitExpr : StmtNode<Expr>;
def ArrayTypeTraitExpr : StmtNode<Expr>;
def ExpressionTraitExpr : StmtNode<Expr>;
def DependentScopeDeclRefExpr : StmtNode<Expr>;
def CXXConstructExpr : StmtNode<Expr>;
def CXXInheritedCtorInitExpr : StmtNode<Expr>;
def CXXBindTemporaryExpr : StmtNode<Expr>;
def ExprWithCleanups : StmtNode<FullExpr>;
def CXXTemporaryObjectExpr : StmtNode<CXXConstructExpr>;
def CXXUnresolvedConstructExpr : StmtNode<Expr>;
def CXXDependentScopeMemberExpr : StmtNode<Expr>;
def OverloadExpr : StmtNode<Expr, 1>;
def UnresolvedLookupExpr : StmtNode<OverloadExpr>;
def UnresolvedMemberExpr : StmtNode<OverloadExpr>;
def CXXNoexceptExpr : StmtNode<Expr>;
def PackExpansionExpr : StmtNode<Expr>;
def SizeOfPackExpr : StmtNode<Expr>;
def SubstNonTypeTemplateParmExpr : StmtNode<Expr>;
def SubstNonTypeTemplateParmPackExpr : StmtNode<Expr>;
def FunctionParmPackExpr : StmtNode<Expr>;
def MaterializeTemporaryExpr : StmtNode<Expr>;
def LambdaExpr : StmtNode<Expr>;
def CXXFoldExpr : StmtNode<Expr>;

// C++ Coroutines TS expressions
def CoroutineSuspendExpr : StmtNode<Expr, 1>;
def CoawaitExpr : StmtNode<CoroutineSuspendExpr>;
def DependentCoawaitExpr : StmtNode<Expr>;
def CoyieldExpr : StmtNode<CoroutineSuspendExpr>;

// C++20 Concepts expressions
def ConceptSpecializationExpr : StmtNode<Expr>;
def RequiresExpr : StmtNode<Expr>;

// Obj-C Expressions.
def ObjCStringLiteral : StmtNode<Expr>;
def ObjCBoxedExpr : StmtNode<Expr>;
def ObjCArrayLiteral : StmtNode<Expr>;
def ObjCDictionaryLiteral : StmtNode<Expr>;
def ObjCEncodeExpr : StmtNode<Expr>;
def ObjCMessageExpr : StmtNode<Expr>;
def ObjCSelectorExpr : StmtNode<Expr>;
def ObjCProtocolExpr : StmtNode<Expr>;
def ObjCIvarRefExpr : StmtNode<Expr>;
def ObjCPropertyRefExpr : StmtNode<Expr>;
def ObjCIsaExpr : StmtNode<Expr>;
def ObjCIndirectCopyRestoreExpr : StmtNode<Expr>;
def ObjCBoolLiteralExpr : StmtNode<Expr>;
def ObjCSubscriptRefExpr : StmtNode<Expr>;
def ObjCAvailabilityCheckExpr : StmtNode<Expr>;

// Obj-C ARC Expressions.
def ObjCBridgedCastExpr : StmtNode<ExplicitCastExpr>;

// CUDA Expressions.
def CUDAKernelCallExpr : StmtNode<CallExpr>;

// Clang Extensions.
def ShuffleVectorExpr : StmtNode<Expr>;
def ConvertVectorExpr : StmtNode<Expr>;
def BlockExpr : StmtNode<Expr>;
def OpaqueValueExpr : StmtNode<Expr>;
def TypoExpr : StmtNode<Expr>;
def RecoveryExpr : StmtNode<Expr>;
def BuiltinBitCastExpr : StmtNode<ExplicitCastExpr>;

// Microsoft Extensions.
def MSPropertyRefExpr : StmtNode<Expr>;
def MSPropertySubscriptExpr : StmtNode<Expr>;
def CXXUuidofExpr : StmtNode<Expr>;
def SEHTryStmt : StmtNode<Stmt>;
def SEHExceptStmt : StmtNode<Stmt>;
def SEHFinallyStmt : StmtNode<Stmt>;
def SEHLeaveStmt : StmtNode<Stmt>;
def MSDependentExistsStmt : StmtNode<Stmt>;

// OpenCL Extensions.
def AsTypeExpr : StmtNode<Expr>;
");
   ($"template/GenericRule.tmpl", $"#include <clang/AST/AST.h>

#include ""oclint/RuleBase.h""
#include ""oclint/RuleSet.h""

using namespace std;
using namespace oclint;

class {{RULE_CLASS_NAME}}Rule : public RuleBase
{
public:
    virtual const string name() const override
    {
        return ""{{RULE_NAME}}"";
    }

    virtual int priority() const override
    {
        return {{RULE_PRIORITY}};
    }

    virtual const string category() const override
    {
        return ""{{RULE_CATEGORY}}"";
    }

#ifdef DOCGEN
    virtual const std::string since() const override
    {
        return ""{{OCLINT_VERSION}}"";
    }

    virtual const std::string description() const override
    {
        return """"; // TODO: fill in the description of the rule.
    }

    virtual const std::string example() const override
    {
        return R""rst(
.. code-block:: cpp

    void example()
    {
        // TODO: modify the example for this rule.
    }
        )rst"";
    }

    /* fill in the file name only when it does not match the rule identifier
    virtual const std::string fileName() const override
    {
        return """";
    }
    */

    /* add each threshold's key, description, and its default value to the map.
    virtual const std::map<std::string, std::string> thresholds() const override
    {
        std::map<std::string, std::string> thresholdMapping;
        return thresholdMapping;
    }
    */

    /* add additional document for the rule, like references, notes, etc.
    virtual const std::string additionalDocument() const override
    {
        return """";
    }
    */

    /* uncomment this method when the rule is enabled to be suppressed.
    virtual bool enableSuppress() const override
    {
        return true;
    }
    */
#endif

    virtual void apply() override
    {
    }

};

static RuleSet rules(new {{RULE_CLASS_NAME}}Rule());
");
   ($"template/RuleTest.tmpl", $"#include ""TestRuleOnCode.h""
#include ""rules/{{RULE_CATEGORY}}/{{RULE_CLASS_NAME}}Rule.cpp""

TEST({{RULE_CLASS_NAME}}RuleTest, PropertyTest)
{
    {{RULE_CLASS_NAME}}Rule rule;
    EXPECT_EQ({{RULE_PRIORITY}}, rule.priority());
    EXPECT_EQ(""{{RULE_NAME}}"", rule.name());
    EXPECT_EQ(""{{RULE_CATEGORY}}"", rule.category());
}

TEST({{RULE_CLASS_NAME}}RuleTest, FirstFailingTest)
{
    EXPECT_FALSE(""Start writing a new test"");
}
");
   ($"template/SourceCodeReaderRule.tmpl", $"#include ""oclint/AbstractSourceCodeReaderRule.h""
#include ""oclint/RuleSet.h""

using namespace std;
using namespace oclint;

class {{RULE_CLASS_NAME}}Rule : public AbstractSourceCodeReaderRule
{
public:
    virtual const string name() const override
    {
        return ""{{RULE_NAME}}"";
    }

    virtual int priority() const override
    {
        return {{RULE_PRIORITY}};
    }

    virtual const string category() const override
    {
        return ""{{RULE_CATEGORY}}"";
    }

#ifdef DOCGEN
    virtual const std::string since() const override
    {
        return ""{{OCLINT_VERSION}}"";
    }

    virtual const std::string description() const override
    {
        return """"; // TODO: fill in the description of the rule.
    }

    virtual const std::string example() const override
    {
        return R""rst(
.. code-block:: cpp

    void example()
    {
        // TODO: modify the example for this rule.
    }
        )rst"";
    }

    /* fill in the file name only when it does not match the rule identifier
    virtual const std::string fileName() const override
    {
        return """";
    }
    */

    /* add each threshold's key, description, and its default value to the map.
    virtual const std::map<std::string, std::string> thresholds() const override
    {
        std::map<std::string, std::string> thresholdMapping;
        return thresholdMapping;
    }
    */

    /* add additional document for the rule, like references, notes, etc.
    virtual const std::string additionalDocument() const override
    {
        return """";
    }
    */

    /* uncomment this method when the rule is enabled to be suppressed.
    virtual bool enableSuppress() const override
    {
        return true;
    }
    */
#endif

    virtual void eachLine(int lineNumber, string line) override
    {
    }
};

static RuleSet rules(new {{RULE_CLASS_NAME}}Rule());
")].

(** the sources in oclint-rules *)
Definition rules_sources : list str :=
  [$"lib/AbstractASTMatcherRule.cpp";
   $"lib/AbstractASTRuleBase.cpp";
   $"lib/AbstractSourceCodeReaderRule.cpp";
   $"lib/helper/AttributeHelper.cpp";
   $"lib/helper/EnforceHelper.cpp";
   $"lib/helper/SuppressHelper.cpp";
   $"lib/util/ASTUtil.cpp";
   $"lib/util/StdUtil.cpp";
   $"rules/basic/BitwiseOperatorInConditionalRule.cpp";
   $"rules/basic/BrokenNullCheckRule.cpp";
   $"rules/basic/BrokenOddnessCheckRule.cpp";
   $"rules/basic/CollapsibleIfStatementsRule.cpp";
   $"rules/basic/ConstantConditionalOperatorRule.cpp";
   $"rules/basic/ConstantIfExpressionRule.cpp";
   $"rules/basic/DeadCodeRule.cpp";
   $"rules/basic/DoubleNegativeRule.cpp";
   $"rules/basic/ForLoopShouldBeWhileLoopRule.cpp";
   $"rules/basic/GotoStatementRule.cpp";
   $"rules/basic/JumbledIncrementerRule.cpp";
   $"rules/basic/MisplacedNullCheckRule.cpp";
   $"rules/basic/MultipleUnaryOperatorRule.cpp";
   $"rules/basic/ReturnFromFinallyBlockRule.cpp";
   $"rules/basic/ThrowExceptionFromFinallyBlockRule.cpp";
   $"rules/cocoa/ObjCVerifyIsEqualHashRule.cpp";
   $"rules/cocoa/ObjCVerifyMustCallSuperRule.cpp";
   $"rules/cocoa/ObjCVerifyProhibitedCallRule.cpp";
   $"rules/cocoa/ObjCVerifyProtectedMethodRule.cpp";
   $"rules/cocoa/ObjCVerifySubclassMustImplementRule.cpp";
   $"rules/convention/AvoidBranchingStatementAsLastInLoopRule.cpp";
   $"rules/convention/BaseClassDestructorShouldBeVirtualOrProtectedRule.cpp";
   $"rules/convention/CoveredSwitchStatementsDontNeedDefaultRule.cpp";
   $"rules/convention/DefaultLabelNotLastInSwitchStatementRule.cpp";
   $"rules/convention/DestructorOfVirtualClassRule.cpp";
   $"rules/convention/InvertedLogicRule.cpp";
   $"rules/convention/MissingBreakInSwitchStatementRule.cpp";
   $"rules/convention/NonCaseLabelInSwitchStatementRule.cpp";
   $"rules/convention/ObjCAssignIvarOutsideAccessorsRule.cpp";
   $"rules/convention/ParameterReassignmentRule.cpp";
   $"rules/convention/PreferEarlyExitRule.cpp";
   $"rules/convention/SwitchStatementsShouldHaveDefaultRule.cpp";
   $"rules/convention/TooFewBranchesInSwitchStatementRule.cpp";
   $"rules/cuda/CudaBranchDivergenceRule.cpp";
   $"rules/design/AvoidDefaultArgumentsOnVirtualMethodsRule.cpp";
   $"rules/design/AvoidPrivateStaticMembersRule.cpp";
   $"rules/design/FeatureEnvyRule.cpp";
   $"rules/empty/EmptyCatchStatementRule.cpp";
   $"rules/empty/EmptyDoWhileStatementRule.cpp";
   $"rules/empty/EmptyElseBlockRule.cpp";
   $"rules/empty/EmptyFinallyStatementRule.cpp";
   $"rules/empty/EmptyForStatementRule.cpp";
   $"rules/empty/EmptyIfStatementRule.cpp";
   $"rules/empty/EmptySwitchStatementRule.cpp";
   $"rules/empty/EmptyTryStatementRule.cpp";
   $"rules/empty/EmptyWhileStatementRule.cpp";
   $"rules/migration/ObjCBoxedExpressionsRule.cpp";
   $"rules/migration/ObjCContainerLiteralsRule.cpp";
   $"rules/migration/ObjCNSNumberLiteralsRule.cpp";
   $"rules/migration/ObjCObjectSubscriptingRule.cpp";
   $"rules/naming/LongVariableNameRule.cpp";
   $"rules/naming/ShortVariableNameRule.cpp";
   $"rules/redundant/RedundantConditionalOperatorRule.cpp";
   $"rules/redundant/RedundantIfStatementRule.cpp";
   $"rules/redundant/RedundantLocalVariableRule.cpp";
   $"rules/redundant/RedundantNilCheckRule.cpp";
   $"rules/redundant/UnnecessaryElseStatementRule.cpp";
   $"rules/redundant/UnnecessaryNullCheckForCXXDeallocRule.cpp";
   $"rules/redundant/UselessParenthesesRule.cpp";
   $"rules/size/CyclomaticComplexityRule.cpp";
   $"rules/size/LongClassRule.cpp";
   $"rules/size/LongLineRule.cpp";
   $"rules/size/LongMethodRule.cpp";
   $"rules/size/NPathComplexityRule.cpp";
   $"rules/size/NcssMethodCountRule.cpp";
   $"rules/size/NestedBlockDepthRule.cpp";
   $"rules/size/TooManyFieldsRule.cpp";
   $"rules/size/TooManyMethodsRule.cpp";
   $"rules/size/TooManyParametersRule.cpp";
   $"rules/unused/UnusedLocalVariableRule.cpp";
   $"rules/unused/UnusedMethodParameterRule.cpp";
   $"test/CanaryTest.cpp";
   $"test/abstract/CUDASupportTest.cpp";
   $"test/abstract/LanguageSelectionTest.cpp";
   $"test/abstract/MacroLocationTest.cpp";
   $"test/abstract/TagBasedViolationTest.cpp";
   $"test/basic/BitwiseOperatorInConditionalRuleTest.cpp";
   $"test/basic/BrokenNullCheckRuleTest.cpp";
   $"test/basic/BrokenOddnessCheckRuleTest.cpp";
   $"test/basic/CollapsibleIfStatementsRuleTest.cpp";
   $"test/basic/ConstantConditionalOperatorRuleTest.cpp";
   $"test/basic/ConstantIfExpressionRuleTest.cpp";
   $"test/basic/DeadCodeRuleTest.cpp";
   $"test/basic/DoubleNegativeRuleTest.cpp";
   $"test/basic/ForLoopShouldBeWhileLoopRuleTest.cpp";
   $"test/basic/GotoStatementRuleTest.cpp";
   $"test/basic/JumbledIncrementerRuleTest.cpp";
   $"test/basic/MisplacedNullCheckRuleTest.cpp";
   $"test/basic/MultipleUnaryOperatorRuleTest.cpp";
   $"test/basic/ReturnFromFinallyBlockRuleTest.cpp";
   $"test/basic/ThrowExceptionFromFinallyBlockRuleTest.cpp";
   $"test/cocoa/ObjCVerifyIsEqualHashRuleTest.cpp";
   $"test/cocoa/ObjCVerifyMustCallSuperRuleTest.cpp";
   $"test/cocoa/ObjCVerifyProhibitedCallRuleTest.cpp";
   $"test/cocoa/ObjCVerifyProtectedMethodRuleTest.cpp";
   $"test/cocoa/ObjCVerifySubclassMustImplementRuleTest.cpp";
   $"test/convention/AvoidBranchingStatementAsLastInLoopRuleTest.cpp";
   $"test/convention/BaseClassDestructorShouldBeVirtualOrProtectedRuleTest.cpp";
   $"test/convention/CoveredSwitchStatementsDontNeedDefaultRuleTest.cpp";
   $"test/convention/DefaultLabelNotLastInSwitchStatementRuleTest.cpp";
   $"test/convention/DestructorOfVirtualClassRuleTest.cpp";
   $"test/convention/InvertedLogicRuleTest.cpp";
   $"test/convention/MissingBreakInSwitchStatementRuleTest.cpp";
   $"test/convention/NonCaseLabelInSwitchStatementRuleTest.cpp";
   $"test/convention/ObjCAssignIvarOutsideAccessorsRuleTest.cpp";
   $"test/convention/ParameterReassignmentRuleTest.cpp";
   $"test/convention/PreferEarlyExitRuleTest.cpp";
   $"test/convention/SwitchStatementsShouldHaveDefaultRuleTest.cpp";
   $"test/convention/TooFewBranchesInSwitchStatementRuleTest.cpp";
   $"test/cuda/CudaBranchDivergenceRuleTest.cpp";
   $"test/cuda/CudaCyclomaticComplexityRuleTest.cpp";
   $"test/design/AvoidDefaultArgumentsOnVirtualMethodsRuleTest.cpp";
   $"test/design/AvoidPrivateStaticMembersRuleTest.cpp";
   $"test/design/FeatureEnvyRuleTest.cpp";
   $"test/empty/EmptyCatchStatementRuleTest.cpp";
   $"test/empty/EmptyDoWhileStatementRuleTest.cpp";
   $"test/empty/EmptyElseBlockRuleTest.cpp";
   $"test/empty/EmptyFinallyStatementRuleTest.cpp";
   $"test/empty/EmptyForStatementRuleTest.cpp";
   $"test/empty/EmptyIfStatementRuleTest.cpp";
   $"test/empty/EmptySwitchStatementRuleTest.cpp";
   $"test/empty/EmptyTryStatementRuleTest.cpp";
   $"test/empty/EmptyWhileStatementRuleTest.cpp";
   $"test/headers/TestRuleOnCode.cpp";
   $"test/helper/AttributeHelperTest.cpp";
   $"test/helper/SuppressHelperTest.cpp";
   $"test/migration/ObjCBoxedExpressionsRuleTest.cpp";
   $"test/migration/ObjCContainerLiteralsRuleTest.cpp";
   $"test/migration/ObjCNSNumberLiteralsRuleTest.cpp";
   $"test/migration/ObjCObjectSubscriptingRuleTest.cpp";
   $"test/naming/LongVariableNameRuleTest.cpp";
   $"test/naming/ShortVariableNameRuleTest.cpp";
   $"test/redundant/RedundantConditionalOperatorRuleTest.cpp";
   $"test/redundant/RedundantIfStatementRuleTest.cpp";
   $"test/redundant/RedundantLocalVariableRuleTest.cpp";
   $"test/redundant/RedundantNilCheckRuleTest.cpp";
   $"test/redundant/UnnecessaryElseStatementRuleTest.cpp";
   $"test/redundant/UnnecessaryNullCheckForCXXDeallocRuleTest.cpp";
   $"test/redundant/UselessParenthesesRuleTest.cpp";
   $"test/size/CyclomaticComplexityRuleTest.cpp";
   $"test/size/LongClassRuleTest.cpp";
   $"test/size/LongLineRuleTest.cpp";
   $"test/size/LongMethodRuleTest.cpp";
   $"test/size/NPathComplexityRuleTest.cpp";
   $"test/size/NcssMethodCountRuleTest.cpp";
   $"test/size/NestedBlockDepthRuleTest.cpp";
   $"test/size/TooManyFieldsRuleTest.cpp";
   $"test/size/TooManyMethodsRuleTest.cpp";
   $"test/size/TooManyParametersRuleTest.cpp";
   $"test/unused/UnusedLocalVariableRuleTest.cpp";
   $"test/unused/UnusedMethodParameterRuleTest.cpp"].

(** oclint-reporters *)
Definition reporters_lists : list (str * str) :=
  [($"CMakeLists.txt", $"CMAKE_MINIMUM_REQUIRED(VERSION 3.20)
PROJECT(OCLINT_REPORTERS)

SET(CMAKE_MODULE_PATH
    ${CMAKE_MODULE_PATH}
    ""${CMAKE_CURRENT_SOURCE_DIR}/../oclint-core/cmake""
    )

INCLUDE(OCLintConfig)

INCLUDE_DIRECTORIES(${OCLINT_SOURCE_DIR}/include)
LINK_DIRECTORIES(${OCLINT_BUILD_DIR}/lib)

IF(TEST_BUILD)
    INCLUDE_DIRECTORIES(${OCLINT_REPORTERS_SOURCE_DIR}/reporters)
    ADD_SUBDIRECTORY(test)
ELSE(TEST_BUILD)
    ADD_SUBDIRECTORY(reporters)
ENDIF()
");
   ($"reporters/CMakeLists.txt", $"MACRO(build_dynamic_reporter name)
    IF (${CMAKE_SYSTEM_NAME} MATCHES ""Darwin"")
        SET(CMAKE_SHARED_LINKER_FLAGS ""-undefined dynamic_lookup"")
    ENDIF()

    ADD_LIBRARY(${name}Reporter SHARED ${name}Reporter.cpp)

    SET_TARGET_PROPERTIES(${name}Reporter
        PROPERTIES LIBRARY_OUTPUT_DIRECTORY ${PROJECT_BINARY_DIR}/reporters.dl
				   RUNTIME_OUTPUT_DIRECTORY ${PROJECT_BINARY_DIR}/reporters.dl
        )

    TARGET_LINK_LIBRARIES(${name}Reporter
        OCLintCore
        )
ENDMACRO(build_dynamic_reporter)

BUILD_DYNAMIC_REPORTER(Text)
BUILD_DYNAMIC_REPORTER(HTML)
BUILD_DYNAMIC_REPORTER(XML)
BUILD_DYNAMIC_REPORTER(JSON)
BUILD_DYNAMIC_REPORTER(PMD)
BUILD_DYNAMIC_REPORTER(Xcode)
");
   ($"test/CMakeLists.txt", $"MACRO(build_test name)
    ADD_EXECUTABLE(${name} ${name}.cpp)
    TARGET_LINK_LIBRARIES(${name}
        ${GTEST_LIBS}
        ${PROFILE_RT_LIBS}
        ${CLANG_LIBRARIES}
        ${REQ_LLVM_LIBRARIES}
        OCLintCore
        )

    ADD_TEST(${name} ${EXECUTABLE_OUTPUT_PATH}/${name})
ENDMACRO(build_test)

BUILD_TEST(CanaryTest)
BUILD_TEST(TextReporterTest)
BUILD_TEST(HTMLReporterTest)
BUILD_TEST(XMLReporterTest)
BUILD_TEST(JSONReporterTest)
BUILD_TEST(PMDReporterTest)
BUILD_TEST(XcodeReporterTest)
")].

(** oclint-reporters *)
Definition reporters_templates : list (str * str) :=
  [($"template/Reporter.tmpl", $"#include ""oclint/Reporter.h""

using namespace oclint;

class {{REPORTER_CLASS_NAME}}Reporter : public Reporter
{
public:
    virtual const std::string name() const override
    {
        return ""{{REPORTER_NAME}}"";
    }

    virtual void report(Results *results, std::ostream &out) override
    {
    }
};

extern ""C"" Reporter* create()
{
  return new {{REPORTER_CLASS_NAME}}Reporter();
}
");
   ($"template/ReporterTest.tmpl", $"#include <gtest/gtest.h>
#include <gmock/gmock.h>

#include ""{{REPORTER_CLASS_NAME}}Reporter.cpp""

using namespace ::testing;
using namespace oclint;

TEST({{REPORTER_CLASS_NAME}}ReporterTest, PropertyTest)
{
    {{REPORTER_CLASS_NAME}}Reporter reporter;
    EXPECT_THAT(reporter.name(), StrEq(""{{REPORTER_NAME}}""));
}

TEST({{REPORTER_CLASS_NAME}}ReporterTest, FirstFailingTest)
{
    EXPECT_FALSE(""Start writing a new test"");
}

int main(int argc, char **argv)
{
    ::testing::InitGoogleMock(&argc, argv);
    return RUN_ALL_TESTS();
}
")].

(** the sources in oclint-reporters *)
Definition reporters_sources : list str :=
  [$"reporters/HTMLReporter.cpp";
   $"reporters/JSONReporter.cpp";
   $"reporters/PMDReporter.cpp";
   $"reporters/TextReporter.cpp";
   $"reporters/XMLReporter.cpp";
   $"reporters/XcodeReporter.cpp";
   $"test/CanaryTest.cpp";
   $"test/HTMLReporterTest.cpp";
   $"test/JSONReporterTest.cpp";
   $"test/PMDReporterTest.cpp";
   $"test/TextReporterTest.cpp";
   $"test/XMLReporterTest.cpp";
   $"test/XcodeReporterTest.cpp"].

(** oclint-driver *)
Definition driver_lists : list (str * str) :=
  [($"CMakeLists.txt", $"CMAKE_MINIMUM_REQUIRED(VERSION 3.20)
PROJECT(OCLINT_DRIVER)

SET(CMAKE_MODULE_PATH
    ${CMAKE_MODULE_PATH}
    ""${CMAKE_CURRENT_SOURCE_DIR}/../oclint-core/cmake""
    )

INCLUDE(OCLintConfig)

INCLUDE_DIRECTORIES(
    ${OCLINT_SOURCE_DIR}/include
    )
LINK_DIRECTORIES(
    ${OCLINT_BUILD_DIR}/lib
    )

INCLUDE_DIRECTORIES(${OCLINT_DRIVER_SOURCE_DIR}/include)

ADD_SUBDIRECTORY(lib)

ADD_EXECUTABLE(oclint-${OCLINT_VERSION_RELEASE}
    main.cpp
    reporters_dlfcn_port.cpp
    rules_dlfcn_port.cpp
    )

TARGET_LINK_LIBRARIES(oclint-${OCLINT_VERSION_RELEASE}
    OCLintDriver
    OCLintRuleSet
    OCLintCore
    clangStaticAnalyzerFrontend
    clangStaticAnalyzerCheckers
    clangStaticAnalyzerCore
    clangRewriteFrontend
    clangRewrite
    clangCrossTU
    clangIndex
    ${CLANG_LIBRARIES}
    ${REQ_LLVM_LIBRARIES}
    ${CMAKE_DL_LIBS}
    )

IF(TEST_BUILD)
    TARGET_LINK_LIBRARIES(oclint-${OCLINT_VERSION_RELEASE}
        ${PROFILE_RT_LIBS}
        )
    ADD_SUBDIRECTORY(test)
ENDIF()

IF(DOC_GEN_BUILD)
    ADD_EXECUTABLE(oclint-docgen
        main_docgen.cpp
        rules_dlfcn_port.cpp
        )
    TARGET_LINK_LIBRARIES(oclint-docgen
        OCLintDriver
        OCLintRuleSet
        OCLintCore
        clangStaticAnalyzerFrontend
        clangStaticAnalyzerCheckers
        clangStaticAnalyzerCore
        clangRewriteFrontend
        clangRewrite
        ${CLANG_LIBRARIES}
        ${REQ_LLVM_LIBRARIES}
        ${CMAKE_DL_LIBS}
        )
ENDIF()
");
   ($"lib/CMakeLists.txt", $"ADD_LIBRARY(OCLintDriver
    CompilerInstance.cpp
    ConfigFile.cpp
    DiagnosticDispatcher.cpp
    Driver.cpp
    GenericException.cpp
    Logger.cpp
    Options.cpp
    RulesetBasedAnalyzer.cpp
    RulesetFilter.cpp
    )
");
   ($"test/CMakeLists.txt", $"MACRO(build_test name)
    ADD_EXECUTABLE(${name} ${name}.cpp)
    TARGET_LINK_LIBRARIES(${name}
        OCLintDriver
        OCLintRuleSet
        OCLintCore
        clangStaticAnalyzerFrontend
        clangStaticAnalyzerCheckers
        clangStaticAnalyzerCore
        clangRewriteFrontend
        clangRewrite
        ${GTEST_LIBS}
        ${PROFILE_RT_LIBS}
        ${CLANG_LIBRARIES}
        ${REQ_LLVM_LIBRARIES}
        )

    ADD_TEST(${name} ${EXECUTABLE_OUTPUT_PATH}/${name})
ENDMACRO(build_test)

BUILD_TEST(RulesetFilterTest)
")].

(** the sources in oclint-driver *)
Definition driver_sources : list str :=
  [$"lib/CompilerInstance.cpp";
   $"lib/ConfigFile.cpp";
   $"lib/DiagnosticDispatcher.cpp";
   $"lib/Driver.cpp";
   $"lib/GenericException.cpp";
   $"lib/Logger.cpp";
   $"lib/Options.cpp";
   $"lib/RulesetBasedAnalyzer.cpp";
   $"lib/RulesetFilter.cpp";
   $"main.cpp";
   $"main_docgen.cpp";
   $"reporters_dlfcn_port.cpp";
   $"rules_dlfcn_port.cpp";
   $"test/RulesetFilterTest.cpp"].

(** oclint-core/cmake/OCLintConfig.cmake *)
Definition OCLintConfig : str :=
  $"SET(CMAKE_DISABLE_SOURCE_CHANGES ON)
SET(CMAKE_DISABLE_IN_SOURCE_BUILD ON)
SET(CMAKE_MACOSX_RPATH ON)
SET(CMAKE_BUILD_TYPE None)

# Fix for GitHub issue #665 - avoid hardcoding build machine paths in rpath
# Use relative paths for distributable binaries
# macOS: @executable_path/../lib
# Linux: $ORIGIN/../lib
IF(APPLE)
    SET(CMAKE_INSTALL_RPATH ""@executable_path/../lib"")
    SET(CMAKE_BUILD_WITH_INSTALL_RPATH ON)
ELSEIF(UNIX)
    SET(CMAKE_INSTALL_RPATH ""$ORIGIN/../lib"")
    SET(CMAKE_BUILD_WITH_INSTALL_RPATH ON)
ENDIF()

IF(CMAKE_CXX_COMPILER_ID MATCHES ""Clang"")
    SET(CMAKE_CXX_FLAGS ""-fcolor-diagnostics"")
ENDIF()
SET(CMAKE_CXX_FLAGS ""-std=c++17 ${CMAKE_CXX_LINKER_FLAGS} -fno-rtti -fPIC ${CMAKE_CXX_FLAGS}"")
SET(CMAKE_SHARED_LINKER_FLAGS ""${CMAKE_CXX_LINKER_FLAGS} -fno-rtti"")

IF(APPLE)
    SET(CMAKE_CXX_FLAGS ""${CMAKE_CXX_FLAGS} -fvisibility-inlines-hidden"")
    SET(CMAKE_SHARED_LINKER_FLAGS ""${CMAKE_SHARED_LINKER_FLAGS}"")
ENDIF()

IF(OCLINT_BUILD_TYPE STREQUAL ""Release"")
    SET(CMAKE_CXX_FLAGS ""-O3 -DNDEBUG ${CMAKE_CXX_FLAGS}"")
    SET(CMAKE_SHARED_LINKER_FLAGS ""-s ${CMAKE_SHARED_LINKER_FLAGS}"")
ELSE()
    SET(CMAKE_CXX_FLAGS ""-O0 -g ${CMAKE_CXX_FLAGS}"")
    SET(CMAKE_SHARED_LINKER_FLAGS ""-g ${CMAKE_SHARED_LINKER_FLAGS}"")
ENDIF()

SET(EXECUTABLE_OUTPUT_PATH ${PROJECT_BINARY_DIR}/bin)

SET(OCLINT_VERSION_RELEASE ""26.02"")

IF(LLVM_ROOT)
    IF(NOT EXISTS ${LLVM_ROOT}/include/llvm)
        MESSAGE(FATAL_ERROR ""LLVM_ROOT (${LLVM_ROOT}) is not a valid LLVM install. Could not find ${LLVM_ROOT}/include/llvm"")
    ENDIF()
    MESSAGE(""LLVM_ROOT: ${LLVM_ROOT}"")
    IF(EXISTS ${LLVM_ROOT}/lib/cmake/llvm)
        SET(LLVM_DIR ${LLVM_ROOT}/lib/cmake/llvm)
    ELSE()
        SET(LLVM_DIR ${LLVM_ROOT}/share/llvm/cmake)
    ENDIF()
    SET(CMAKE_MODULE_PATH ${CMAKE_MODULE_PATH} ""${LLVM_DIR}"")
    INCLUDE(LLVMConfig)
ELSE()
    FIND_PACKAGE(LLVM REQUIRED CONFIG)
ENDIF()

INCLUDE_DIRECTORIES( ${LLVM_INCLUDE_DIRS} )
LINK_DIRECTORIES( ${LLVM_LIBRARY_DIRS} )
ADD_DEFINITIONS( ${LLVM_DEFINITIONS} )

STRING(REGEX MATCH ""[0-9]+\\.[0-9]+(\\.[0-9]+)?"" LLVM_VERSION_RELEASE ${LLVM_PACKAGE_VERSION})

MESSAGE(STATUS ""Found LLVM LLVM_PACKAGE_VERSION: ${LLVM_PACKAGE_VERSION} - LLVM_VERSION_RELEASE: ${LLVM_VERSION_RELEASE}"")
MESSAGE(STATUS ""Using LLVMConfig.cmake in: ${LLVM_DIR}"")
LLVM_MAP_COMPONENTS_TO_LIBNAMES(REQ_LLVM_LIBRARIES asmparser bitreader instrumentation mcparser option support frontendopenmp windowsdriver frontendhlsl)

SET(CLANG_LIBRARIES
    clangToolingCore
    clangTooling
    clangFrontend
    clangDriver
    clangSerialization
    clangParse
    clangSema
    clangAnalysis
    clangEdit
    clangASTMatchers
    clangAST
    clangLex
    clangSupport
    clangAPINotes
    clangBasic)

IF(TEST_BUILD)
    ENABLE_TESTING()
    # IF(NOT APPLE)
    #     ADD_DEFINITIONS(
    #         --coverage
    #         )
    # ENDIF()

    INCLUDE_DIRECTORIES(
        ${GOOGLETEST_SRC}/googlemock/include
        ${GOOGLETEST_SRC}/googletest/include
        )
    LINK_DIRECTORIES(
        ${GOOGLETEST_BUILD}
        ${GOOGLETEST_BUILD}/lib
        )
    SET(GTEST_LIBS gmock gtest)

    # Find CUDA
    FIND_PROGRAM(NVIDIA_NVCC_BIN ""nvcc"")
    IF (NVIDIA_NVCC_BIN)
        MESSAGE(STATUS ""Enable tests for CUDA rules."")
        SET(TEST_CUDA TRUE)
    ELSE()
        SET(TEST_CUDA FALSE)
    ENDIF()

    # Setup the path for profile_rt library
    # STRING(TOLOWER ${CMAKE_SYSTEM_NAME} COMPILER_RT_SYSTEM_NAME)
    # LINK_DIRECTORIES(${LLVM_LIBRARY_DIRS}/clang/${LLVM_VERSION_RELEASE}/lib/${COMPILER_RT_SYSTEM_NAME})
    # IF(APPLE)
    #     SET(CMAKE_CXX_FLAGS ""${CMAKE_CXX_FLAGS} -fprofile-arcs -ftest-coverage"")
    # ELSEIF(${CMAKE_SYSTEM_PROCESSOR} MATCHES ""aarch64"")
    #     SET(PROFILE_RT_LIBS clang_rt.profile-aarch64 --coverage)
    # ELSE()
    #     SET(PROFILE_RT_LIBS clang_rt.profile-x86_64 --coverage)
    # ENDIF()
ENDIF()

IF(DOC_GEN_BUILD)
    SET(CMAKE_CXX_FLAGS ""-DDOCGEN ${CMAKE_CXX_FLAGS}"")
ENDIF()
".

