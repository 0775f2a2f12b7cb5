(** * OCLint's own unit tests of oclint-rules/test/cuda, as examples about the model

    Written by tools/conformance/emit.py; do not edit. *)
From Verif Require Import Base ModelConfig ModelSource ModelAST ModelRuleTable ConformanceBase.

(** ** oclint-rules/test/cuda/CudaBranchDivergenceRuleTest.cpp *)

Definition CudaBranchDivergence_IfStmtWithElse : testcase :=
  {| ts_lang := LCUDA; ts_path := $"input.cu"; ts_code := [];
     ts_comments := []; ts_conf := [];
     ts_tops := [(toplevel 0 (TFunction true), (Node 0 [] (FunctionDecl {| f_name := $"foo"; f_method := None; f_isDefinition := true; f_bodyLines := (1)%Z |} [] (Some (Node 1 [] (CompoundStmt [(Node 2 [] (IfStmt [] (Node 3 [] (BinaryOperator BO_EQ (Node 4 [] (ImplicitCastExpr CK_LValueToRValue (Node 5 [] (MemberExpr false (Node 6 [] (DeclRefExpr 1009 $"threadIdx" false)))))) (Node 7 [] (IntegerLiteral (1)%Z)))) (Node 8 [] (CompoundStmt [])) (Some (Node 9 [] (CompoundStmt [])))))]))))))];
     ts_locs := [(1,1,1,58); (1,23,1,58); (1,25,1,56); (1,29,1,44); (1,29,1,39); (1,29,1,39); (1,29,1,29); (1,44,1,44); (1,47,1,48); (1,55,1,56)]%Z;
     ts_evals := []; ts_same := []; ts_decls := []; ts_parents := [] |}.
Example CudaBranchDivergence_IfStmtWithElse_holds : nth_violation (shippedRule sh_CudaBranchDivergence) CudaBranchDivergence_IfStmtWithElse 0 = Some (1, 25, 1, 56, $"")%Z.
Proof. vm_compute. reflexivity. Qed.

Definition CudaBranchDivergence_IfStmtWithoutElse : testcase :=
  {| ts_lang := LCUDA; ts_path := $"input.cu"; ts_code := [];
     ts_comments := []; ts_conf := [];
     ts_tops := [(toplevel 0 (TFunction true), (Node 0 [] (FunctionDecl {| f_name := $"foo"; f_method := None; f_isDefinition := true; f_bodyLines := (1)%Z |} [] (Some (Node 1 [] (CompoundStmt [(Node 2 [] (IfStmt [] (Node 3 [] (BinaryOperator BO_EQ (Node 4 [] (ImplicitCastExpr CK_LValueToRValue (Node 5 [] (MemberExpr false (Node 6 [] (DeclRefExpr 1008 $"threadIdx" false)))))) (Node 7 [] (IntegerLiteral (1)%Z)))) (Node 8 [] (CompoundStmt [])) None))]))))))];
     ts_locs := [(1,1,1,50); (1,23,1,50); (1,25,1,48); (1,29,1,44); (1,29,1,39); (1,29,1,39); (1,29,1,29); (1,44,1,44); (1,47,1,48)]%Z;
     ts_evals := []; ts_same := []; ts_decls := []; ts_parents := [] |}.
Example CudaBranchDivergence_IfStmtWithoutElse_holds : sorted_violations_of (shippedRule sh_CudaBranchDivergence) CudaBranchDivergence_IfStmtWithoutElse = Some [].
Proof. vm_compute. reflexivity. Qed.

Definition CudaBranchDivergence_IfStmtWithElseInHostFunction : testcase :=
  {| ts_lang := LCUDA; ts_path := $"input.cu"; ts_code := [];
     ts_comments := []; ts_conf := [];
     ts_tops := [(toplevel 0 (TFunction false), (Node 0 [] (FunctionDecl {| f_name := $"bar"; f_method := None; f_isDefinition := true; f_bodyLines := (1)%Z |} [(Node 1 [] (VarDecl {| v_isParm := true; v_name := $"x"; v_used := true; v_referenced := true; v_local := false; v_staticMember := false; v_private := false; v_unusedAttr := false; v_defaultArg := false; v_canonicalType := $"int"; v_inTemplate := false; v_contexts := [CxFunction true true false] |} None))] (Some (Node 2 [] (CompoundStmt [(Node 3 [] (IfStmt [] (Node 4 [] (BinaryOperator BO_EQ (Node 5 [] (ImplicitCastExpr CK_LValueToRValue (Node 6 [] (DeclRefExpr 1 $"x" false)))) (Node 7 [] (IntegerLiteral (1)%Z)))) (Node 8 [] (CompoundStmt [])) (Some (Node 9 [] (CompoundStmt [])))))]))))))];
     ts_locs := [(1,1,1,42); (1,10,1,14); (1,17,1,42); (1,19,1,40); (1,23,1,28); (1,23,1,23); (1,23,1,23); (1,28,1,28); (1,31,1,32); (1,39,1,40)]%Z;
     ts_evals := []; ts_same := []; ts_decls := []; ts_parents := [] |}.
Example CudaBranchDivergence_IfStmtWithElseInHostFunction_holds : sorted_violations_of (shippedRule sh_CudaBranchDivergence) CudaBranchDivergence_IfStmtWithElseInHostFunction = Some [].
Proof. vm_compute. reflexivity. Qed.

(** ** oclint-rules/test/cuda/CudaCyclomaticComplexityRuleTest.cpp *)

Definition CudaCyclomaticComplexity_CUDASupport : testcase :=
  {| ts_lang := LCUDA; ts_path := $"input.cu"; ts_code := [];
     ts_comments := []; ts_conf := [($"CYCLOMATIC_COMPLEXITY", $"1")];
     ts_tops := [(toplevel 0 (TFunction true), (Node 0 [] (FunctionDecl {| f_name := $"aMethod"; f_method := None; f_isDefinition := true; f_bodyLines := (1)%Z |} [] (Some (Node 1 [] (CompoundStmt [(Node 2 [] (IfStmt [] (Node 3 [] (ImplicitCastExpr CK_Other (Node 4 [] (IntegerLiteral (1)%Z)))) (Node 5 [] (CompoundStmt [])) None))]))))))];
     ts_locs := [(1,1,1,39); (1,27,1,39); (1,29,1,37); (1,33,1,33); (1,33,1,33); (1,36,1,37)]%Z;
     ts_evals := [(3, true)]; ts_same := []; ts_decls := []; ts_parents := [] |}.
Example CudaCyclomaticComplexity_CUDASupport_holds : nth_violation (shippedRule sh_CyclomaticComplexity) CudaCyclomaticComplexity_CUDASupport 0 = Some (1, 1, 1, 39, $"Cyclomatic Complexity Number 2 exceeds limit of 1")%Z.
Proof. vm_compute. reflexivity. Qed.

