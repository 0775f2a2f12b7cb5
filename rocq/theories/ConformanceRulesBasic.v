(** * OCLint's own unit tests of oclint-rules/test/basic, as examples about the model

    Written by tools/conformance/emit.py; do not edit. *)
From Verif Require Import Base ModelConfig ModelSource ModelAST ModelRuleTable ConformanceBase.

(** ** oclint-rules/test/basic/BitwiseOperatorInConditionalRuleTest.cpp *)

Definition BitwiseOperatorInConditional_LogicalOr : testcase :=
  {| ts_lang := LC; ts_path := $"input.c"; ts_code := [];
     ts_comments := []; ts_conf := [];
     ts_tops := [(toplevel 0 (TFunction false), (Node 0 [] (FunctionDecl {| f_name := $"m"; f_method := None; f_isDefinition := true; f_bodyLines := (1)%Z |} [(Node 1 [] (VarDecl {| v_isParm := true; v_name := $"b"; v_used := true; v_referenced := true; v_local := false; v_staticMember := false; v_private := false; v_unusedAttr := false; v_defaultArg := false; v_canonicalType := $"int"; v_inTemplate := false; v_contexts := [CxFunction true true false] |} None)); (Node 2 [] (VarDecl {| v_isParm := true; v_name := $"c"; v_used := true; v_referenced := true; v_local := false; v_staticMember := false; v_private := false; v_unusedAttr := false; v_defaultArg := false; v_canonicalType := $"int"; v_inTemplate := false; v_contexts := [CxFunction true true false] |} None))] (Some (Node 3 [] (CompoundStmt [(Node 4 [] (IfStmt [] (Node 5 [] (BinaryOperator BO_LOr (Node 6 [] (ImplicitCastExpr CK_LValueToRValue (Node 7 [] (DeclRefExpr 1 $"b" false)))) (Node 8 [] (ImplicitCastExpr CK_LValueToRValue (Node 9 [] (DeclRefExpr 2 $"c" false)))))) (Node 10 [] (CompoundStmt [(Node 11 [] NullStmt)])) None))]))))))];
     ts_locs := [(1,1,1,40); (1,8,1,12); (1,15,1,19); (1,22,1,40); (1,24,1,38); (1,28,1,33); (1,28,1,28); (1,28,1,28); (1,33,1,33); (1,33,1,33); (1,36,1,38); (1,37,1,37)]%Z;
     ts_evals := []; ts_same := []; ts_decls := []; ts_parents := [] |}.
Example BitwiseOperatorInConditional_LogicalOr_holds : sorted_violations_of (shippedRule sh_BitwiseOperatorInConditional) BitwiseOperatorInConditional_LogicalOr = Some [].
Proof. vm_compute. reflexivity. Qed.

Definition BitwiseOperatorInConditional_BitwiseOrAsTempVariable : testcase :=
  {| ts_lang := LC; ts_path := $"input.c"; ts_code := [];
     ts_comments := []; ts_conf := [];
     ts_tops := [(toplevel 0 (TFunction false), (Node 0 [] (FunctionDecl {| f_name := $"m"; f_method := None; f_isDefinition := true; f_bodyLines := (1)%Z |} [] (Some (Node 1 [] (CompoundStmt [(Node 2 [] (DeclStmt [(Node 3 [] (VarDecl {| v_isParm := false; v_name := $"a"; v_used := true; v_referenced := true; v_local := true; v_staticMember := false; v_private := false; v_unusedAttr := false; v_defaultArg := false; v_canonicalType := $"int"; v_inTemplate := false; v_contexts := [CxFunction true true false] |} (Some (Node 4 [] (BinaryOperator BO_Or (Node 5 [] (IntegerLiteral (1)%Z)) (Node 6 [] (IntegerLiteral (2)%Z)))))))])); (Node 7 [] (IfStmt [] (Node 8 [] (BinaryOperator BO_EQ (Node 9 [] (ImplicitCastExpr CK_LValueToRValue (Node 10 [] (DeclRefExpr 3 $"a" false)))) (Node 11 [] (IntegerLiteral (3)%Z)))) (Node 12 [] (CompoundStmt [(Node 13 [] NullStmt)])) None))]))))))];
     ts_locs := [(1,1,1,41); (1,10,1,41); (1,12,1,23); (1,12,1,22); (1,20,1,22); (1,20,1,20); (1,22,1,22); (1,25,1,39); (1,29,1,34); (1,29,1,29); (1,29,1,29); (1,34,1,34); (1,37,1,39); (1,38,1,38)]%Z;
     ts_evals := []; ts_same := []; ts_decls := []; ts_parents := [] |}.
Example BitwiseOperatorInConditional_BitwiseOrAsTempVariable_holds : sorted_violations_of (shippedRule sh_BitwiseOperatorInConditional) BitwiseOperatorInConditional_BitwiseOrAsTempVariable = Some [].
Proof. vm_compute. reflexivity. Qed.

Definition BitwiseOperatorInConditional_BitwiseOrInIf : testcase :=
  {| ts_lang := LC; ts_path := $"input.c"; ts_code := [];
     ts_comments := []; ts_conf := [];
     ts_tops := [(toplevel 0 (TFunction false), (Node 0 [] (FunctionDecl {| f_name := $"m"; f_method := None; f_isDefinition := true; f_bodyLines := (1)%Z |} [] (Some (Node 1 [] (CompoundStmt [(Node 2 [] (IfStmt [] (Node 3 [] (BinaryOperator BO_Or (Node 4 [] (IntegerLiteral (1)%Z)) (Node 5 [] (IntegerLiteral (0)%Z)))) (Node 6 [] (CompoundStmt [(Node 7 [] NullStmt)])) None))]))))))];
     ts_locs := [(1,1,1,27); (1,10,1,27); (1,12,1,25); (1,16,1,20); (1,16,1,16); (1,20,1,20); (1,23,1,25); (1,24,1,24)]%Z;
     ts_evals := [(3, true)]; ts_same := []; ts_decls := []; ts_parents := [] |}.
Example BitwiseOperatorInConditional_BitwiseOrInIf_holds : nth_violation (shippedRule sh_BitwiseOperatorInConditional) BitwiseOperatorInConditional_BitwiseOrInIf 0 = Some (1, 16, 1, 20, $"")%Z.
Proof. vm_compute. reflexivity. Qed.

Definition BitwiseOperatorInConditional_BitwiseOrInWhile : testcase :=
  {| ts_lang := LC; ts_path := $"input.c"; ts_code := [];
     ts_comments := []; ts_conf := [];
     ts_tops := [(toplevel 0 (TFunction false), (Node 0 [] (FunctionDecl {| f_name := $"m"; f_method := None; f_isDefinition := true; f_bodyLines := (1)%Z |} [] (Some (Node 1 [] (CompoundStmt [(Node 2 [] (WhileStmt [] (Node 3 [] (BinaryOperator BO_Or (Node 4 [] (IntegerLiteral (1)%Z)) (Node 5 [] (IntegerLiteral (0)%Z)))) (Node 6 [] (CompoundStmt [(Node 7 [] NullStmt)]))))]))))))];
     ts_locs := [(1,1,1,30); (1,10,1,30); (1,12,1,28); (1,19,1,23); (1,19,1,19); (1,23,1,23); (1,26,1,28); (1,27,1,27)]%Z;
     ts_evals := []; ts_same := []; ts_decls := []; ts_parents := [] |}.
Example BitwiseOperatorInConditional_BitwiseOrInWhile_holds : nth_violation (shippedRule sh_BitwiseOperatorInConditional) BitwiseOperatorInConditional_BitwiseOrInWhile 0 = Some (1, 19, 1, 23, $"")%Z.
Proof. vm_compute. reflexivity. Qed.

Definition BitwiseOperatorInConditional_BitwiseOrInDoWhile : testcase :=
  {| ts_lang := LC; ts_path := $"input.c"; ts_code := [];
     ts_comments := []; ts_conf := [];
     ts_tops := [(toplevel 0 (TFunction false), (Node 0 [] (FunctionDecl {| f_name := $"m"; f_method := None; f_isDefinition := true; f_bodyLines := (1)%Z |} [] (Some (Node 1 [] (CompoundStmt [(Node 2 [] (DoStmt (Node 3 [] (CompoundStmt [(Node 4 [] NullStmt)])) (Node 5 [] (BinaryOperator BO_Or (Node 6 [] (IntegerLiteral (1)%Z)) (Node 7 [] (IntegerLiteral (0)%Z))))))]))))))];
     ts_locs := [(1,1,1,34); (1,10,1,34); (1,12,1,31); (1,15,1,17); (1,16,1,16); (1,26,1,30); (1,26,1,26); (1,30,1,30)]%Z;
     ts_evals := []; ts_same := []; ts_decls := []; ts_parents := [] |}.
Example BitwiseOperatorInConditional_BitwiseOrInDoWhile_holds : nth_violation (shippedRule sh_BitwiseOperatorInConditional) BitwiseOperatorInConditional_BitwiseOrInDoWhile 0 = Some (1, 26, 1, 30, $"")%Z.
Proof. vm_compute. reflexivity. Qed.

Definition BitwiseOperatorInConditional_BitwiseOrInConditionalOperator : testcase :=
  {| ts_lang := LC; ts_path := $"input.c"; ts_code := [];
     ts_comments := []; ts_conf := [];
     ts_tops := [(toplevel 0 (TFunction false), (Node 0 [] (FunctionDecl {| f_name := $"m"; f_method := None; f_isDefinition := true; f_bodyLines := (1)%Z |} [(Node 1 [] (VarDecl {| v_isParm := true; v_name := $"b"; v_used := true; v_referenced := true; v_local := false; v_staticMember := false; v_private := false; v_unusedAttr := false; v_defaultArg := false; v_canonicalType := $"int"; v_inTemplate := false; v_contexts := [CxFunction true true false] |} None)); (Node 2 [] (VarDecl {| v_isParm := true; v_name := $"c"; v_used := true; v_referenced := true; v_local := false; v_staticMember := false; v_private := false; v_unusedAttr := false; v_defaultArg := false; v_canonicalType := $"int"; v_inTemplate := false; v_contexts := [CxFunction true true false] |} None))] (Some (Node 3 [] (CompoundStmt [(Node 4 [] (DeclStmt [(Node 5 [] (VarDecl {| v_isParm := false; v_name := $"a"; v_used := false; v_referenced := false; v_local := true; v_staticMember := false; v_private := false; v_unusedAttr := false; v_defaultArg := false; v_canonicalType := $"int"; v_inTemplate := false; v_contexts := [CxFunction true true false] |} (Some (Node 6 [] (ConditionalOperator (Node 7 [] (BinaryOperator BO_Or (Node 8 [] (IntegerLiteral (1)%Z)) (Node 9 [] (IntegerLiteral (0)%Z)))) (Node 10 [] (ImplicitCastExpr CK_LValueToRValue (Node 11 [] (DeclRefExpr 1 $"b" false)))) (Node 12 [] (ImplicitCastExpr CK_LValueToRValue (Node 13 [] (DeclRefExpr 2 $"c" false)))))))))]))]))))))];
     ts_locs := [(1,1,1,47); (1,8,1,12); (1,15,1,19); (1,22,1,47); (1,24,1,45); (1,24,1,44); (1,32,1,44); (1,32,1,36); (1,32,1,32); (1,36,1,36); (1,40,1,40); (1,40,1,40); (1,44,1,44); (1,44,1,44)]%Z;
     ts_evals := [(7, true)]; ts_same := []; ts_decls := []; ts_parents := [] |}.
Example BitwiseOperatorInConditional_BitwiseOrInConditionalOperator_holds : nth_violation (shippedRule sh_BitwiseOperatorInConditional) BitwiseOperatorInConditional_BitwiseOrInConditionalOperator 0 = Some (1, 32, 1, 36, $"")%Z.
Proof. vm_compute. reflexivity. Qed.

Definition BitwiseOperatorInConditional_BitwiseAndInIf : testcase :=
  {| ts_lang := LC; ts_path := $"input.c"; ts_code := [];
     ts_comments := []; ts_conf := [];
     ts_tops := [(toplevel 0 (TFunction false), (Node 0 [] (FunctionDecl {| f_name := $"m"; f_method := None; f_isDefinition := true; f_bodyLines := (1)%Z |} [] (Some (Node 1 [] (CompoundStmt [(Node 2 [] (IfStmt [] (Node 3 [] (BinaryOperator BO_And (Node 4 [] (IntegerLiteral (1)%Z)) (Node 5 [] (IntegerLiteral (0)%Z)))) (Node 6 [] (CompoundStmt [(Node 7 [] NullStmt)])) None))]))))))];
     ts_locs := [(1,1,1,27); (1,10,1,27); (1,12,1,25); (1,16,1,20); (1,16,1,16); (1,20,1,20); (1,23,1,25); (1,24,1,24)]%Z;
     ts_evals := [(3, false)]; ts_same := []; ts_decls := []; ts_parents := [] |}.
Example BitwiseOperatorInConditional_BitwiseAndInIf_holds : nth_violation (shippedRule sh_BitwiseOperatorInConditional) BitwiseOperatorInConditional_BitwiseAndInIf 0 = Some (1, 16, 1, 20, $"")%Z.
Proof. vm_compute. reflexivity. Qed.

Definition BitwiseOperatorInConditional_BitwiseAndInWhile : testcase :=
  {| ts_lang := LC; ts_path := $"input.c"; ts_code := [];
     ts_comments := []; ts_conf := [];
     ts_tops := [(toplevel 0 (TFunction false), (Node 0 [] (FunctionDecl {| f_name := $"m"; f_method := None; f_isDefinition := true; f_bodyLines := (1)%Z |} [] (Some (Node 1 [] (CompoundStmt [(Node 2 [] (WhileStmt [] (Node 3 [] (BinaryOperator BO_And (Node 4 [] (IntegerLiteral (1)%Z)) (Node 5 [] (IntegerLiteral (0)%Z)))) (Node 6 [] (CompoundStmt [(Node 7 [] NullStmt)]))))]))))))];
     ts_locs := [(1,1,1,30); (1,10,1,30); (1,12,1,28); (1,19,1,23); (1,19,1,19); (1,23,1,23); (1,26,1,28); (1,27,1,27)]%Z;
     ts_evals := []; ts_same := []; ts_decls := []; ts_parents := [] |}.
Example BitwiseOperatorInConditional_BitwiseAndInWhile_holds : nth_violation (shippedRule sh_BitwiseOperatorInConditional) BitwiseOperatorInConditional_BitwiseAndInWhile 0 = Some (1, 19, 1, 23, $"")%Z.
Proof. vm_compute. reflexivity. Qed.

Definition BitwiseOperatorInConditional_BitwiseAndInDoWhile : testcase :=
  {| ts_lang := LC; ts_path := $"input.c"; ts_code := [];
     ts_comments := []; ts_conf := [];
     ts_tops := [(toplevel 0 (TFunction false), (Node 0 [] (FunctionDecl {| f_name := $"m"; f_method := None; f_isDefinition := true; f_bodyLines := (1)%Z |} [] (Some (Node 1 [] (CompoundStmt [(Node 2 [] (DoStmt (Node 3 [] (CompoundStmt [(Node 4 [] NullStmt)])) (Node 5 [] (BinaryOperator BO_And (Node 6 [] (IntegerLiteral (1)%Z)) (Node 7 [] (IntegerLiteral (0)%Z))))))]))))))];
     ts_locs := [(1,1,1,34); (1,10,1,34); (1,12,1,31); (1,15,1,17); (1,16,1,16); (1,26,1,30); (1,26,1,26); (1,30,1,30)]%Z;
     ts_evals := []; ts_same := []; ts_decls := []; ts_parents := [] |}.
Example BitwiseOperatorInConditional_BitwiseAndInDoWhile_holds : nth_violation (shippedRule sh_BitwiseOperatorInConditional) BitwiseOperatorInConditional_BitwiseAndInDoWhile 0 = Some (1, 26, 1, 30, $"")%Z.
Proof. vm_compute. reflexivity. Qed.

Definition BitwiseOperatorInConditional_BitwiseAndInConditionalOperator : testcase :=
  {| ts_lang := LC; ts_path := $"input.c"; ts_code := [];
     ts_comments := []; ts_conf := [];
     ts_tops := [(toplevel 0 (TFunction false), (Node 0 [] (FunctionDecl {| f_name := $"m"; f_method := None; f_isDefinition := true; f_bodyLines := (1)%Z |} [(Node 1 [] (VarDecl {| v_isParm := true; v_name := $"b"; v_used := true; v_referenced := true; v_local := false; v_staticMember := false; v_private := false; v_unusedAttr := false; v_defaultArg := false; v_canonicalType := $"int"; v_inTemplate := false; v_contexts := [CxFunction true true false] |} None)); (Node 2 [] (VarDecl {| v_isParm := true; v_name := $"c"; v_used := true; v_referenced := true; v_local := false; v_staticMember := false; v_private := false; v_unusedAttr := false; v_defaultArg := false; v_canonicalType := $"int"; v_inTemplate := false; v_contexts := [CxFunction true true false] |} None))] (Some (Node 3 [] (CompoundStmt [(Node 4 [] (DeclStmt [(Node 5 [] (VarDecl {| v_isParm := false; v_name := $"a"; v_used := false; v_referenced := false; v_local := true; v_staticMember := false; v_private := false; v_unusedAttr := false; v_defaultArg := false; v_canonicalType := $"int"; v_inTemplate := false; v_contexts := [CxFunction true true false] |} (Some (Node 6 [] (ConditionalOperator (Node 7 [] (BinaryOperator BO_And (Node 8 [] (IntegerLiteral (1)%Z)) (Node 9 [] (IntegerLiteral (0)%Z)))) (Node 10 [] (ImplicitCastExpr CK_LValueToRValue (Node 11 [] (DeclRefExpr 1 $"b" false)))) (Node 12 [] (ImplicitCastExpr CK_LValueToRValue (Node 13 [] (DeclRefExpr 2 $"c" false)))))))))]))]))))))];
     ts_locs := [(1,1,1,47); (1,8,1,12); (1,15,1,19); (1,22,1,47); (1,24,1,45); (1,24,1,44); (1,32,1,44); (1,32,1,36); (1,32,1,32); (1,36,1,36); (1,40,1,40); (1,40,1,40); (1,44,1,44); (1,44,1,44)]%Z;
     ts_evals := [(7, false)]; ts_same := []; ts_decls := []; ts_parents := [] |}.
Example BitwiseOperatorInConditional_BitwiseAndInConditionalOperator_holds : nth_violation (shippedRule sh_BitwiseOperatorInConditional) BitwiseOperatorInConditional_BitwiseAndInConditionalOperator 0 = Some (1, 32, 1, 36, $"")%Z.
Proof. vm_compute. reflexivity. Qed.

Definition BitwiseOperatorInConditional_BitwiseXorInIf : testcase :=
  {| ts_lang := LC; ts_path := $"input.c"; ts_code := [];
     ts_comments := []; ts_conf := [];
     ts_tops := [(toplevel 0 (TFunction false), (Node 0 [] (FunctionDecl {| f_name := $"m"; f_method := None; f_isDefinition := true; f_bodyLines := (1)%Z |} [] (Some (Node 1 [] (CompoundStmt [(Node 2 [] (IfStmt [] (Node 3 [] (BinaryOperator BO_Xor (Node 4 [] (IntegerLiteral (1)%Z)) (Node 5 [] (IntegerLiteral (0)%Z)))) (Node 6 [] (CompoundStmt [(Node 7 [] NullStmt)])) None))]))))))];
     ts_locs := [(1,1,1,27); (1,10,1,27); (1,12,1,25); (1,16,1,20); (1,16,1,16); (1,20,1,20); (1,23,1,25); (1,24,1,24)]%Z;
     ts_evals := [(3, true)]; ts_same := []; ts_decls := []; ts_parents := [] |}.
Example BitwiseOperatorInConditional_BitwiseXorInIf_holds : nth_violation (shippedRule sh_BitwiseOperatorInConditional) BitwiseOperatorInConditional_BitwiseXorInIf 0 = Some (1, 16, 1, 20, $"")%Z.
Proof. vm_compute. reflexivity. Qed.

Definition BitwiseOperatorInConditional_BitwiseXorInWhile : testcase :=
  {| ts_lang := LC; ts_path := $"input.c"; ts_code := [];
     ts_comments := []; ts_conf := [];
     ts_tops := [(toplevel 0 (TFunction false), (Node 0 [] (FunctionDecl {| f_name := $"m"; f_method := None; f_isDefinition := true; f_bodyLines := (1)%Z |} [] (Some (Node 1 [] (CompoundStmt [(Node 2 [] (WhileStmt [] (Node 3 [] (BinaryOperator BO_Xor (Node 4 [] (IntegerLiteral (1)%Z)) (Node 5 [] (IntegerLiteral (0)%Z)))) (Node 6 [] (CompoundStmt [(Node 7 [] NullStmt)]))))]))))))];
     ts_locs := [(1,1,1,30); (1,10,1,30); (1,12,1,28); (1,19,1,23); (1,19,1,19); (1,23,1,23); (1,26,1,28); (1,27,1,27)]%Z;
     ts_evals := []; ts_same := []; ts_decls := []; ts_parents := [] |}.
Example BitwiseOperatorInConditional_BitwiseXorInWhile_holds : nth_violation (shippedRule sh_BitwiseOperatorInConditional) BitwiseOperatorInConditional_BitwiseXorInWhile 0 = Some (1, 19, 1, 23, $"")%Z.
Proof. vm_compute. reflexivity. Qed.

Definition BitwiseOperatorInConditional_BitwiseXorInDoWhile : testcase :=
  {| ts_lang := LC; ts_path := $"input.c"; ts_code := [];
     ts_comments := []; ts_conf := [];
     ts_tops := [(toplevel 0 (TFunction false), (Node 0 [] (FunctionDecl {| f_name := $"m"; f_method := None; f_isDefinition := true; f_bodyLines := (1)%Z |} [] (Some (Node 1 [] (CompoundStmt [(Node 2 [] (DoStmt (Node 3 [] (CompoundStmt [(Node 4 [] NullStmt)])) (Node 5 [] (BinaryOperator BO_Xor (Node 6 [] (IntegerLiteral (1)%Z)) (Node 7 [] (IntegerLiteral (0)%Z))))))]))))))];
     ts_locs := [(1,1,1,34); (1,10,1,34); (1,12,1,31); (1,15,1,17); (1,16,1,16); (1,26,1,30); (1,26,1,26); (1,30,1,30)]%Z;
     ts_evals := []; ts_same := []; ts_decls := []; ts_parents := [] |}.
Example BitwiseOperatorInConditional_BitwiseXorInDoWhile_holds : nth_violation (shippedRule sh_BitwiseOperatorInConditional) BitwiseOperatorInConditional_BitwiseXorInDoWhile 0 = Some (1, 26, 1, 30, $"")%Z.
Proof. vm_compute. reflexivity. Qed.

Definition BitwiseOperatorInConditional_BitwiseXorInConditionalOperator : testcase :=
  {| ts_lang := LC; ts_path := $"input.c"; ts_code := [];
     ts_comments := []; ts_conf := [];
     ts_tops := [(toplevel 0 (TFunction false), (Node 0 [] (FunctionDecl {| f_name := $"m"; f_method := None; f_isDefinition := true; f_bodyLines := (1)%Z |} [(Node 1 [] (VarDecl {| v_isParm := true; v_name := $"b"; v_used := true; v_referenced := true; v_local := false; v_staticMember := false; v_private := false; v_unusedAttr := false; v_defaultArg := false; v_canonicalType := $"int"; v_inTemplate := false; v_contexts := [CxFunction true true false] |} None)); (Node 2 [] (VarDecl {| v_isParm := true; v_name := $"c"; v_used := true; v_referenced := true; v_local := false; v_staticMember := false; v_private := false; v_unusedAttr := false; v_defaultArg := false; v_canonicalType := $"int"; v_inTemplate := false; v_contexts := [CxFunction true true false] |} None))] (Some (Node 3 [] (CompoundStmt [(Node 4 [] (DeclStmt [(Node 5 [] (VarDecl {| v_isParm := false; v_name := $"a"; v_used := false; v_referenced := false; v_local := true; v_staticMember := false; v_private := false; v_unusedAttr := false; v_defaultArg := false; v_canonicalType := $"int"; v_inTemplate := false; v_contexts := [CxFunction true true false] |} (Some (Node 6 [] (ConditionalOperator (Node 7 [] (BinaryOperator BO_Xor (Node 8 [] (IntegerLiteral (1)%Z)) (Node 9 [] (IntegerLiteral (0)%Z)))) (Node 10 [] (ImplicitCastExpr CK_LValueToRValue (Node 11 [] (DeclRefExpr 1 $"b" false)))) (Node 12 [] (ImplicitCastExpr CK_LValueToRValue (Node 13 [] (DeclRefExpr 2 $"c" false)))))))))]))]))))))];
     ts_locs := [(1,1,1,47); (1,8,1,12); (1,15,1,19); (1,22,1,47); (1,24,1,45); (1,24,1,44); (1,32,1,44); (1,32,1,36); (1,32,1,32); (1,36,1,36); (1,40,1,40); (1,40,1,40); (1,44,1,44); (1,44,1,44)]%Z;
     ts_evals := [(7, true)]; ts_same := []; ts_decls := []; ts_parents := [] |}.
Example BitwiseOperatorInConditional_BitwiseXorInConditionalOperator_holds : nth_violation (shippedRule sh_BitwiseOperatorInConditional) BitwiseOperatorInConditional_BitwiseXorInConditionalOperator 0 = Some (1, 32, 1, 36, $"")%Z.
Proof. vm_compute. reflexivity. Qed.

Definition BitwiseOperatorInConditional_BitwiseNested : testcase :=
  {| ts_lang := LC; ts_path := $"input.c"; ts_code := [];
     ts_comments := []; ts_conf := [];
     ts_tops := [(toplevel 0 (TFunction false), (Node 0 [] (FunctionDecl {| f_name := $"m"; f_method := None; f_isDefinition := true; f_bodyLines := (1)%Z |} [] (Some (Node 1 [] (CompoundStmt [(Node 2 [] (IfStmt [] (Node 3 [] (BinaryOperator BO_LAnd (Node 4 [] (BinaryOperator BO_Or (Node 5 [] (IntegerLiteral (1)%Z)) (Node 6 [] (IntegerLiteral (0)%Z)))) (Node 7 [] (IntegerLiteral (0)%Z)))) (Node 8 [] (CompoundStmt [(Node 9 [] NullStmt)])) None))]))))))];
     ts_locs := [(1,1,1,32); (1,10,1,32); (1,12,1,30); (1,16,1,25); (1,16,1,20); (1,16,1,16); (1,20,1,20); (1,25,1,25); (1,28,1,30); (1,29,1,29)]%Z;
     ts_evals := [(3, false)]; ts_same := []; ts_decls := []; ts_parents := [] |}.
Example BitwiseOperatorInConditional_BitwiseNested_holds : nth_violation (shippedRule sh_BitwiseOperatorInConditional) BitwiseOperatorInConditional_BitwiseNested 0 = Some (1, 16, 1, 25, $"")%Z.
Proof. vm_compute. reflexivity. Qed.

Definition BitwiseOperatorInConditional_BitwiseNestedLeft : testcase :=
  {| ts_lang := LC; ts_path := $"input.c"; ts_code := [];
     ts_comments := []; ts_conf := [];
     ts_tops := [(toplevel 0 (TFunction false), (Node 0 [] (FunctionDecl {| f_name := $"m"; f_method := None; f_isDefinition := true; f_bodyLines := (1)%Z |} [] (Some (Node 1 [] (CompoundStmt [(Node 2 [] (IfStmt [] (Node 3 [] (BinaryOperator BO_LOr (Node 4 [] (ParenExpr (Node 5 [] (BinaryOperator BO_Or (Node 6 [] (IntegerLiteral (1)%Z)) (Node 7 [] (IntegerLiteral (0)%Z)))))) (Node 8 [] (ParenExpr (Node 9 [] (BinaryOperator BO_LOr (Node 10 [] (IntegerLiteral (1)%Z)) (Node 11 [] (IntegerLiteral (0)%Z)))))))) (Node 12 [] (CompoundStmt [(Node 13 [] NullStmt)])) None))]))))))];
     ts_locs := [(1,1,1,41); (1,10,1,41); (1,12,1,39); (1,16,1,34); (1,16,1,22); (1,17,1,21); (1,17,1,17); (1,21,1,21); (1,27,1,34); (1,28,1,33); (1,28,1,28); (1,33,1,33); (1,37,1,39); (1,38,1,38)]%Z;
     ts_evals := [(3, true)]; ts_same := []; ts_decls := []; ts_parents := [] |}.
Example BitwiseOperatorInConditional_BitwiseNestedLeft_holds : nth_violation (shippedRule sh_BitwiseOperatorInConditional) BitwiseOperatorInConditional_BitwiseNestedLeft 0 = Some (1, 16, 1, 34, $"")%Z.
Proof. vm_compute. reflexivity. Qed.

Definition BitwiseOperatorInConditional_BitwiseNestedMiddle : testcase :=
  {| ts_lang := LC; ts_path := $"input.c"; ts_code := [];
     ts_comments := []; ts_conf := [];
     ts_tops := [(toplevel 0 (TFunction false), (Node 0 [] (FunctionDecl {| f_name := $"m"; f_method := None; f_isDefinition := true; f_bodyLines := (1)%Z |} [] (Some (Node 1 [] (CompoundStmt [(Node 2 [] (IfStmt [] (Node 3 [] (BinaryOperator BO_And (Node 4 [] (ParenExpr (Node 5 [] (BinaryOperator BO_LOr (Node 6 [] (IntegerLiteral (1)%Z)) (Node 7 [] (IntegerLiteral (0)%Z)))))) (Node 8 [] (ParenExpr (Node 9 [] (BinaryOperator BO_LOr (Node 10 [] (IntegerLiteral (1)%Z)) (Node 11 [] (IntegerLiteral (0)%Z)))))))) (Node 12 [] (CompoundStmt [(Node 13 [] NullStmt)])) None))]))))))];
     ts_locs := [(1,1,1,41); (1,10,1,41); (1,12,1,39); (1,16,1,34); (1,16,1,23); (1,17,1,22); (1,17,1,17); (1,22,1,22); (1,27,1,34); (1,28,1,33); (1,28,1,28); (1,33,1,33); (1,37,1,39); (1,38,1,38)]%Z;
     ts_evals := [(3, true)]; ts_same := []; ts_decls := []; ts_parents := [] |}.
Example BitwiseOperatorInConditional_BitwiseNestedMiddle_holds : nth_violation (shippedRule sh_BitwiseOperatorInConditional) BitwiseOperatorInConditional_BitwiseNestedMiddle 0 = Some (1, 16, 1, 34, $"")%Z.
Proof. vm_compute. reflexivity. Qed.

Definition BitwiseOperatorInConditional_BitwiseNestedRight : testcase :=
  {| ts_lang := LC; ts_path := $"input.c"; ts_code := [];
     ts_comments := []; ts_conf := [];
     ts_tops := [(toplevel 0 (TFunction false), (Node 0 [] (FunctionDecl {| f_name := $"m"; f_method := None; f_isDefinition := true; f_bodyLines := (1)%Z |} [] (Some (Node 1 [] (CompoundStmt [(Node 2 [] (IfStmt [] (Node 3 [] (BinaryOperator BO_LOr (Node 4 [] (ParenExpr (Node 5 [] (BinaryOperator BO_LOr (Node 6 [] (IntegerLiteral (1)%Z)) (Node 7 [] (IntegerLiteral (0)%Z)))))) (Node 8 [] (ParenExpr (Node 9 [] (BinaryOperator BO_Or (Node 10 [] (IntegerLiteral (1)%Z)) (Node 11 [] (IntegerLiteral (0)%Z)))))))) (Node 12 [] (CompoundStmt [(Node 13 [] NullStmt)])) None))]))))))];
     ts_locs := [(1,1,1,41); (1,10,1,41); (1,12,1,39); (1,16,1,34); (1,16,1,23); (1,17,1,22); (1,17,1,17); (1,22,1,22); (1,28,1,34); (1,29,1,33); (1,29,1,29); (1,33,1,33); (1,37,1,39); (1,38,1,38)]%Z;
     ts_evals := [(3, true)]; ts_same := []; ts_decls := []; ts_parents := [] |}.
Example BitwiseOperatorInConditional_BitwiseNestedRight_holds : nth_violation (shippedRule sh_BitwiseOperatorInConditional) BitwiseOperatorInConditional_BitwiseNestedRight 0 = Some (1, 16, 1, 34, $"")%Z.
Proof. vm_compute. reflexivity. Qed.

Definition BitwiseOperatorInConditional_BitwiseNestedDeep : testcase :=
  {| ts_lang := LC; ts_path := $"input.c"; ts_code := [];
     ts_comments := []; ts_conf := [];
     ts_tops := [(toplevel 0 (TFunction false), (Node 0 [] (FunctionDecl {| f_name := $"m"; f_method := None; f_isDefinition := true; f_bodyLines := (1)%Z |} [(Node 1 [] (VarDecl {| v_isParm := true; v_name := $"a"; v_used := true; v_referenced := true; v_local := false; v_staticMember := false; v_private := false; v_unusedAttr := false; v_defaultArg := false; v_canonicalType := $"int"; v_inTemplate := false; v_contexts := [CxFunction true true false] |} None)); (Node 2 [] (VarDecl {| v_isParm := true; v_name := $"b"; v_used := true; v_referenced := true; v_local := false; v_staticMember := false; v_private := false; v_unusedAttr := false; v_defaultArg := false; v_canonicalType := $"int"; v_inTemplate := false; v_contexts := [CxFunction true true false] |} None))] (Some (Node 3 [] (CompoundStmt [(Node 4 [] (IfStmt [] (Node 5 [] (BinaryOperator BO_LAnd (Node 6 [] (ParenExpr (Node 7 [] (BinaryOperator BO_LOr (Node 8 [] (ParenExpr (Node 9 [] (BinaryOperator BO_LOr (Node 10 [] (ImplicitCastExpr CK_LValueToRValue (Node 11 [] (DeclRefExpr 1 $"a" false)))) (Node 12 [] (ImplicitCastExpr CK_LValueToRValue (Node 13 [] (DeclRefExpr 2 $"b" false)))))))) (Node 14 [] (ImplicitCastExpr CK_LValueToRValue (Node 15 [] (DeclRefExpr 1 $"a" false)))))))) (Node 16 [] (ParenExpr (Node 17 [] (BinaryOperator BO_LOr (Node 18 [] (ParenExpr (Node 19 [] (BinaryOperator BO_LOr (Node 20 [] (ImplicitCastExpr CK_LValueToRValue (Node 21 [] (DeclRefExpr 2 $"b" false)))) (Node 22 [] (ImplicitCastExpr CK_LValueToRValue (Node 23 [] (DeclRefExpr 2 $"b" false)))))))) (Node 24 [] (ParenExpr (Node 25 [] (BinaryOperator BO_And (Node 26 [] (ImplicitCastExpr CK_LValueToRValue (Node 27 [] (DeclRefExpr 1 $"a" false)))) (Node 28 [] (ImplicitCastExpr CK_LValueToRValue (Node 29 [] (DeclRefExpr 2 $"b" false)))))))))))))) (Node 30 [] (CompoundStmt [(Node 31 [] NullStmt)])) None))]))))))];
     ts_locs := [(1,1,1,74); (1,8,1,12); (1,15,1,19); (1,22,1,74); (1,24,1,72); (1,28,1,67); (1,28,1,42); (1,29,1,41); (1,29,1,36); (1,30,1,35); (1,30,1,30); (1,30,1,30); (1,35,1,35); (1,35,1,35); (1,41,1,41); (1,41,1,41); (1,47,1,67); (1,48,1,66); (1,48,1,55); (1,49,1,54); (1,49,1,49); (1,49,1,49); (1,54,1,54); (1,54,1,54); (1,60,1,66); (1,61,1,65); (1,61,1,61); (1,61,1,61); (1,65,1,65); (1,65,1,65); (1,70,1,72); (1,71,1,71)]%Z;
     ts_evals := []; ts_same := []; ts_decls := []; ts_parents := [] |}.
Example BitwiseOperatorInConditional_BitwiseNestedDeep_holds : nth_violation (shippedRule sh_BitwiseOperatorInConditional) BitwiseOperatorInConditional_BitwiseNestedDeep 0 = Some (1, 28, 1, 67, $"")%Z.
Proof. vm_compute. reflexivity. Qed.

(** ** oclint-rules/test/basic/BrokenNullCheckRuleTest.cpp *)

Definition BrokenNullCheck_C_CorrectExplicitNullEqCheck : testcase :=
  {| ts_lang := LC; ts_path := $"input.c"; ts_code := [];
     ts_comments := []; ts_conf := [];
     ts_tops := [(toplevel 0 (TOther), (Node 0 [] (OtherDecl []))); (toplevel 1 (TOther), (Node 1 [] (OtherDecl [(Node 2 [] (OtherDecl [])); (Node 3 [] (OtherDecl []))]))); (toplevel 4 (TFunction false), (Node 4 [] (FunctionDecl {| f_name := $"m"; f_method := None; f_isDefinition := true; f_bodyLines := (1)%Z |} [(Node 5 [] (VarDecl {| v_isParm := true; v_name := $"a"; v_used := true; v_referenced := true; v_local := false; v_staticMember := false; v_private := false; v_unusedAttr := false; v_defaultArg := false; v_canonicalType := $"struct A *"; v_inTemplate := false; v_contexts := [CxFunction true true false] |} None)); (Node 6 [] (VarDecl {| v_isParm := true; v_name := $"b"; v_used := false; v_referenced := false; v_local := false; v_staticMember := false; v_private := false; v_unusedAttr := false; v_defaultArg := false; v_canonicalType := $"struct B *"; v_inTemplate := false; v_contexts := [CxFunction true true false] |} None))] (Some (Node 7 [] (CompoundStmt [(Node 8 [] (IfStmt [] (Node 9 [] (BinaryOperator BO_LAnd (Node 10 [] (BinaryOperator BO_NE (Node 11 [] (ImplicitCastExpr CK_LValueToRValue (Node 12 [] (DeclRefExpr 5 $"a" false)))) (Node 13 [] (ImplicitCastExpr CK_NullToPointer (Node 14 [] (ParenExpr (Node 15 [] (CStyleCastExpr CK_NullToPointer (Node 16 [] (IntegerLiteral (0)%Z)))))))))) (Node 17 [] (BinaryOperator BO_EQ (Node 18 [] (ImplicitCastExpr CK_LValueToRValue (Node 19 [] (MemberExpr true (Node 20 [] (ImplicitCastExpr CK_LValueToRValue (Node 21 [] (DeclRefExpr 5 $"a" false)))))))) (Node 22 [] (IntegerLiteral (1)%Z)))))) (Node 23 [] (CompoundStmt [(Node 24 [] NullStmt)])) None))]))))))];
     ts_locs := [(2,1,2,11); (3,1,6,1); (4,5,4,9); (5,5,5,9); (7,1,7,72); (7,8,7,18); (7,21,7,31); (7,34,7,72); (7,36,7,70); (7,40,7,63); (7,40,7,45); (7,40,7,40); (7,40,7,40); (7,45,7,45); (7,45,7,45); (7,45,7,45); (7,45,7,45); (7,53,7,63); (7,53,7,56); (7,53,7,56); (7,53,7,53); (7,53,7,53); (7,63,7,63); (7,66,7,70); (7,68,7,68)]%Z;
     ts_evals := []; ts_same := []; ts_decls := []; ts_parents := [] |}.
Example BrokenNullCheck_C_CorrectExplicitNullEqCheck_holds : sorted_violations_of (shippedRule sh_BrokenNullCheck) BrokenNullCheck_C_CorrectExplicitNullEqCheck = Some [].
Proof. vm_compute. reflexivity. Qed.

Definition BrokenNullCheck_C_CorrectEzNullEqCheck : testcase :=
  {| ts_lang := LC; ts_path := $"input.c"; ts_code := [];
     ts_comments := []; ts_conf := [];
     ts_tops := [(toplevel 0 (TOther), (Node 0 [] (OtherDecl []))); (toplevel 1 (TOther), (Node 1 [] (OtherDecl [(Node 2 [] (OtherDecl [])); (Node 3 [] (OtherDecl []))]))); (toplevel 4 (TFunction false), (Node 4 [] (FunctionDecl {| f_name := $"m"; f_method := None; f_isDefinition := true; f_bodyLines := (1)%Z |} [(Node 5 [] (VarDecl {| v_isParm := true; v_name := $"a"; v_used := true; v_referenced := true; v_local := false; v_staticMember := false; v_private := false; v_unusedAttr := false; v_defaultArg := false; v_canonicalType := $"struct A *"; v_inTemplate := false; v_contexts := [CxFunction true true false] |} None)); (Node 6 [] (VarDecl {| v_isParm := true; v_name := $"b"; v_used := false; v_referenced := false; v_local := false; v_staticMember := false; v_private := false; v_unusedAttr := false; v_defaultArg := false; v_canonicalType := $"struct B *"; v_inTemplate := false; v_contexts := [CxFunction true true false] |} None))] (Some (Node 7 [] (CompoundStmt [(Node 8 [] (IfStmt [] (Node 9 [] (BinaryOperator BO_LAnd (Node 10 [] (ImplicitCastExpr CK_LValueToRValue (Node 11 [] (DeclRefExpr 5 $"a" false)))) (Node 12 [] (BinaryOperator BO_EQ (Node 13 [] (ImplicitCastExpr CK_LValueToRValue (Node 14 [] (MemberExpr true (Node 15 [] (ImplicitCastExpr CK_LValueToRValue (Node 16 [] (DeclRefExpr 5 $"a" false)))))))) (Node 17 [] (IntegerLiteral (1)%Z)))))) (Node 18 [] (CompoundStmt [(Node 19 [] NullStmt)])) None))]))))))];
     ts_locs := [(2,1,2,11); (3,1,6,1); (4,5,4,9); (5,5,5,9); (7,1,7,64); (7,8,7,18); (7,21,7,31); (7,34,7,64); (7,36,7,62); (7,40,7,55); (7,40,7,40); (7,40,7,40); (7,45,7,55); (7,45,7,48); (7,45,7,48); (7,45,7,45); (7,45,7,45); (7,55,7,55); (7,58,7,62); (7,60,7,60)]%Z;
     ts_evals := []; ts_same := []; ts_decls := []; ts_parents := [] |}.
Example BrokenNullCheck_C_CorrectEzNullEqCheck_holds : sorted_violations_of (shippedRule sh_BrokenNullCheck) BrokenNullCheck_C_CorrectEzNullEqCheck = Some [].
Proof. vm_compute. reflexivity. Qed.

Definition BrokenNullCheck_C_BrokenExplicitNullEqCheck : testcase :=
  {| ts_lang := LC; ts_path := $"input.c"; ts_code := [];
     ts_comments := []; ts_conf := [];
     ts_tops := [(toplevel 0 (TOther), (Node 0 [] (OtherDecl []))); (toplevel 1 (TOther), (Node 1 [] (OtherDecl [(Node 2 [] (OtherDecl [])); (Node 3 [] (OtherDecl []))]))); (toplevel 4 (TFunction false), (Node 4 [] (FunctionDecl {| f_name := $"m"; f_method := None; f_isDefinition := true; f_bodyLines := (1)%Z |} [(Node 5 [] (VarDecl {| v_isParm := true; v_name := $"a"; v_used := true; v_referenced := true; v_local := false; v_staticMember := false; v_private := false; v_unusedAttr := false; v_defaultArg := false; v_canonicalType := $"struct A *"; v_inTemplate := false; v_contexts := [CxFunction true true false] |} None)); (Node 6 [] (VarDecl {| v_isParm := true; v_name := $"b"; v_used := false; v_referenced := false; v_local := false; v_staticMember := false; v_private := false; v_unusedAttr := false; v_defaultArg := false; v_canonicalType := $"struct B *"; v_inTemplate := false; v_contexts := [CxFunction true true false] |} None))] (Some (Node 7 [] (CompoundStmt [(Node 8 [] (IfStmt [] (Node 9 [] (BinaryOperator BO_LOr (Node 10 [] (BinaryOperator BO_NE (Node 11 [] (ImplicitCastExpr CK_LValueToRValue (Node 12 [] (DeclRefExpr 5 $"a" false)))) (Node 13 [] (ImplicitCastExpr CK_NullToPointer (Node 14 [] (ParenExpr (Node 15 [] (CStyleCastExpr CK_NullToPointer (Node 16 [] (IntegerLiteral (0)%Z)))))))))) (Node 17 [] (BinaryOperator BO_EQ (Node 18 [] (ImplicitCastExpr CK_LValueToRValue (Node 19 [] (MemberExpr true (Node 20 [] (ImplicitCastExpr CK_LValueToRValue (Node 21 [] (DeclRefExpr 5 $"a" false)))))))) (Node 22 [] (IntegerLiteral (1)%Z)))))) (Node 23 [] (CompoundStmt [(Node 24 [] NullStmt)])) None))]))))))];
     ts_locs := [(2,1,2,11); (3,1,6,1); (4,5,4,9); (5,5,5,9); (7,1,7,72); (7,8,7,18); (7,21,7,31); (7,34,7,72); (7,36,7,70); (7,40,7,63); (7,40,7,45); (7,40,7,40); (7,40,7,40); (7,45,7,45); (7,45,7,45); (7,45,7,45); (7,45,7,45); (7,53,7,63); (7,53,7,56); (7,53,7,56); (7,53,7,53); (7,53,7,53); (7,63,7,63); (7,66,7,70); (7,68,7,68)]%Z;
     ts_evals := []; ts_same := []; ts_decls := []; ts_parents := [] |}.
Example BrokenNullCheck_C_BrokenExplicitNullEqCheck_holds : nth_violation (shippedRule sh_BrokenNullCheck) BrokenNullCheck_C_BrokenExplicitNullEqCheck 0 = Some (7, 40, 7, 63, $"")%Z.
Proof. vm_compute. reflexivity. Qed.

Definition BrokenNullCheck_C_BrokenEzNullEqCheck : testcase :=
  {| ts_lang := LC; ts_path := $"input.c"; ts_code := [];
     ts_comments := []; ts_conf := [];
     ts_tops := [(toplevel 0 (TOther), (Node 0 [] (OtherDecl []))); (toplevel 1 (TOther), (Node 1 [] (OtherDecl [(Node 2 [] (OtherDecl [])); (Node 3 [] (OtherDecl []))]))); (toplevel 4 (TFunction false), (Node 4 [] (FunctionDecl {| f_name := $"m"; f_method := None; f_isDefinition := true; f_bodyLines := (1)%Z |} [(Node 5 [] (VarDecl {| v_isParm := true; v_name := $"a"; v_used := true; v_referenced := true; v_local := false; v_staticMember := false; v_private := false; v_unusedAttr := false; v_defaultArg := false; v_canonicalType := $"struct A *"; v_inTemplate := false; v_contexts := [CxFunction true true false] |} None)); (Node 6 [] (VarDecl {| v_isParm := true; v_name := $"b"; v_used := false; v_referenced := false; v_local := false; v_staticMember := false; v_private := false; v_unusedAttr := false; v_defaultArg := false; v_canonicalType := $"struct B *"; v_inTemplate := false; v_contexts := [CxFunction true true false] |} None))] (Some (Node 7 [] (CompoundStmt [(Node 8 [] (IfStmt [] (Node 9 [] (BinaryOperator BO_LOr (Node 10 [] (ImplicitCastExpr CK_LValueToRValue (Node 11 [] (DeclRefExpr 5 $"a" false)))) (Node 12 [] (BinaryOperator BO_EQ (Node 13 [] (ImplicitCastExpr CK_LValueToRValue (Node 14 [] (MemberExpr true (Node 15 [] (ImplicitCastExpr CK_LValueToRValue (Node 16 [] (DeclRefExpr 5 $"a" false)))))))) (Node 17 [] (IntegerLiteral (1)%Z)))))) (Node 18 [] (CompoundStmt [(Node 19 [] NullStmt)])) None))]))))))];
     ts_locs := [(2,1,2,11); (3,1,6,1); (4,5,4,9); (5,5,5,9); (7,1,7,64); (7,8,7,18); (7,21,7,31); (7,34,7,64); (7,36,7,62); (7,40,7,55); (7,40,7,40); (7,40,7,40); (7,45,7,55); (7,45,7,48); (7,45,7,48); (7,45,7,45); (7,45,7,45); (7,55,7,55); (7,58,7,62); (7,60,7,60)]%Z;
     ts_evals := []; ts_same := []; ts_decls := []; ts_parents := [] |}.
Example BrokenNullCheck_C_BrokenEzNullEqCheck_holds : nth_violation (shippedRule sh_BrokenNullCheck) BrokenNullCheck_C_BrokenEzNullEqCheck 0 = Some (7, 40, 7, 55, $"")%Z.
Proof. vm_compute. reflexivity. Qed.

Definition BrokenNullCheck_C_CorrectExplicitNullNeCheck : testcase :=
  {| ts_lang := LC; ts_path := $"input.c"; ts_code := [];
     ts_comments := []; ts_conf := [];
     ts_tops := [(toplevel 0 (TOther), (Node 0 [] (OtherDecl []))); (toplevel 1 (TOther), (Node 1 [] (OtherDecl [(Node 2 [] (OtherDecl [])); (Node 3 [] (OtherDecl []))]))); (toplevel 4 (TFunction false), (Node 4 [] (FunctionDecl {| f_name := $"m"; f_method := None; f_isDefinition := true; f_bodyLines := (1)%Z |} [(Node 5 [] (VarDecl {| v_isParm := true; v_name := $"a"; v_used := true; v_referenced := true; v_local := false; v_staticMember := false; v_private := false; v_unusedAttr := false; v_defaultArg := false; v_canonicalType := $"struct A *"; v_inTemplate := false; v_contexts := [CxFunction true true false] |} None)); (Node 6 [] (VarDecl {| v_isParm := true; v_name := $"b"; v_used := false; v_referenced := false; v_local := false; v_staticMember := false; v_private := false; v_unusedAttr := false; v_defaultArg := false; v_canonicalType := $"struct B *"; v_inTemplate := false; v_contexts := [CxFunction true true false] |} None))] (Some (Node 7 [] (CompoundStmt [(Node 8 [] (IfStmt [] (Node 9 [] (BinaryOperator BO_LOr (Node 10 [] (BinaryOperator BO_EQ (Node 11 [] (ImplicitCastExpr CK_LValueToRValue (Node 12 [] (DeclRefExpr 5 $"a" false)))) (Node 13 [] (ImplicitCastExpr CK_NullToPointer (Node 14 [] (ParenExpr (Node 15 [] (CStyleCastExpr CK_NullToPointer (Node 16 [] (IntegerLiteral (0)%Z)))))))))) (Node 17 [] (BinaryOperator BO_EQ (Node 18 [] (ImplicitCastExpr CK_LValueToRValue (Node 19 [] (MemberExpr true (Node 20 [] (ImplicitCastExpr CK_LValueToRValue (Node 21 [] (DeclRefExpr 5 $"a" false)))))))) (Node 22 [] (IntegerLiteral (1)%Z)))))) (Node 23 [] (CompoundStmt [(Node 24 [] NullStmt)])) None))]))))))];
     ts_locs := [(2,1,2,11); (3,1,6,1); (4,5,4,9); (5,5,5,9); (7,1,7,72); (7,8,7,18); (7,21,7,31); (7,34,7,72); (7,36,7,70); (7,40,7,63); (7,40,7,45); (7,40,7,40); (7,40,7,40); (7,45,7,45); (7,45,7,45); (7,45,7,45); (7,45,7,45); (7,53,7,63); (7,53,7,56); (7,53,7,56); (7,53,7,53); (7,53,7,53); (7,63,7,63); (7,66,7,70); (7,68,7,68)]%Z;
     ts_evals := []; ts_same := []; ts_decls := []; ts_parents := [] |}.
Example BrokenNullCheck_C_CorrectExplicitNullNeCheck_holds : sorted_violations_of (shippedRule sh_BrokenNullCheck) BrokenNullCheck_C_CorrectExplicitNullNeCheck = Some [].
Proof. vm_compute. reflexivity. Qed.

Definition BrokenNullCheck_C_CorrectEzNullNeCheck : testcase :=
  {| ts_lang := LC; ts_path := $"input.c"; ts_code := [];
     ts_comments := []; ts_conf := [];
     ts_tops := [(toplevel 0 (TOther), (Node 0 [] (OtherDecl []))); (toplevel 1 (TOther), (Node 1 [] (OtherDecl [(Node 2 [] (OtherDecl [])); (Node 3 [] (OtherDecl []))]))); (toplevel 4 (TFunction false), (Node 4 [] (FunctionDecl {| f_name := $"m"; f_method := None; f_isDefinition := true; f_bodyLines := (1)%Z |} [(Node 5 [] (VarDecl {| v_isParm := true; v_name := $"a"; v_used := true; v_referenced := true; v_local := false; v_staticMember := false; v_private := false; v_unusedAttr := false; v_defaultArg := false; v_canonicalType := $"struct A *"; v_inTemplate := false; v_contexts := [CxFunction true true false] |} None)); (Node 6 [] (VarDecl {| v_isParm := true; v_name := $"b"; v_used := false; v_referenced := false; v_local := false; v_staticMember := false; v_private := false; v_unusedAttr := false; v_defaultArg := false; v_canonicalType := $"struct B *"; v_inTemplate := false; v_contexts := [CxFunction true true false] |} None))] (Some (Node 7 [] (CompoundStmt [(Node 8 [] (IfStmt [] (Node 9 [] (BinaryOperator BO_LOr (Node 10 [] (UnaryOperator UO_LNot (Node 11 [] (ImplicitCastExpr CK_LValueToRValue (Node 12 [] (DeclRefExpr 5 $"a" false)))))) (Node 13 [] (BinaryOperator BO_EQ (Node 14 [] (ImplicitCastExpr CK_LValueToRValue (Node 15 [] (MemberExpr true (Node 16 [] (ImplicitCastExpr CK_LValueToRValue (Node 17 [] (DeclRefExpr 5 $"a" false)))))))) (Node 18 [] (IntegerLiteral (1)%Z)))))) (Node 19 [] (CompoundStmt [(Node 20 [] NullStmt)])) None))]))))))];
     ts_locs := [(2,1,2,11); (3,1,6,1); (4,5,4,9); (5,5,5,9); (7,1,7,65); (7,8,7,18); (7,21,7,31); (7,34,7,65); (7,36,7,63); (7,40,7,56); (7,40,7,41); (7,41,7,41); (7,41,7,41); (7,46,7,56); (7,46,7,49); (7,46,7,49); (7,46,7,46); (7,46,7,46); (7,56,7,56); (7,59,7,63); (7,61,7,61)]%Z;
     ts_evals := []; ts_same := []; ts_decls := []; ts_parents := [] |}.
Example BrokenNullCheck_C_CorrectEzNullNeCheck_holds : sorted_violations_of (shippedRule sh_BrokenNullCheck) BrokenNullCheck_C_CorrectEzNullNeCheck = Some [].
Proof. vm_compute. reflexivity. Qed.

Definition BrokenNullCheck_C_BrokenExplicitNullNeCheck : testcase :=
  {| ts_lang := LC; ts_path := $"input.c"; ts_code := [];
     ts_comments := []; ts_conf := [];
     ts_tops := [(toplevel 0 (TOther), (Node 0 [] (OtherDecl []))); (toplevel 1 (TOther), (Node 1 [] (OtherDecl [(Node 2 [] (OtherDecl [])); (Node 3 [] (OtherDecl []))]))); (toplevel 4 (TFunction false), (Node 4 [] (FunctionDecl {| f_name := $"m"; f_method := None; f_isDefinition := true; f_bodyLines := (1)%Z |} [(Node 5 [] (VarDecl {| v_isParm := true; v_name := $"a"; v_used := true; v_referenced := true; v_local := false; v_staticMember := false; v_private := false; v_unusedAttr := false; v_defaultArg := false; v_canonicalType := $"struct A *"; v_inTemplate := false; v_contexts := [CxFunction true true false] |} None)); (Node 6 [] (VarDecl {| v_isParm := true; v_name := $"b"; v_used := false; v_referenced := false; v_local := false; v_staticMember := false; v_private := false; v_unusedAttr := false; v_defaultArg := false; v_canonicalType := $"struct B *"; v_inTemplate := false; v_contexts := [CxFunction true true false] |} None))] (Some (Node 7 [] (CompoundStmt [(Node 8 [] (IfStmt [] (Node 9 [] (BinaryOperator BO_LAnd (Node 10 [] (BinaryOperator BO_EQ (Node 11 [] (ImplicitCastExpr CK_LValueToRValue (Node 12 [] (DeclRefExpr 5 $"a" false)))) (Node 13 [] (ImplicitCastExpr CK_NullToPointer (Node 14 [] (ParenExpr (Node 15 [] (CStyleCastExpr CK_NullToPointer (Node 16 [] (IntegerLiteral (0)%Z)))))))))) (Node 17 [] (BinaryOperator BO_EQ (Node 18 [] (ImplicitCastExpr CK_LValueToRValue (Node 19 [] (MemberExpr true (Node 20 [] (ImplicitCastExpr CK_LValueToRValue (Node 21 [] (DeclRefExpr 5 $"a" false)))))))) (Node 22 [] (IntegerLiteral (1)%Z)))))) (Node 23 [] (CompoundStmt [(Node 24 [] NullStmt)])) None))]))))))];
     ts_locs := [(2,1,2,11); (3,1,6,1); (4,5,4,9); (5,5,5,9); (7,1,7,72); (7,8,7,18); (7,21,7,31); (7,34,7,72); (7,36,7,70); (7,40,7,63); (7,40,7,45); (7,40,7,40); (7,40,7,40); (7,45,7,45); (7,45,7,45); (7,45,7,45); (7,45,7,45); (7,53,7,63); (7,53,7,56); (7,53,7,56); (7,53,7,53); (7,53,7,53); (7,63,7,63); (7,66,7,70); (7,68,7,68)]%Z;
     ts_evals := []; ts_same := []; ts_decls := []; ts_parents := [] |}.
Example BrokenNullCheck_C_BrokenExplicitNullNeCheck_holds : nth_violation (shippedRule sh_BrokenNullCheck) BrokenNullCheck_C_BrokenExplicitNullNeCheck 0 = Some (7, 40, 7, 63, $"")%Z.
Proof. vm_compute. reflexivity. Qed.

Definition BrokenNullCheck_C_BrokenEzNullNeCheck : testcase :=
  {| ts_lang := LC; ts_path := $"input.c"; ts_code := [];
     ts_comments := []; ts_conf := [];
     ts_tops := [(toplevel 0 (TOther), (Node 0 [] (OtherDecl []))); (toplevel 1 (TOther), (Node 1 [] (OtherDecl [(Node 2 [] (OtherDecl [])); (Node 3 [] (OtherDecl []))]))); (toplevel 4 (TFunction false), (Node 4 [] (FunctionDecl {| f_name := $"m"; f_method := None; f_isDefinition := true; f_bodyLines := (1)%Z |} [(Node 5 [] (VarDecl {| v_isParm := true; v_name := $"a"; v_used := true; v_referenced := true; v_local := false; v_staticMember := false; v_private := false; v_unusedAttr := false; v_defaultArg := false; v_canonicalType := $"struct A *"; v_inTemplate := false; v_contexts := [CxFunction true true false] |} None)); (Node 6 [] (VarDecl {| v_isParm := true; v_name := $"b"; v_used := false; v_referenced := false; v_local := false; v_staticMember := false; v_private := false; v_unusedAttr := false; v_defaultArg := false; v_canonicalType := $"struct B *"; v_inTemplate := false; v_contexts := [CxFunction true true false] |} None))] (Some (Node 7 [] (CompoundStmt [(Node 8 [] (IfStmt [] (Node 9 [] (BinaryOperator BO_LAnd (Node 10 [] (UnaryOperator UO_LNot (Node 11 [] (ImplicitCastExpr CK_LValueToRValue (Node 12 [] (DeclRefExpr 5 $"a" false)))))) (Node 13 [] (BinaryOperator BO_EQ (Node 14 [] (ImplicitCastExpr CK_LValueToRValue (Node 15 [] (MemberExpr true (Node 16 [] (ImplicitCastExpr CK_LValueToRValue (Node 17 [] (DeclRefExpr 5 $"a" false)))))))) (Node 18 [] (IntegerLiteral (1)%Z)))))) (Node 19 [] (CompoundStmt [(Node 20 [] NullStmt)])) None))]))))))];
     ts_locs := [(2,1,2,11); (3,1,6,1); (4,5,4,9); (5,5,5,9); (7,1,7,65); (7,8,7,18); (7,21,7,31); (7,34,7,65); (7,36,7,63); (7,40,7,56); (7,40,7,41); (7,41,7,41); (7,41,7,41); (7,46,7,56); (7,46,7,49); (7,46,7,49); (7,46,7,46); (7,46,7,46); (7,56,7,56); (7,59,7,63); (7,61,7,61)]%Z;
     ts_evals := []; ts_same := []; ts_decls := []; ts_parents := [] |}.
Example BrokenNullCheck_C_BrokenEzNullNeCheck_holds : nth_violation (shippedRule sh_BrokenNullCheck) BrokenNullCheck_C_BrokenEzNullNeCheck 0 = Some (7, 40, 7, 56, $"")%Z.
Proof. vm_compute. reflexivity. Qed.

Definition BrokenNullCheck_Cpp_CorrectExplicitNullEqCheck : testcase :=
  {| ts_lang := LCXX; ts_path := $"input.cpp"; ts_code := [];
     ts_comments := []; ts_conf := [];
     ts_tops := [(toplevel 0 (TOther), (Node 0 [] (CXXRecordDecl {| r_class := (CxxRecord 0 $"B" true false None []); r_fields := 0; r_methods := 0; r_lines := (1)%Z |} []))); (toplevel 1 (TOther), (Node 1 [] (CXXRecordDecl {| r_class := (CxxRecord 1 $"A" true false None []); r_fields := 0; r_methods := 2; r_lines := (5)%Z |} [(Node 2 [] (FunctionDecl {| f_name := $"foo"; f_method := (Some {| cm_virtual := false; cm_static := false; cm_private := false; cm_inRecord := true |}); f_isDefinition := false; f_bodyLines := (0)%Z |} [(Node 3 [] (VarDecl {| v_isParm := true; v_name := $"f"; v_used := false; v_referenced := false; v_local := false; v_staticMember := false; v_private := false; v_unusedAttr := false; v_defaultArg := false; v_canonicalType := $"A *"; v_inTemplate := false; v_contexts := [CxFunction false false false; CxRecord] |} None))] None)); (Node 4 [] (FunctionDecl {| f_name := $"bar"; f_method := (Some {| cm_virtual := false; cm_static := false; cm_private := false; cm_inRecord := true |}); f_isDefinition := false; f_bodyLines := (0)%Z |} [(Node 5 [] (VarDecl {| v_isParm := true; v_name := $"b"; v_used := false; v_referenced := false; v_local := false; v_staticMember := false; v_private := false; v_unusedAttr := false; v_defaultArg := false; v_canonicalType := $"B *"; v_inTemplate := false; v_contexts := [CxFunction false false false; CxRecord] |} None))] None))]))); (toplevel 6 (TFunction false), (Node 6 [] (FunctionDecl {| f_name := $"m"; f_method := None; f_isDefinition := true; f_bodyLines := (1)%Z |} [(Node 7 [] (VarDecl {| v_isParm := true; v_name := $"a"; v_used := true; v_referenced := true; v_local := false; v_staticMember := false; v_private := false; v_unusedAttr := false; v_defaultArg := false; v_canonicalType := $"A *"; v_inTemplate := false; v_contexts := [CxFunction true true false] |} None)); (Node 8 [] (VarDecl {| v_isParm := true; v_name := $"b"; v_used := true; v_referenced := true; v_local := false; v_staticMember := false; v_private := false; v_unusedAttr := false; v_defaultArg := false; v_canonicalType := $"B *"; v_inTemplate := false; v_contexts := [CxFunction true true false] |} None))] (Some (Node 9 [] (CompoundStmt [(Node 10 [] (IfStmt [] (Node 11 [] (BinaryOperator BO_LAnd (Node 12 [] (BinaryOperator BO_NE (Node 13 [] (ImplicitCastExpr CK_LValueToRValue (Node 14 [] (DeclRefExpr 7 $"a" false)))) (Node 15 [] (ImplicitCastExpr CK_NullToPointer (Node 16 [] (IntegerLiteral (0)%Z)))))) (Node 17 [] (CallExpr (Some ($"bar", Decl [] None)) (Node 18 [] (MemberExpr true (Node 19 [] (ImplicitCastExpr CK_LValueToRValue (Node 20 [] (DeclRefExpr 7 $"a" false)))))) [(Node 21 [] (ImplicitCastExpr CK_LValueToRValue (Node 22 [] (DeclRefExpr 8 $"b" false))))])))) (Node 23 [] (CompoundStmt [(Node 24 [] NullStmt)])) None))]))))))];
     ts_locs := [(2,1,2,10); (3,1,7,1); (5,5,5,18); (5,14,5,17); (6,5,6,18); (6,14,6,17); (8,1,8,56); (8,8,8,11); (8,14,8,17); (8,20,8,56); (8,22,8,54); (8,26,8,47); (8,26,8,31); (8,26,8,26); (8,26,8,26); (8,31,8,31); (8,31,8,31); (8,39,8,47); (8,39,8,42); (8,39,8,39); (8,39,8,39); (8,46,8,46); (8,46,8,46); (8,50,8,54); (8,52,8,52)]%Z;
     ts_evals := []; ts_same := []; ts_decls := []; ts_parents := [] |}.
Example BrokenNullCheck_Cpp_CorrectExplicitNullEqCheck_holds : sorted_violations_of (shippedRule sh_BrokenNullCheck) BrokenNullCheck_Cpp_CorrectExplicitNullEqCheck = Some [].
Proof. vm_compute. reflexivity. Qed.

Definition BrokenNullCheck_Cpp_CorrectEzNullEqCheck : testcase :=
  {| ts_lang := LCXX; ts_path := $"input.cpp"; ts_code := [];
     ts_comments := []; ts_conf := [];
     ts_tops := [(toplevel 0 (TOther), (Node 0 [] (CXXRecordDecl {| r_class := (CxxRecord 0 $"B" true false None []); r_fields := 0; r_methods := 0; r_lines := (1)%Z |} []))); (toplevel 1 (TOther), (Node 1 [] (CXXRecordDecl {| r_class := (CxxRecord 1 $"A" true false None []); r_fields := 0; r_methods := 2; r_lines := (5)%Z |} [(Node 2 [] (FunctionDecl {| f_name := $"foo"; f_method := (Some {| cm_virtual := false; cm_static := false; cm_private := false; cm_inRecord := true |}); f_isDefinition := false; f_bodyLines := (0)%Z |} [(Node 3 [] (VarDecl {| v_isParm := true; v_name := $"f"; v_used := false; v_referenced := false; v_local := false; v_staticMember := false; v_private := false; v_unusedAttr := false; v_defaultArg := false; v_canonicalType := $"A *"; v_inTemplate := false; v_contexts := [CxFunction false false false; CxRecord] |} None))] None)); (Node 4 [] (FunctionDecl {| f_name := $"bar"; f_method := (Some {| cm_virtual := false; cm_static := false; cm_private := false; cm_inRecord := true |}); f_isDefinition := false; f_bodyLines := (0)%Z |} [(Node 5 [] (VarDecl {| v_isParm := true; v_name := $"b"; v_used := false; v_referenced := false; v_local := false; v_staticMember := false; v_private := false; v_unusedAttr := false; v_defaultArg := false; v_canonicalType := $"B *"; v_inTemplate := false; v_contexts := [CxFunction false false false; CxRecord] |} None))] None))]))); (toplevel 6 (TFunction false), (Node 6 [] (FunctionDecl {| f_name := $"m"; f_method := None; f_isDefinition := true; f_bodyLines := (1)%Z |} [(Node 7 [] (VarDecl {| v_isParm := true; v_name := $"a"; v_used := true; v_referenced := true; v_local := false; v_staticMember := false; v_private := false; v_unusedAttr := false; v_defaultArg := false; v_canonicalType := $"A *"; v_inTemplate := false; v_contexts := [CxFunction true true false] |} None)); (Node 8 [] (VarDecl {| v_isParm := true; v_name := $"b"; v_used := true; v_referenced := true; v_local := false; v_staticMember := false; v_private := false; v_unusedAttr := false; v_defaultArg := false; v_canonicalType := $"B *"; v_inTemplate := false; v_contexts := [CxFunction true true false] |} None))] (Some (Node 9 [] (CompoundStmt [(Node 10 [] (IfStmt [] (Node 11 [] (BinaryOperator BO_LAnd (Node 12 [] (ImplicitCastExpr CK_PointerToBoolean (Node 13 [] (ImplicitCastExpr CK_LValueToRValue (Node 14 [] (DeclRefExpr 7 $"a" false)))))) (Node 15 [] (CallExpr (Some ($"bar", Decl [] None)) (Node 16 [] (MemberExpr true (Node 17 [] (ImplicitCastExpr CK_LValueToRValue (Node 18 [] (DeclRefExpr 7 $"a" false)))))) [(Node 19 [] (ImplicitCastExpr CK_LValueToRValue (Node 20 [] (DeclRefExpr 8 $"b" false))))])))) (Node 21 [] (CompoundStmt [(Node 22 [] NullStmt)])) None))]))))))];
     ts_locs := [(2,1,2,10); (3,1,7,1); (5,5,5,18); (5,14,5,17); (6,5,6,18); (6,14,6,17); (8,1,8,48); (8,8,8,11); (8,14,8,17); (8,20,8,48); (8,22,8,46); (8,26,8,39); (8,26,8,26); (8,26,8,26); (8,26,8,26); (8,31,8,39); (8,31,8,34); (8,31,8,31); (8,31,8,31); (8,38,8,38); (8,38,8,38); (8,42,8,46); (8,44,8,44)]%Z;
     ts_evals := []; ts_same := []; ts_decls := []; ts_parents := [] |}.
Example BrokenNullCheck_Cpp_CorrectEzNullEqCheck_holds : sorted_violations_of (shippedRule sh_BrokenNullCheck) BrokenNullCheck_Cpp_CorrectEzNullEqCheck = Some [].
Proof. vm_compute. reflexivity. Qed.

Definition BrokenNullCheck_Cpp_BrokenExplicitNullEqCheck : testcase :=
  {| ts_lang := LCXX; ts_path := $"input.cpp"; ts_code := [];
     ts_comments := []; ts_conf := [];
     ts_tops := [(toplevel 0 (TOther), (Node 0 [] (CXXRecordDecl {| r_class := (CxxRecord 0 $"B" true false None []); r_fields := 0; r_methods := 0; r_lines := (1)%Z |} []))); (toplevel 1 (TOther), (Node 1 [] (CXXRecordDecl {| r_class := (CxxRecord 1 $"A" true false None []); r_fields := 0; r_methods := 2; r_lines := (5)%Z |} [(Node 2 [] (FunctionDecl {| f_name := $"foo"; f_method := (Some {| cm_virtual := false; cm_static := false; cm_private := false; cm_inRecord := true |}); f_isDefinition := false; f_bodyLines := (0)%Z |} [(Node 3 [] (VarDecl {| v_isParm := true; v_name := $"f"; v_used := false; v_referenced := false; v_local := false; v_staticMember := false; v_private := false; v_unusedAttr := false; v_defaultArg := false; v_canonicalType := $"A *"; v_inTemplate := false; v_contexts := [CxFunction false false false; CxRecord] |} None))] None)); (Node 4 [] (FunctionDecl {| f_name := $"bar"; f_method := (Some {| cm_virtual := false; cm_static := false; cm_private := false; cm_inRecord := true |}); f_isDefinition := false; f_bodyLines := (0)%Z |} [(Node 5 [] (VarDecl {| v_isParm := true; v_name := $"b"; v_used := false; v_referenced := false; v_local := false; v_staticMember := false; v_private := false; v_unusedAttr := false; v_defaultArg := false; v_canonicalType := $"B *"; v_inTemplate := false; v_contexts := [CxFunction false false false; CxRecord] |} None))] None))]))); (toplevel 6 (TFunction false), (Node 6 [] (FunctionDecl {| f_name := $"m"; f_method := None; f_isDefinition := true; f_bodyLines := (1)%Z |} [(Node 7 [] (VarDecl {| v_isParm := true; v_name := $"a"; v_used := true; v_referenced := true; v_local := false; v_staticMember := false; v_private := false; v_unusedAttr := false; v_defaultArg := false; v_canonicalType := $"A *"; v_inTemplate := false; v_contexts := [CxFunction true true false] |} None)); (Node 8 [] (VarDecl {| v_isParm := true; v_name := $"b"; v_used := true; v_referenced := true; v_local := false; v_staticMember := false; v_private := false; v_unusedAttr := false; v_defaultArg := false; v_canonicalType := $"B *"; v_inTemplate := false; v_contexts := [CxFunction true true false] |} None))] (Some (Node 9 [] (CompoundStmt [(Node 10 [] (IfStmt [] (Node 11 [] (BinaryOperator BO_LOr (Node 12 [] (BinaryOperator BO_NE (Node 13 [] (ImplicitCastExpr CK_LValueToRValue (Node 14 [] (DeclRefExpr 7 $"a" false)))) (Node 15 [] (ImplicitCastExpr CK_NullToPointer (Node 16 [] (IntegerLiteral (0)%Z)))))) (Node 17 [] (CallExpr (Some ($"bar", Decl [] None)) (Node 18 [] (MemberExpr true (Node 19 [] (ImplicitCastExpr CK_LValueToRValue (Node 20 [] (DeclRefExpr 7 $"a" false)))))) [(Node 21 [] (ImplicitCastExpr CK_LValueToRValue (Node 22 [] (DeclRefExpr 8 $"b" false))))])))) (Node 23 [] (CompoundStmt [(Node 24 [] NullStmt)])) None))]))))))];
     ts_locs := [(2,1,2,10); (3,1,7,1); (5,5,5,18); (5,14,5,17); (6,5,6,18); (6,14,6,17); (8,1,8,56); (8,8,8,11); (8,14,8,17); (8,20,8,56); (8,22,8,54); (8,26,8,47); (8,26,8,31); (8,26,8,26); (8,26,8,26); (8,31,8,31); (8,31,8,31); (8,39,8,47); (8,39,8,42); (8,39,8,39); (8,39,8,39); (8,46,8,46); (8,46,8,46); (8,50,8,54); (8,52,8,52)]%Z;
     ts_evals := []; ts_same := []; ts_decls := []; ts_parents := [] |}.
Example BrokenNullCheck_Cpp_BrokenExplicitNullEqCheck_holds : nth_violation (shippedRule sh_BrokenNullCheck) BrokenNullCheck_Cpp_BrokenExplicitNullEqCheck 0 = Some (8, 26, 8, 47, $"")%Z.
Proof. vm_compute. reflexivity. Qed.

Definition BrokenNullCheck_Cpp_BrokenEzNullEqCheck : testcase :=
  {| ts_lang := LCXX; ts_path := $"input.cpp"; ts_code := [];
     ts_comments := []; ts_conf := [];
     ts_tops := [(toplevel 0 (TOther), (Node 0 [] (CXXRecordDecl {| r_class := (CxxRecord 0 $"B" true false None []); r_fields := 0; r_methods := 0; r_lines := (1)%Z |} []))); (toplevel 1 (TOther), (Node 1 [] (CXXRecordDecl {| r_class := (CxxRecord 1 $"A" true false None []); r_fields := 0; r_methods := 2; r_lines := (5)%Z |} [(Node 2 [] (FunctionDecl {| f_name := $"foo"; f_method := (Some {| cm_virtual := false; cm_static := false; cm_private := false; cm_inRecord := true |}); f_isDefinition := false; f_bodyLines := (0)%Z |} [(Node 3 [] (VarDecl {| v_isParm := true; v_name := $"f"; v_used := false; v_referenced := false; v_local := false; v_staticMember := false; v_private := false; v_unusedAttr := false; v_defaultArg := false; v_canonicalType := $"A *"; v_inTemplate := false; v_contexts := [CxFunction false false false; CxRecord] |} None))] None)); (Node 4 [] (FunctionDecl {| f_name := $"bar"; f_method := (Some {| cm_virtual := false; cm_static := false; cm_private := false; cm_inRecord := true |}); f_isDefinition := false; f_bodyLines := (0)%Z |} [(Node 5 [] (VarDecl {| v_isParm := true; v_name := $"b"; v_used := false; v_referenced := false; v_local := false; v_staticMember := false; v_private := false; v_unusedAttr := false; v_defaultArg := false; v_canonicalType := $"B *"; v_inTemplate := false; v_contexts := [CxFunction false false false; CxRecord] |} None))] None))]))); (toplevel 6 (TFunction false), (Node 6 [] (FunctionDecl {| f_name := $"m"; f_method := None; f_isDefinition := true; f_bodyLines := (1)%Z |} [(Node 7 [] (VarDecl {| v_isParm := true; v_name := $"a"; v_used := true; v_referenced := true; v_local := false; v_staticMember := false; v_private := false; v_unusedAttr := false; v_defaultArg := false; v_canonicalType := $"A *"; v_inTemplate := false; v_contexts := [CxFunction true true false] |} None)); (Node 8 [] (VarDecl {| v_isParm := true; v_name := $"b"; v_used := true; v_referenced := true; v_local := false; v_staticMember := false; v_private := false; v_unusedAttr := false; v_defaultArg := false; v_canonicalType := $"B *"; v_inTemplate := false; v_contexts := [CxFunction true true false] |} None))] (Some (Node 9 [] (CompoundStmt [(Node 10 [] (IfStmt [] (Node 11 [] (BinaryOperator BO_LOr (Node 12 [] (ImplicitCastExpr CK_PointerToBoolean (Node 13 [] (ImplicitCastExpr CK_LValueToRValue (Node 14 [] (DeclRefExpr 7 $"a" false)))))) (Node 15 [] (CallExpr (Some ($"bar", Decl [] None)) (Node 16 [] (MemberExpr true (Node 17 [] (ImplicitCastExpr CK_LValueToRValue (Node 18 [] (DeclRefExpr 7 $"a" false)))))) [(Node 19 [] (ImplicitCastExpr CK_LValueToRValue (Node 20 [] (DeclRefExpr 8 $"b" false))))])))) (Node 21 [] (CompoundStmt [(Node 22 [] NullStmt)])) None))]))))))];
     ts_locs := [(2,1,2,10); (3,1,7,1); (5,5,5,18); (5,14,5,17); (6,5,6,18); (6,14,6,17); (8,1,8,48); (8,8,8,11); (8,14,8,17); (8,20,8,48); (8,22,8,46); (8,26,8,39); (8,26,8,26); (8,26,8,26); (8,26,8,26); (8,31,8,39); (8,31,8,34); (8,31,8,31); (8,31,8,31); (8,38,8,38); (8,38,8,38); (8,42,8,46); (8,44,8,44)]%Z;
     ts_evals := []; ts_same := []; ts_decls := []; ts_parents := [] |}.
Example BrokenNullCheck_Cpp_BrokenEzNullEqCheck_holds : nth_violation (shippedRule sh_BrokenNullCheck) BrokenNullCheck_Cpp_BrokenEzNullEqCheck 0 = Some (8, 26, 8, 39, $"")%Z.
Proof. vm_compute. reflexivity. Qed.

Definition BrokenNullCheck_Cpp_CorrectExplicitNullNeCheck : testcase :=
  {| ts_lang := LCXX; ts_path := $"input.cpp"; ts_code := [];
     ts_comments := []; ts_conf := [];
     ts_tops := [(toplevel 0 (TOther), (Node 0 [] (CXXRecordDecl {| r_class := (CxxRecord 0 $"B" true false None []); r_fields := 0; r_methods := 0; r_lines := (1)%Z |} []))); (toplevel 1 (TOther), (Node 1 [] (CXXRecordDecl {| r_class := (CxxRecord 1 $"A" true false None []); r_fields := 0; r_methods := 2; r_lines := (5)%Z |} [(Node 2 [] (FunctionDecl {| f_name := $"foo"; f_method := (Some {| cm_virtual := false; cm_static := false; cm_private := false; cm_inRecord := true |}); f_isDefinition := false; f_bodyLines := (0)%Z |} [(Node 3 [] (VarDecl {| v_isParm := true; v_name := $"f"; v_used := false; v_referenced := false; v_local := false; v_staticMember := false; v_private := false; v_unusedAttr := false; v_defaultArg := false; v_canonicalType := $"A *"; v_inTemplate := false; v_contexts := [CxFunction false false false; CxRecord] |} None))] None)); (Node 4 [] (FunctionDecl {| f_name := $"bar"; f_method := (Some {| cm_virtual := false; cm_static := false; cm_private := false; cm_inRecord := true |}); f_isDefinition := false; f_bodyLines := (0)%Z |} [(Node 5 [] (VarDecl {| v_isParm := true; v_name := $"b"; v_used := false; v_referenced := false; v_local := false; v_staticMember := false; v_private := false; v_unusedAttr := false; v_defaultArg := false; v_canonicalType := $"B *"; v_inTemplate := false; v_contexts := [CxFunction false false false; CxRecord] |} None))] None))]))); (toplevel 6 (TFunction false), (Node 6 [] (FunctionDecl {| f_name := $"m"; f_method := None; f_isDefinition := true; f_bodyLines := (1)%Z |} [(Node 7 [] (VarDecl {| v_isParm := true; v_name := $"a"; v_used := true; v_referenced := true; v_local := false; v_staticMember := false; v_private := false; v_unusedAttr := false; v_defaultArg := false; v_canonicalType := $"A *"; v_inTemplate := false; v_contexts := [CxFunction true true false] |} None)); (Node 8 [] (VarDecl {| v_isParm := true; v_name := $"b"; v_used := true; v_referenced := true; v_local := false; v_staticMember := false; v_private := false; v_unusedAttr := false; v_defaultArg := false; v_canonicalType := $"B *"; v_inTemplate := false; v_contexts := [CxFunction true true false] |} None))] (Some (Node 9 [] (CompoundStmt [(Node 10 [] (IfStmt [] (Node 11 [] (BinaryOperator BO_LOr (Node 12 [] (BinaryOperator BO_EQ (Node 13 [] (ImplicitCastExpr CK_LValueToRValue (Node 14 [] (DeclRefExpr 7 $"a" false)))) (Node 15 [] (ImplicitCastExpr CK_NullToPointer (Node 16 [] (IntegerLiteral (0)%Z)))))) (Node 17 [] (CallExpr (Some ($"bar", Decl [] None)) (Node 18 [] (MemberExpr true (Node 19 [] (ImplicitCastExpr CK_LValueToRValue (Node 20 [] (DeclRefExpr 7 $"a" false)))))) [(Node 21 [] (ImplicitCastExpr CK_LValueToRValue (Node 22 [] (DeclRefExpr 8 $"b" false))))])))) (Node 23 [] (CompoundStmt [(Node 24 [] NullStmt)])) None))]))))))];
     ts_locs := [(2,1,2,10); (3,1,7,1); (5,5,5,18); (5,14,5,17); (6,5,6,18); (6,14,6,17); (8,1,8,56); (8,8,8,11); (8,14,8,17); (8,20,8,56); (8,22,8,54); (8,26,8,47); (8,26,8,31); (8,26,8,26); (8,26,8,26); (8,31,8,31); (8,31,8,31); (8,39,8,47); (8,39,8,42); (8,39,8,39); (8,39,8,39); (8,46,8,46); (8,46,8,46); (8,50,8,54); (8,52,8,52)]%Z;
     ts_evals := []; ts_same := []; ts_decls := []; ts_parents := [] |}.
Example BrokenNullCheck_Cpp_CorrectExplicitNullNeCheck_holds : sorted_violations_of (shippedRule sh_BrokenNullCheck) BrokenNullCheck_Cpp_CorrectExplicitNullNeCheck = Some [].
Proof. vm_compute. reflexivity. Qed.

Definition BrokenNullCheck_Cpp_CorrectEzNullNeCheck : testcase :=
  {| ts_lang := LCXX; ts_path := $"input.cpp"; ts_code := [];
     ts_comments := []; ts_conf := [];
     ts_tops := [(toplevel 0 (TOther), (Node 0 [] (CXXRecordDecl {| r_class := (CxxRecord 0 $"B" true false None []); r_fields := 0; r_methods := 0; r_lines := (1)%Z |} []))); (toplevel 1 (TOther), (Node 1 [] (CXXRecordDecl {| r_class := (CxxRecord 1 $"A" true false None []); r_fields := 0; r_methods := 2; r_lines := (5)%Z |} [(Node 2 [] (FunctionDecl {| f_name := $"foo"; f_method := (Some {| cm_virtual := false; cm_static := false; cm_private := false; cm_inRecord := true |}); f_isDefinition := false; f_bodyLines := (0)%Z |} [(Node 3 [] (VarDecl {| v_isParm := true; v_name := $"f"; v_used := false; v_referenced := false; v_local := false; v_staticMember := false; v_private := false; v_unusedAttr := false; v_defaultArg := false; v_canonicalType := $"A *"; v_inTemplate := false; v_contexts := [CxFunction false false false; CxRecord] |} None))] None)); (Node 4 [] (FunctionDecl {| f_name := $"bar"; f_method := (Some {| cm_virtual := false; cm_static := false; cm_private := false; cm_inRecord := true |}); f_isDefinition := false; f_bodyLines := (0)%Z |} [(Node 5 [] (VarDecl {| v_isParm := true; v_name := $"b"; v_used := false; v_referenced := false; v_local := false; v_staticMember := false; v_private := false; v_unusedAttr := false; v_defaultArg := false; v_canonicalType := $"B *"; v_inTemplate := false; v_contexts := [CxFunction false false false; CxRecord] |} None))] None))]))); (toplevel 6 (TFunction false), (Node 6 [] (FunctionDecl {| f_name := $"m"; f_method := None; f_isDefinition := true; f_bodyLines := (1)%Z |} [(Node 7 [] (VarDecl {| v_isParm := true; v_name := $"a"; v_used := true; v_referenced := true; v_local := false; v_staticMember := false; v_private := false; v_unusedAttr := false; v_defaultArg := false; v_canonicalType := $"A *"; v_inTemplate := false; v_contexts := [CxFunction true true false] |} None)); (Node 8 [] (VarDecl {| v_isParm := true; v_name := $"b"; v_used := true; v_referenced := true; v_local := false; v_staticMember := false; v_private := false; v_unusedAttr := false; v_defaultArg := false; v_canonicalType := $"B *"; v_inTemplate := false; v_contexts := [CxFunction true true false] |} None))] (Some (Node 9 [] (CompoundStmt [(Node 10 [] (IfStmt [] (Node 11 [] (BinaryOperator BO_LOr (Node 12 [] (UnaryOperator UO_LNot (Node 13 [] (ImplicitCastExpr CK_PointerToBoolean (Node 14 [] (ImplicitCastExpr CK_LValueToRValue (Node 15 [] (DeclRefExpr 7 $"a" false)))))))) (Node 16 [] (CallExpr (Some ($"bar", Decl [] None)) (Node 17 [] (MemberExpr true (Node 18 [] (ImplicitCastExpr CK_LValueToRValue (Node 19 [] (DeclRefExpr 7 $"a" false)))))) [(Node 20 [] (ImplicitCastExpr CK_LValueToRValue (Node 21 [] (DeclRefExpr 8 $"b" false))))])))) (Node 22 [] (CompoundStmt [(Node 23 [] NullStmt)])) None))]))))))];
     ts_locs := [(2,1,2,10); (3,1,7,1); (5,5,5,18); (5,14,5,17); (6,5,6,18); (6,14,6,17); (8,1,8,49); (8,8,8,11); (8,14,8,17); (8,20,8,49); (8,22,8,47); (8,26,8,40); (8,26,8,27); (8,27,8,27); (8,27,8,27); (8,27,8,27); (8,32,8,40); (8,32,8,35); (8,32,8,32); (8,32,8,32); (8,39,8,39); (8,39,8,39); (8,43,8,47); (8,45,8,45)]%Z;
     ts_evals := []; ts_same := []; ts_decls := []; ts_parents := [] |}.
Example BrokenNullCheck_Cpp_CorrectEzNullNeCheck_holds : sorted_violations_of (shippedRule sh_BrokenNullCheck) BrokenNullCheck_Cpp_CorrectEzNullNeCheck = Some [].
Proof. vm_compute. reflexivity. Qed.

Definition BrokenNullCheck_Cpp_BrokenExplicitNullNeCheck : testcase :=
  {| ts_lang := LCXX; ts_path := $"input.cpp"; ts_code := [];
     ts_comments := []; ts_conf := [];
     ts_tops := [(toplevel 0 (TOther), (Node 0 [] (CXXRecordDecl {| r_class := (CxxRecord 0 $"B" true false None []); r_fields := 0; r_methods := 0; r_lines := (1)%Z |} []))); (toplevel 1 (TOther), (Node 1 [] (CXXRecordDecl {| r_class := (CxxRecord 1 $"A" true false None []); r_fields := 0; r_methods := 2; r_lines := (5)%Z |} [(Node 2 [] (FunctionDecl {| f_name := $"foo"; f_method := (Some {| cm_virtual := false; cm_static := false; cm_private := false; cm_inRecord := true |}); f_isDefinition := false; f_bodyLines := (0)%Z |} [(Node 3 [] (VarDecl {| v_isParm := true; v_name := $"f"; v_used := false; v_referenced := false; v_local := false; v_staticMember := false; v_private := false; v_unusedAttr := false; v_defaultArg := false; v_canonicalType := $"A *"; v_inTemplate := false; v_contexts := [CxFunction false false false; CxRecord] |} None))] None)); (Node 4 [] (FunctionDecl {| f_name := $"bar"; f_method := (Some {| cm_virtual := false; cm_static := false; cm_private := false; cm_inRecord := true |}); f_isDefinition := false; f_bodyLines := (0)%Z |} [(Node 5 [] (VarDecl {| v_isParm := true; v_name := $"b"; v_used := false; v_referenced := false; v_local := false; v_staticMember := false; v_private := false; v_unusedAttr := false; v_defaultArg := false; v_canonicalType := $"B *"; v_inTemplate := false; v_contexts := [CxFunction false false false; CxRecord] |} None))] None))]))); (toplevel 6 (TFunction false), (Node 6 [] (FunctionDecl {| f_name := $"m"; f_method := None; f_isDefinition := true; f_bodyLines := (1)%Z |} [(Node 7 [] (VarDecl {| v_isParm := true; v_name := $"a"; v_used := true; v_referenced := true; v_local := false; v_staticMember := false; v_private := false; v_unusedAttr := false; v_defaultArg := false; v_canonicalType := $"A *"; v_inTemplate := false; v_contexts := [CxFunction true true false] |} None)); (Node 8 [] (VarDecl {| v_isParm := true; v_name := $"b"; v_used := true; v_referenced := true; v_local := false; v_staticMember := false; v_private := false; v_unusedAttr := false; v_defaultArg := false; v_canonicalType := $"B *"; v_inTemplate := false; v_contexts := [CxFunction true true false] |} None))] (Some (Node 9 [] (CompoundStmt [(Node 10 [] (IfStmt [] (Node 11 [] (BinaryOperator BO_LAnd (Node 12 [] (BinaryOperator BO_EQ (Node 13 [] (ImplicitCastExpr CK_LValueToRValue (Node 14 [] (DeclRefExpr 7 $"a" false)))) (Node 15 [] (ImplicitCastExpr CK_NullToPointer (Node 16 [] (IntegerLiteral (0)%Z)))))) (Node 17 [] (CallExpr (Some ($"bar", Decl [] None)) (Node 18 [] (MemberExpr true (Node 19 [] (ImplicitCastExpr CK_LValueToRValue (Node 20 [] (DeclRefExpr 7 $"a" false)))))) [(Node 21 [] (ImplicitCastExpr CK_LValueToRValue (Node 22 [] (DeclRefExpr 8 $"b" false))))])))) (Node 23 [] (CompoundStmt [(Node 24 [] NullStmt)])) None))]))))))];
     ts_locs := [(2,1,2,10); (3,1,7,1); (5,5,5,18); (5,14,5,17); (6,5,6,18); (6,14,6,17); (8,1,8,56); (8,8,8,11); (8,14,8,17); (8,20,8,56); (8,22,8,54); (8,26,8,47); (8,26,8,31); (8,26,8,26); (8,26,8,26); (8,31,8,31); (8,31,8,31); (8,39,8,47); (8,39,8,42); (8,39,8,39); (8,39,8,39); (8,46,8,46); (8,46,8,46); (8,50,8,54); (8,52,8,52)]%Z;
     ts_evals := []; ts_same := []; ts_decls := []; ts_parents := [] |}.
Example BrokenNullCheck_Cpp_BrokenExplicitNullNeCheck_holds : nth_violation (shippedRule sh_BrokenNullCheck) BrokenNullCheck_Cpp_BrokenExplicitNullNeCheck 0 = Some (8, 26, 8, 47, $"")%Z.
Proof. vm_compute. reflexivity. Qed.

Definition BrokenNullCheck_Cpp_BrokenEzNullNeCheck : testcase :=
  {| ts_lang := LCXX; ts_path := $"input.cpp"; ts_code := [];
     ts_comments := []; ts_conf := [];
     ts_tops := [(toplevel 0 (TOther), (Node 0 [] (CXXRecordDecl {| r_class := (CxxRecord 0 $"B" true false None []); r_fields := 0; r_methods := 0; r_lines := (1)%Z |} []))); (toplevel 1 (TOther), (Node 1 [] (CXXRecordDecl {| r_class := (CxxRecord 1 $"A" true false None []); r_fields := 0; r_methods := 2; r_lines := (5)%Z |} [(Node 2 [] (FunctionDecl {| f_name := $"foo"; f_method := (Some {| cm_virtual := false; cm_static := false; cm_private := false; cm_inRecord := true |}); f_isDefinition := false; f_bodyLines := (0)%Z |} [(Node 3 [] (VarDecl {| v_isParm := true; v_name := $"f"; v_used := false; v_referenced := false; v_local := false; v_staticMember := false; v_private := false; v_unusedAttr := false; v_defaultArg := false; v_canonicalType := $"A *"; v_inTemplate := false; v_contexts := [CxFunction false false false; CxRecord] |} None))] None)); (Node 4 [] (FunctionDecl {| f_name := $"bar"; f_method := (Some {| cm_virtual := false; cm_static := false; cm_private := false; cm_inRecord := true |}); f_isDefinition := false; f_bodyLines := (0)%Z |} [(Node 5 [] (VarDecl {| v_isParm := true; v_name := $"b"; v_used := false; v_referenced := false; v_local := false; v_staticMember := false; v_private := false; v_unusedAttr := false; v_defaultArg := false; v_canonicalType := $"B *"; v_inTemplate := false; v_contexts := [CxFunction false false false; CxRecord] |} None))] None))]))); (toplevel 6 (TFunction false), (Node 6 [] (FunctionDecl {| f_name := $"m"; f_method := None; f_isDefinition := true; f_bodyLines := (1)%Z |} [(Node 7 [] (VarDecl {| v_isParm := true; v_name := $"a"; v_used := true; v_referenced := true; v_local := false; v_staticMember := false; v_private := false; v_unusedAttr := false; v_defaultArg := false; v_canonicalType := $"A *"; v_inTemplate := false; v_contexts := [CxFunction true true false] |} None)); (Node 8 [] (VarDecl {| v_isParm := true; v_name := $"b"; v_used := true; v_referenced := true; v_local := false; v_staticMember := false; v_private := false; v_unusedAttr := false; v_defaultArg := false; v_canonicalType := $"B *"; v_inTemplate := false; v_contexts := [CxFunction true true false] |} None))] (Some (Node 9 [] (CompoundStmt [(Node 10 [] (IfStmt [] (Node 11 [] (BinaryOperator BO_LAnd (Node 12 [] (UnaryOperator UO_LNot (Node 13 [] (ImplicitCastExpr CK_PointerToBoolean (Node 14 [] (ImplicitCastExpr CK_LValueToRValue (Node 15 [] (DeclRefExpr 7 $"a" false)))))))) (Node 16 [] (CallExpr (Some ($"bar", Decl [] None)) (Node 17 [] (MemberExpr true (Node 18 [] (ImplicitCastExpr CK_LValueToRValue (Node 19 [] (DeclRefExpr 7 $"a" false)))))) [(Node 20 [] (ImplicitCastExpr CK_LValueToRValue (Node 21 [] (DeclRefExpr 8 $"b" false))))])))) (Node 22 [] (CompoundStmt [(Node 23 [] NullStmt)])) None))]))))))];
     ts_locs := [(2,1,2,10); (3,1,7,1); (5,5,5,18); (5,14,5,17); (6,5,6,18); (6,14,6,17); (8,1,8,49); (8,8,8,11); (8,14,8,17); (8,20,8,49); (8,22,8,47); (8,26,8,40); (8,26,8,27); (8,27,8,27); (8,27,8,27); (8,27,8,27); (8,32,8,40); (8,32,8,35); (8,32,8,32); (8,32,8,32); (8,39,8,39); (8,39,8,39); (8,43,8,47); (8,45,8,45)]%Z;
     ts_evals := []; ts_same := []; ts_decls := []; ts_parents := [] |}.
Example BrokenNullCheck_Cpp_BrokenEzNullNeCheck_holds : nth_violation (shippedRule sh_BrokenNullCheck) BrokenNullCheck_Cpp_BrokenEzNullNeCheck 0 = Some (8, 26, 8, 40, $"")%Z.
Proof. vm_compute. reflexivity. Qed.

Definition BrokenNullCheck_ObjC_CorrectNullEqCheck : testcase :=
  {| ts_lang := LObjC; ts_path := $"input.m"; ts_code := [];
     ts_comments := []; ts_conf := [];
     ts_tops := [(toplevel 0 (TOther), (Node 0 [] (OtherDecl []))); (toplevel 1 (TOther), (Node 1 [] (ObjCContainerDecl {| oc_kind := OKInterface; oc_name := $"NSObject"; oc_lines := (2)%Z; oc_ivars := 0; oc_methods := []; oc_classes := [$"NSObject"]; oc_superMethods := None |} []))); (toplevel 2 (TOther), (Node 2 [] (ObjCContainerDecl {| oc_kind := OKInterface; oc_name := $"A"; oc_lines := (4)%Z; oc_ivars := 0; oc_methods := [($"isEqualTo:", true); ($"compare:withOther:", false)]; oc_classes := [$"A"; $"NSObject"]; oc_superMethods := (Some ($"NSObject", [])) |} [(Node 3 [] (ObjCMethodDecl {| om_selector := $"isEqualTo:"; om_class := (Some $"A"); om_overriding := false; om_overridden := []; om_bodyLines := (0)%Z |} [(Node 4 [] (VarDecl {| v_isParm := true; v_name := $"obj"; v_used := false; v_referenced := false; v_local := false; v_staticMember := false; v_private := false; v_unusedAttr := false; v_defaultArg := false; v_canonicalType := $"struct objc_object *"; v_inTemplate := false; v_contexts := [CxObjCMethod true false false false; CxOther] |} None))] None)); (Node 5 [] (ObjCMethodDecl {| om_selector := $"compare:withOther:"; om_class := (Some $"A"); om_overriding := false; om_overridden := []; om_bodyLines := (0)%Z |} [(Node 6 [] (VarDecl {| v_isParm := true; v_name := $"obj1"; v_used := false; v_referenced := false; v_local := false; v_staticMember := false; v_private := false; v_unusedAttr := false; v_defaultArg := false; v_canonicalType := $"A *"; v_inTemplate := false; v_contexts := [CxObjCMethod true false false false; CxOther] |} None)); (Node 7 [] (VarDecl {| v_isParm := true; v_name := $"obj2"; v_used := false; v_referenced := false; v_local := false; v_staticMember := false; v_private := false; v_unusedAttr := false; v_defaultArg := false; v_canonicalType := $"A *"; v_inTemplate := false; v_contexts := [CxObjCMethod true false false false; CxOther] |} None))] None))]))); (toplevel 8 (TOther), (Node 8 [] (ObjCContainerDecl {| oc_kind := OKImplementation; oc_name := $"A"; oc_lines := (6)%Z; oc_ivars := 0; oc_methods := [($"isEqualTo:", true); ($"compare:withOther:", false)]; oc_classes := [$"A"; $"NSObject"]; oc_superMethods := (Some ($"NSObject", [])) |} [(Node 9 [] (ObjCMethodDecl {| om_selector := $"isEqualTo:"; om_class := (Some $"A"); om_overriding := false; om_overridden := []; om_bodyLines := (1)%Z |} [(Node 10 [] (VarDecl {| v_isParm := true; v_name := $"obj"; v_used := false; v_referenced := false; v_local := false; v_staticMember := false; v_private := false; v_unusedAttr := false; v_defaultArg := false; v_canonicalType := $"struct objc_object *"; v_inTemplate := false; v_contexts := [CxObjCMethod false false false false] |} None))] (Some (Node 11 [] (CompoundStmt [(Node 12 [] (ReturnStmt (Some (Node 13 $"BOOL" (CStyleCastExpr CK_Other (Node 14 $"int" (IntegerLiteral (1)%Z)))))))]))))); (Node 15 [] (ObjCMethodDecl {| om_selector := $"compare:withOther:"; om_class := (Some $"A"); om_overriding := false; om_overridden := []; om_bodyLines := (3)%Z |} [(Node 16 [] (VarDecl {| v_isParm := true; v_name := $"obj1"; v_used := true; v_referenced := true; v_local := false; v_staticMember := false; v_private := false; v_unusedAttr := false; v_defaultArg := false; v_canonicalType := $"A *"; v_inTemplate := false; v_contexts := [CxObjCMethod false false false false] |} None)); (Node 17 [] (VarDecl {| v_isParm := true; v_name := $"obj2"; v_used := true; v_referenced := true; v_local := false; v_staticMember := false; v_private := false; v_unusedAttr := false; v_defaultArg := false; v_canonicalType := $"A *"; v_inTemplate := false; v_contexts := [CxObjCMethod false false false false] |} None))] (Some (Node 18 [] (CompoundStmt [(Node 19 [] (IfStmt [] (Node 20 $"BOOL" (ObjCMessageExpr {| ms_selector := $"isEqualTo:"; ms_receiver := RInstance; ms_implicit := false; ms_interface := (Some $"A"); ms_method := (Some (Decl [] (Some (Method false None (InOther (Some NoCategory)))))); ms_methodClass := (Some $"A") |} (Some (Node 21 $"A *" (ImplicitCastExpr CK_LValueToRValue (Node 22 $"A *" (DeclRefExpr 16 $"obj1" false))))) [(Node 23 $"id" (ImplicitCastExpr CK_BitCast (Node 24 $"A *" (ImplicitCastExpr CK_LValueToRValue (Node 25 $"A *" (DeclRefExpr 17 $"obj2" false))))))])) (Node 26 [] (CompoundStmt [(Node 27 [] NullStmt)])) None))])))))])))];
     ts_locs := [(2,1,2,24); (5,1,6,2); (7,1,10,2); (8,1,8,26); (8,20,8,23); (9,1,9,46); (9,18,9,22); (9,38,9,42); (11,1,16,1); (12,1,12,41); (12,20,12,23); (12,27,12,41); (12,29,12,36); (12,36,12,36); (12,36,12,36); (13,1,15,1); (13,18,13,22); (13,38,13,42); (13,47,15,1); (14,5,14,36); (14,9,14,29); (14,10,14,10); (14,10,14,10); (14,25,14,25); (14,25,14,25); (14,25,14,25); (14,32,14,36); (14,34,14,34)]%Z;
     ts_evals := []; ts_same := []; ts_decls := []; ts_parents := [] |}.
Example BrokenNullCheck_ObjC_CorrectNullEqCheck_holds : sorted_violations_of (shippedRule sh_BrokenNilCheck) BrokenNullCheck_ObjC_CorrectNullEqCheck = Some [].
Proof. vm_compute. reflexivity. Qed.

Definition BrokenNullCheck_ObjC_EzButRedundantNullEqCheck : testcase :=
  {| ts_lang := LObjC; ts_path := $"input.m"; ts_code := [];
     ts_comments := []; ts_conf := [];
     ts_tops := [(toplevel 0 (TOther), (Node 0 [] (OtherDecl []))); (toplevel 1 (TOther), (Node 1 [] (ObjCContainerDecl {| oc_kind := OKInterface; oc_name := $"NSObject"; oc_lines := (2)%Z; oc_ivars := 0; oc_methods := []; oc_classes := [$"NSObject"]; oc_superMethods := None |} []))); (toplevel 2 (TOther), (Node 2 [] (ObjCContainerDecl {| oc_kind := OKInterface; oc_name := $"A"; oc_lines := (4)%Z; oc_ivars := 0; oc_methods := [($"isEqualTo:", true); ($"compare:withOther:", false)]; oc_classes := [$"A"; $"NSObject"]; oc_superMethods := (Some ($"NSObject", [])) |} [(Node 3 [] (ObjCMethodDecl {| om_selector := $"isEqualTo:"; om_class := (Some $"A"); om_overriding := false; om_overridden := []; om_bodyLines := (0)%Z |} [(Node 4 [] (VarDecl {| v_isParm := true; v_name := $"obj"; v_used := false; v_referenced := false; v_local := false; v_staticMember := false; v_private := false; v_unusedAttr := false; v_defaultArg := false; v_canonicalType := $"struct objc_object *"; v_inTemplate := false; v_contexts := [CxObjCMethod true false false false; CxOther] |} None))] None)); (Node 5 [] (ObjCMethodDecl {| om_selector := $"compare:withOther:"; om_class := (Some $"A"); om_overriding := false; om_overridden := []; om_bodyLines := (0)%Z |} [(Node 6 [] (VarDecl {| v_isParm := true; v_name := $"obj1"; v_used := false; v_referenced := false; v_local := false; v_staticMember := false; v_private := false; v_unusedAttr := false; v_defaultArg := false; v_canonicalType := $"A *"; v_inTemplate := false; v_contexts := [CxObjCMethod true false false false; CxOther] |} None)); (Node 7 [] (VarDecl {| v_isParm := true; v_name := $"obj2"; v_used := false; v_referenced := false; v_local := false; v_staticMember := false; v_private := false; v_unusedAttr := false; v_defaultArg := false; v_canonicalType := $"A *"; v_inTemplate := false; v_contexts := [CxObjCMethod true false false false; CxOther] |} None))] None))]))); (toplevel 8 (TOther), (Node 8 [] (ObjCContainerDecl {| oc_kind := OKImplementation; oc_name := $"A"; oc_lines := (6)%Z; oc_ivars := 0; oc_methods := [($"isEqualTo:", true); ($"compare:withOther:", false)]; oc_classes := [$"A"; $"NSObject"]; oc_superMethods := (Some ($"NSObject", [])) |} [(Node 9 [] (ObjCMethodDecl {| om_selector := $"isEqualTo:"; om_class := (Some $"A"); om_overriding := false; om_overridden := []; om_bodyLines := (1)%Z |} [(Node 10 [] (VarDecl {| v_isParm := true; v_name := $"obj"; v_used := false; v_referenced := false; v_local := false; v_staticMember := false; v_private := false; v_unusedAttr := false; v_defaultArg := false; v_canonicalType := $"struct objc_object *"; v_inTemplate := false; v_contexts := [CxObjCMethod false false false false] |} None))] (Some (Node 11 [] (CompoundStmt [(Node 12 [] (ReturnStmt (Some (Node 13 $"BOOL" (CStyleCastExpr CK_Other (Node 14 $"int" (IntegerLiteral (1)%Z)))))))]))))); (Node 15 [] (ObjCMethodDecl {| om_selector := $"compare:withOther:"; om_class := (Some $"A"); om_overriding := false; om_overridden := []; om_bodyLines := (3)%Z |} [(Node 16 [] (VarDecl {| v_isParm := true; v_name := $"obj1"; v_used := true; v_referenced := true; v_local := false; v_staticMember := false; v_private := false; v_unusedAttr := false; v_defaultArg := false; v_canonicalType := $"A *"; v_inTemplate := false; v_contexts := [CxObjCMethod false false false false] |} None)); (Node 17 [] (VarDecl {| v_isParm := true; v_name := $"obj2"; v_used := true; v_referenced := true; v_local := false; v_staticMember := false; v_private := false; v_unusedAttr := false; v_defaultArg := false; v_canonicalType := $"A *"; v_inTemplate := false; v_contexts := [CxObjCMethod false false false false] |} None))] (Some (Node 18 [] (CompoundStmt [(Node 19 [] (IfStmt [] (Node 20 $"int" (BinaryOperator BO_LAnd (Node 21 $"A *" (ImplicitCastExpr CK_LValueToRValue (Node 22 $"A *" (DeclRefExpr 16 $"obj1" false)))) (Node 23 $"BOOL" (ObjCMessageExpr {| ms_selector := $"isEqualTo:"; ms_receiver := RInstance; ms_implicit := false; ms_interface := (Some $"A"); ms_method := (Some (Decl [] (Some (Method false None (InOther (Some NoCategory)))))); ms_methodClass := (Some $"A") |} (Some (Node 24 $"A *" (ImplicitCastExpr CK_LValueToRValue (Node 25 $"A *" (DeclRefExpr 16 $"obj1" false))))) [(Node 26 $"id" (ImplicitCastExpr CK_BitCast (Node 27 $"A *" (ImplicitCastExpr CK_LValueToRValue (Node 28 $"A *" (DeclRefExpr 17 $"obj2" false))))))])))) (Node 29 [] (CompoundStmt [(Node 30 [] NullStmt)])) None))])))))])))];
     ts_locs := [(2,1,2,24); (5,1,6,2); (7,1,10,2); (8,1,8,26); (8,20,8,23); (9,1,9,46); (9,18,9,22); (9,38,9,42); (11,1,16,1); (12,1,12,41); (12,20,12,23); (12,27,12,41); (12,29,12,36); (12,36,12,36); (12,36,12,36); (13,1,15,1); (13,18,13,22); (13,38,13,42); (13,47,15,1); (14,5,14,44); (14,9,14,37); (14,9,14,9); (14,9,14,9); (14,17,14,37); (14,18,14,18); (14,18,14,18); (14,33,14,33); (14,33,14,33); (14,33,14,33); (14,40,14,44); (14,42,14,42)]%Z;
     ts_evals := []; ts_same := []; ts_decls := []; ts_parents := [] |}.
Example BrokenNullCheck_ObjC_EzButRedundantNullEqCheck_holds : sorted_violations_of (shippedRule sh_BrokenNilCheck) BrokenNullCheck_ObjC_EzButRedundantNullEqCheck = Some [].
Proof. vm_compute. reflexivity. Qed.

Definition BrokenNullCheck_ObjC_ExplicitButRedundantNullEqCheck : testcase :=
  {| ts_lang := LObjC; ts_path := $"input.m"; ts_code := [];
     ts_comments := []; ts_conf := [];
     ts_tops := [(toplevel 0 (TOther), (Node 0 [] (OtherDecl []))); (toplevel 1 (TOther), (Node 1 [] (ObjCContainerDecl {| oc_kind := OKInterface; oc_name := $"NSObject"; oc_lines := (2)%Z; oc_ivars := 0; oc_methods := []; oc_classes := [$"NSObject"]; oc_superMethods := None |} []))); (toplevel 2 (TOther), (Node 2 [] (ObjCContainerDecl {| oc_kind := OKInterface; oc_name := $"A"; oc_lines := (4)%Z; oc_ivars := 0; oc_methods := [($"isEqualTo:", true); ($"compare:withOther:", false)]; oc_classes := [$"A"; $"NSObject"]; oc_superMethods := (Some ($"NSObject", [])) |} [(Node 3 [] (ObjCMethodDecl {| om_selector := $"isEqualTo:"; om_class := (Some $"A"); om_overriding := false; om_overridden := []; om_bodyLines := (0)%Z |} [(Node 4 [] (VarDecl {| v_isParm := true; v_name := $"obj"; v_used := false; v_referenced := false; v_local := false; v_staticMember := false; v_private := false; v_unusedAttr := false; v_defaultArg := false; v_canonicalType := $"struct objc_object *"; v_inTemplate := false; v_contexts := [CxObjCMethod true false false false; CxOther] |} None))] None)); (Node 5 [] (ObjCMethodDecl {| om_selector := $"compare:withOther:"; om_class := (Some $"A"); om_overriding := false; om_overridden := []; om_bodyLines := (0)%Z |} [(Node 6 [] (VarDecl {| v_isParm := true; v_name := $"obj1"; v_used := false; v_referenced := false; v_local := false; v_staticMember := false; v_private := false; v_unusedAttr := false; v_defaultArg := false; v_canonicalType := $"A *"; v_inTemplate := false; v_contexts := [CxObjCMethod true false false false; CxOther] |} None)); (Node 7 [] (VarDecl {| v_isParm := true; v_name := $"obj2"; v_used := false; v_referenced := false; v_local := false; v_staticMember := false; v_private := false; v_unusedAttr := false; v_defaultArg := false; v_canonicalType := $"A *"; v_inTemplate := false; v_contexts := [CxObjCMethod true false false false; CxOther] |} None))] None))]))); (toplevel 8 (TOther), (Node 8 [] (ObjCContainerDecl {| oc_kind := OKImplementation; oc_name := $"A"; oc_lines := (6)%Z; oc_ivars := 0; oc_methods := [($"isEqualTo:", true); ($"compare:withOther:", false)]; oc_classes := [$"A"; $"NSObject"]; oc_superMethods := (Some ($"NSObject", [])) |} [(Node 9 [] (ObjCMethodDecl {| om_selector := $"isEqualTo:"; om_class := (Some $"A"); om_overriding := false; om_overridden := []; om_bodyLines := (1)%Z |} [(Node 10 [] (VarDecl {| v_isParm := true; v_name := $"obj"; v_used := false; v_referenced := false; v_local := false; v_staticMember := false; v_private := false; v_unusedAttr := false; v_defaultArg := false; v_canonicalType := $"struct objc_object *"; v_inTemplate := false; v_contexts := [CxObjCMethod false false false false] |} None))] (Some (Node 11 [] (CompoundStmt [(Node 12 [] (ReturnStmt (Some (Node 13 $"BOOL" (CStyleCastExpr CK_Other (Node 14 $"int" (IntegerLiteral (1)%Z)))))))]))))); (Node 15 [] (ObjCMethodDecl {| om_selector := $"compare:withOther:"; om_class := (Some $"A"); om_overriding := false; om_overridden := []; om_bodyLines := (3)%Z |} [(Node 16 [] (VarDecl {| v_isParm := true; v_name := $"obj1"; v_used := true; v_referenced := true; v_local := false; v_staticMember := false; v_private := false; v_unusedAttr := false; v_defaultArg := false; v_canonicalType := $"A *"; v_inTemplate := false; v_contexts := [CxObjCMethod false false false false] |} None)); (Node 17 [] (VarDecl {| v_isParm := true; v_name := $"obj2"; v_used := true; v_referenced := true; v_local := false; v_staticMember := false; v_private := false; v_unusedAttr := false; v_defaultArg := false; v_canonicalType := $"A *"; v_inTemplate := false; v_contexts := [CxObjCMethod false false false false] |} None))] (Some (Node 18 [] (CompoundStmt [(Node 19 [] (IfStmt [] (Node 20 $"int" (BinaryOperator BO_LAnd (Node 21 $"int" (BinaryOperator BO_NE (Node 22 $"A *" (ImplicitCastExpr CK_LValueToRValue (Node 23 $"A *" (DeclRefExpr 16 $"obj1" false)))) (Node 24 $"A *" (ImplicitCastExpr CK_BitCast (Node 25 $"id" (CStyleCastExpr CK_NullToPointer (Node 26 $"int" (IntegerLiteral (0)%Z)))))))) (Node 27 $"BOOL" (ObjCMessageExpr {| ms_selector := $"isEqualTo:"; ms_receiver := RInstance; ms_implicit := false; ms_interface := (Some $"A"); ms_method := (Some (Decl [] (Some (Method false None (InOther (Some NoCategory)))))); ms_methodClass := (Some $"A") |} (Some (Node 28 $"A *" (ImplicitCastExpr CK_LValueToRValue (Node 29 $"A *" (DeclRefExpr 16 $"obj1" false))))) [(Node 30 $"id" (ImplicitCastExpr CK_BitCast (Node 31 $"A *" (ImplicitCastExpr CK_LValueToRValue (Node 32 $"A *" (DeclRefExpr 17 $"obj2" false))))))])))) (Node 33 [] (CompoundStmt [(Node 34 [] NullStmt)])) None))])))))])))];
     ts_locs := [(2,1,2,24); (5,1,6,2); (7,1,10,2); (8,1,8,26); (8,20,8,23); (9,1,9,46); (9,18,9,22); (9,38,9,42); (11,1,16,1); (12,1,12,41); (12,20,12,23); (12,27,12,41); (12,29,12,36); (12,36,12,36); (12,36,12,36); (13,1,15,1); (13,18,13,22); (13,38,13,42); (13,47,15,1); (14,5,14,51); (14,9,14,44); (14,9,14,17); (14,9,14,9); (14,9,14,9); (14,17,14,17); (14,17,14,17); (14,17,14,17); (14,24,14,44); (14,25,14,25); (14,25,14,25); (14,40,14,40); (14,40,14,40); (14,40,14,40); (14,47,14,51); (14,49,14,49)]%Z;
     ts_evals := []; ts_same := []; ts_decls := []; ts_parents := [] |}.
Example BrokenNullCheck_ObjC_ExplicitButRedundantNullEqCheck_holds : sorted_violations_of (shippedRule sh_BrokenNilCheck) BrokenNullCheck_ObjC_ExplicitButRedundantNullEqCheck = Some [].
Proof. vm_compute. reflexivity. Qed.

Definition BrokenNullCheck_ObjC_BrokenEzButRedundantNullEqCheck : testcase :=
  {| ts_lang := LObjC; ts_path := $"input.m"; ts_code := [];
     ts_comments := []; ts_conf := [];
     ts_tops := [(toplevel 0 (TOther), (Node 0 [] (OtherDecl []))); (toplevel 1 (TOther), (Node 1 [] (ObjCContainerDecl {| oc_kind := OKInterface; oc_name := $"NSObject"; oc_lines := (2)%Z; oc_ivars := 0; oc_methods := []; oc_classes := [$"NSObject"]; oc_superMethods := None |} []))); (toplevel 2 (TOther), (Node 2 [] (ObjCContainerDecl {| oc_kind := OKInterface; oc_name := $"A"; oc_lines := (4)%Z; oc_ivars := 0; oc_methods := [($"isEqualTo:", true); ($"compare:withOther:", false)]; oc_classes := [$"A"; $"NSObject"]; oc_superMethods := (Some ($"NSObject", [])) |} [(Node 3 [] (ObjCMethodDecl {| om_selector := $"isEqualTo:"; om_class := (Some $"A"); om_overriding := false; om_overridden := []; om_bodyLines := (0)%Z |} [(Node 4 [] (VarDecl {| v_isParm := true; v_name := $"obj"; v_used := false; v_referenced := false; v_local := false; v_staticMember := false; v_private := false; v_unusedAttr := false; v_defaultArg := false; v_canonicalType := $"struct objc_object *"; v_inTemplate := false; v_contexts := [CxObjCMethod true false false false; CxOther] |} None))] None)); (Node 5 [] (ObjCMethodDecl {| om_selector := $"compare:withOther:"; om_class := (Some $"A"); om_overriding := false; om_overridden := []; om_bodyLines := (0)%Z |} [(Node 6 [] (VarDecl {| v_isParm := true; v_name := $"obj1"; v_used := false; v_referenced := false; v_local := false; v_staticMember := false; v_private := false; v_unusedAttr := false; v_defaultArg := false; v_canonicalType := $"A *"; v_inTemplate := false; v_contexts := [CxObjCMethod true false false false; CxOther] |} None)); (Node 7 [] (VarDecl {| v_isParm := true; v_name := $"obj2"; v_used := false; v_referenced := false; v_local := false; v_staticMember := false; v_private := false; v_unusedAttr := false; v_defaultArg := false; v_canonicalType := $"A *"; v_inTemplate := false; v_contexts := [CxObjCMethod true false false false; CxOther] |} None))] None))]))); (toplevel 8 (TOther), (Node 8 [] (ObjCContainerDecl {| oc_kind := OKImplementation; oc_name := $"A"; oc_lines := (6)%Z; oc_ivars := 0; oc_methods := [($"isEqualTo:", true); ($"compare:withOther:", false)]; oc_classes := [$"A"; $"NSObject"]; oc_superMethods := (Some ($"NSObject", [])) |} [(Node 9 [] (ObjCMethodDecl {| om_selector := $"isEqualTo:"; om_class := (Some $"A"); om_overriding := false; om_overridden := []; om_bodyLines := (1)%Z |} [(Node 10 [] (VarDecl {| v_isParm := true; v_name := $"obj"; v_used := false; v_referenced := false; v_local := false; v_staticMember := false; v_private := false; v_unusedAttr := false; v_defaultArg := false; v_canonicalType := $"struct objc_object *"; v_inTemplate := false; v_contexts := [CxObjCMethod false false false false] |} None))] (Some (Node 11 [] (CompoundStmt [(Node 12 [] (ReturnStmt (Some (Node 13 $"BOOL" (CStyleCastExpr CK_Other (Node 14 $"int" (IntegerLiteral (1)%Z)))))))]))))); (Node 15 [] (ObjCMethodDecl {| om_selector := $"compare:withOther:"; om_class := (Some $"A"); om_overriding := false; om_overridden := []; om_bodyLines := (3)%Z |} [(Node 16 [] (VarDecl {| v_isParm := true; v_name := $"obj1"; v_used := true; v_referenced := true; v_local := false; v_staticMember := false; v_private := false; v_unusedAttr := false; v_defaultArg := false; v_canonicalType := $"A *"; v_inTemplate := false; v_contexts := [CxObjCMethod false false false false] |} None)); (Node 17 [] (VarDecl {| v_isParm := true; v_name := $"obj2"; v_used := true; v_referenced := true; v_local := false; v_staticMember := false; v_private := false; v_unusedAttr := false; v_defaultArg := false; v_canonicalType := $"A *"; v_inTemplate := false; v_contexts := [CxObjCMethod false false false false] |} None))] (Some (Node 18 [] (CompoundStmt [(Node 19 [] (IfStmt [] (Node 20 $"int" (BinaryOperator BO_LOr (Node 21 $"A *" (ImplicitCastExpr CK_LValueToRValue (Node 22 $"A *" (DeclRefExpr 16 $"obj1" false)))) (Node 23 $"BOOL" (ObjCMessageExpr {| ms_selector := $"isEqualTo:"; ms_receiver := RInstance; ms_implicit := false; ms_interface := (Some $"A"); ms_method := (Some (Decl [] (Some (Method false None (InOther (Some NoCategory)))))); ms_methodClass := (Some $"A") |} (Some (Node 24 $"A *" (ImplicitCastExpr CK_LValueToRValue (Node 25 $"A *" (DeclRefExpr 16 $"obj1" false))))) [(Node 26 $"id" (ImplicitCastExpr CK_BitCast (Node 27 $"A *" (ImplicitCastExpr CK_LValueToRValue (Node 28 $"A *" (DeclRefExpr 17 $"obj2" false))))))])))) (Node 29 [] (CompoundStmt [(Node 30 [] NullStmt)])) None))])))))])))];
     ts_locs := [(2,1,2,24); (5,1,6,2); (7,1,10,2); (8,1,8,26); (8,20,8,23); (9,1,9,46); (9,18,9,22); (9,38,9,42); (11,1,16,1); (12,1,12,41); (12,20,12,23); (12,27,12,41); (12,29,12,36); (12,36,12,36); (12,36,12,36); (13,1,15,1); (13,18,13,22); (13,38,13,42); (13,47,15,1); (14,5,14,44); (14,9,14,37); (14,9,14,9); (14,9,14,9); (14,17,14,37); (14,18,14,18); (14,18,14,18); (14,33,14,33); (14,33,14,33); (14,33,14,33); (14,40,14,44); (14,42,14,42)]%Z;
     ts_evals := []; ts_same := []; ts_decls := []; ts_parents := [] |}.
Example BrokenNullCheck_ObjC_BrokenEzButRedundantNullEqCheck_holds : nth_violation (shippedRule sh_BrokenNilCheck) BrokenNullCheck_ObjC_BrokenEzButRedundantNullEqCheck 0 = Some (14, 9, 14, 37, $"")%Z.
Proof. vm_compute. reflexivity. Qed.

Definition BrokenNullCheck_ObjC_BrokenExplicitButRedundantNullEqCheck : testcase :=
  {| ts_lang := LObjC; ts_path := $"input.m"; ts_code := [];
     ts_comments := []; ts_conf := [];
     ts_tops := [(toplevel 0 (TOther), (Node 0 [] (OtherDecl []))); (toplevel 1 (TOther), (Node 1 [] (ObjCContainerDecl {| oc_kind := OKInterface; oc_name := $"NSObject"; oc_lines := (2)%Z; oc_ivars := 0; oc_methods := []; oc_classes := [$"NSObject"]; oc_superMethods := None |} []))); (toplevel 2 (TOther), (Node 2 [] (ObjCContainerDecl {| oc_kind := OKInterface; oc_name := $"A"; oc_lines := (4)%Z; oc_ivars := 0; oc_methods := [($"isEqualTo:", true); ($"compare:withOther:", false)]; oc_classes := [$"A"; $"NSObject"]; oc_superMethods := (Some ($"NSObject", [])) |} [(Node 3 [] (ObjCMethodDecl {| om_selector := $"isEqualTo:"; om_class := (Some $"A"); om_overriding := false; om_overridden := []; om_bodyLines := (0)%Z |} [(Node 4 [] (VarDecl {| v_isParm := true; v_name := $"obj"; v_used := false; v_referenced := false; v_local := false; v_staticMember := false; v_private := false; v_unusedAttr := false; v_defaultArg := false; v_canonicalType := $"struct objc_object *"; v_inTemplate := false; v_contexts := [CxObjCMethod true false false false; CxOther] |} None))] None)); (Node 5 [] (ObjCMethodDecl {| om_selector := $"compare:withOther:"; om_class := (Some $"A"); om_overriding := false; om_overridden := []; om_bodyLines := (0)%Z |} [(Node 6 [] (VarDecl {| v_isParm := true; v_name := $"obj1"; v_used := false; v_referenced := false; v_local := false; v_staticMember := false; v_private := false; v_unusedAttr := false; v_defaultArg := false; v_canonicalType := $"A *"; v_inTemplate := false; v_contexts := [CxObjCMethod true false false false; CxOther] |} None)); (Node 7 [] (VarDecl {| v_isParm := true; v_name := $"obj2"; v_used := false; v_referenced := false; v_local := false; v_staticMember := false; v_private := false; v_unusedAttr := false; v_defaultArg := false; v_canonicalType := $"A *"; v_inTemplate := false; v_contexts := [CxObjCMethod true false false false; CxOther] |} None))] None))]))); (toplevel 8 (TOther), (Node 8 [] (ObjCContainerDecl {| oc_kind := OKImplementation; oc_name := $"A"; oc_lines := (6)%Z; oc_ivars := 0; oc_methods := [($"isEqualTo:", true); ($"compare:withOther:", false)]; oc_classes := [$"A"; $"NSObject"]; oc_superMethods := (Some ($"NSObject", [])) |} [(Node 9 [] (ObjCMethodDecl {| om_selector := $"isEqualTo:"; om_class := (Some $"A"); om_overriding := false; om_overridden := []; om_bodyLines := (1)%Z |} [(Node 10 [] (VarDecl {| v_isParm := true; v_name := $"obj"; v_used := false; v_referenced := false; v_local := false; v_staticMember := false; v_private := false; v_unusedAttr := false; v_defaultArg := false; v_canonicalType := $"struct objc_object *"; v_inTemplate := false; v_contexts := [CxObjCMethod false false false false] |} None))] (Some (Node 11 [] (CompoundStmt [(Node 12 [] (ReturnStmt (Some (Node 13 $"BOOL" (CStyleCastExpr CK_Other (Node 14 $"int" (IntegerLiteral (1)%Z)))))))]))))); (Node 15 [] (ObjCMethodDecl {| om_selector := $"compare:withOther:"; om_class := (Some $"A"); om_overriding := false; om_overridden := []; om_bodyLines := (3)%Z |} [(Node 16 [] (VarDecl {| v_isParm := true; v_name := $"obj1"; v_used := true; v_referenced := true; v_local := false; v_staticMember := false; v_private := false; v_unusedAttr := false; v_defaultArg := false; v_canonicalType := $"A *"; v_inTemplate := false; v_contexts := [CxObjCMethod false false false false] |} None)); (Node 17 [] (VarDecl {| v_isParm := true; v_name := $"obj2"; v_used := true; v_referenced := true; v_local := false; v_staticMember := false; v_private := false; v_unusedAttr := false; v_defaultArg := false; v_canonicalType := $"A *"; v_inTemplate := false; v_contexts := [CxObjCMethod false false false false] |} None))] (Some (Node 18 [] (CompoundStmt [(Node 19 [] (IfStmt [] (Node 20 $"int" (BinaryOperator BO_LOr (Node 21 $"int" (BinaryOperator BO_NE (Node 22 $"A *" (ImplicitCastExpr CK_LValueToRValue (Node 23 $"A *" (DeclRefExpr 16 $"obj1" false)))) (Node 24 $"A *" (ImplicitCastExpr CK_BitCast (Node 25 $"id" (CStyleCastExpr CK_NullToPointer (Node 26 $"int" (IntegerLiteral (0)%Z)))))))) (Node 27 $"BOOL" (ObjCMessageExpr {| ms_selector := $"isEqualTo:"; ms_receiver := RInstance; ms_implicit := false; ms_interface := (Some $"A"); ms_method := (Some (Decl [] (Some (Method false None (InOther (Some NoCategory)))))); ms_methodClass := (Some $"A") |} (Some (Node 28 $"A *" (ImplicitCastExpr CK_LValueToRValue (Node 29 $"A *" (DeclRefExpr 16 $"obj1" false))))) [(Node 30 $"id" (ImplicitCastExpr CK_BitCast (Node 31 $"A *" (ImplicitCastExpr CK_LValueToRValue (Node 32 $"A *" (DeclRefExpr 17 $"obj2" false))))))])))) (Node 33 [] (CompoundStmt [(Node 34 [] NullStmt)])) None))])))))])))];
     ts_locs := [(2,1,2,24); (5,1,6,2); (7,1,10,2); (8,1,8,26); (8,20,8,23); (9,1,9,46); (9,18,9,22); (9,38,9,42); (11,1,16,1); (12,1,12,41); (12,20,12,23); (12,27,12,41); (12,29,12,36); (12,36,12,36); (12,36,12,36); (13,1,15,1); (13,18,13,22); (13,38,13,42); (13,47,15,1); (14,5,14,51); (14,9,14,44); (14,9,14,17); (14,9,14,9); (14,9,14,9); (14,17,14,17); (14,17,14,17); (14,17,14,17); (14,24,14,44); (14,25,14,25); (14,25,14,25); (14,40,14,40); (14,40,14,40); (14,40,14,40); (14,47,14,51); (14,49,14,49)]%Z;
     ts_evals := []; ts_same := []; ts_decls := []; ts_parents := [] |}.
Example BrokenNullCheck_ObjC_BrokenExplicitButRedundantNullEqCheck_holds : nth_violation (shippedRule sh_BrokenNilCheck) BrokenNullCheck_ObjC_BrokenExplicitButRedundantNullEqCheck 0 = Some (14, 9, 14, 44, $"")%Z.
Proof. vm_compute. reflexivity. Qed.

Definition BrokenNullCheck_ObjC_EzButRedundantNullNeCheck : testcase :=
  {| ts_lang := LObjC; ts_path := $"input.m"; ts_code := [];
     ts_comments := []; ts_conf := [];
     ts_tops := [(toplevel 0 (TOther), (Node 0 [] (OtherDecl []))); (toplevel 1 (TOther), (Node 1 [] (ObjCContainerDecl {| oc_kind := OKInterface; oc_name := $"NSObject"; oc_lines := (2)%Z; oc_ivars := 0; oc_methods := []; oc_classes := [$"NSObject"]; oc_superMethods := None |} []))); (toplevel 2 (TOther), (Node 2 [] (ObjCContainerDecl {| oc_kind := OKInterface; oc_name := $"A"; oc_lines := (4)%Z; oc_ivars := 0; oc_methods := [($"isEqualTo:", true); ($"compare:withOther:", false)]; oc_classes := [$"A"; $"NSObject"]; oc_superMethods := (Some ($"NSObject", [])) |} [(Node 3 [] (ObjCMethodDecl {| om_selector := $"isEqualTo:"; om_class := (Some $"A"); om_overriding := false; om_overridden := []; om_bodyLines := (0)%Z |} [(Node 4 [] (VarDecl {| v_isParm := true; v_name := $"obj"; v_used := false; v_referenced := false; v_local := false; v_staticMember := false; v_private := false; v_unusedAttr := false; v_defaultArg := false; v_canonicalType := $"struct objc_object *"; v_inTemplate := false; v_contexts := [CxObjCMethod true false false false; CxOther] |} None))] None)); (Node 5 [] (ObjCMethodDecl {| om_selector := $"compare:withOther:"; om_class := (Some $"A"); om_overriding := false; om_overridden := []; om_bodyLines := (0)%Z |} [(Node 6 [] (VarDecl {| v_isParm := true; v_name := $"obj1"; v_used := false; v_referenced := false; v_local := false; v_staticMember := false; v_private := false; v_unusedAttr := false; v_defaultArg := false; v_canonicalType := $"A *"; v_inTemplate := false; v_contexts := [CxObjCMethod true false false false; CxOther] |} None)); (Node 7 [] (VarDecl {| v_isParm := true; v_name := $"obj2"; v_used := false; v_referenced := false; v_local := false; v_staticMember := false; v_private := false; v_unusedAttr := false; v_defaultArg := false; v_canonicalType := $"A *"; v_inTemplate := false; v_contexts := [CxObjCMethod true false false false; CxOther] |} None))] None))]))); (toplevel 8 (TOther), (Node 8 [] (ObjCContainerDecl {| oc_kind := OKImplementation; oc_name := $"A"; oc_lines := (6)%Z; oc_ivars := 0; oc_methods := [($"isEqualTo:", true); ($"compare:withOther:", false)]; oc_classes := [$"A"; $"NSObject"]; oc_superMethods := (Some ($"NSObject", [])) |} [(Node 9 [] (ObjCMethodDecl {| om_selector := $"isEqualTo:"; om_class := (Some $"A"); om_overriding := false; om_overridden := []; om_bodyLines := (1)%Z |} [(Node 10 [] (VarDecl {| v_isParm := true; v_name := $"obj"; v_used := false; v_referenced := false; v_local := false; v_staticMember := false; v_private := false; v_unusedAttr := false; v_defaultArg := false; v_canonicalType := $"struct objc_object *"; v_inTemplate := false; v_contexts := [CxObjCMethod false false false false] |} None))] (Some (Node 11 [] (CompoundStmt [(Node 12 [] (ReturnStmt (Some (Node 13 $"BOOL" (CStyleCastExpr CK_Other (Node 14 $"int" (IntegerLiteral (1)%Z)))))))]))))); (Node 15 [] (ObjCMethodDecl {| om_selector := $"compare:withOther:"; om_class := (Some $"A"); om_overriding := false; om_overridden := []; om_bodyLines := (3)%Z |} [(Node 16 [] (VarDecl {| v_isParm := true; v_name := $"obj1"; v_used := true; v_referenced := true; v_local := false; v_staticMember := false; v_private := false; v_unusedAttr := false; v_defaultArg := false; v_canonicalType := $"A *"; v_inTemplate := false; v_contexts := [CxObjCMethod false false false false] |} None)); (Node 17 [] (VarDecl {| v_isParm := true; v_name := $"obj2"; v_used := true; v_referenced := true; v_local := false; v_staticMember := false; v_private := false; v_unusedAttr := false; v_defaultArg := false; v_canonicalType := $"A *"; v_inTemplate := false; v_contexts := [CxObjCMethod false false false false] |} None))] (Some (Node 18 [] (CompoundStmt [(Node 19 [] (IfStmt [] (Node 20 $"int" (BinaryOperator BO_LOr (Node 21 $"int" (UnaryOperator UO_LNot (Node 22 $"A *" (ImplicitCastExpr CK_LValueToRValue (Node 23 $"A *" (DeclRefExpr 16 $"obj1" false)))))) (Node 24 $"int" (UnaryOperator UO_LNot (Node 25 $"BOOL" (ObjCMessageExpr {| ms_selector := $"isEqualTo:"; ms_receiver := RInstance; ms_implicit := false; ms_interface := (Some $"A"); ms_method := (Some (Decl [] (Some (Method false None (InOther (Some NoCategory)))))); ms_methodClass := (Some $"A") |} (Some (Node 26 $"A *" (ImplicitCastExpr CK_LValueToRValue (Node 27 $"A *" (DeclRefExpr 16 $"obj1" false))))) [(Node 28 $"id" (ImplicitCastExpr CK_BitCast (Node 29 $"A *" (ImplicitCastExpr CK_LValueToRValue (Node 30 $"A *" (DeclRefExpr 17 $"obj2" false))))))])))))) (Node 31 [] (CompoundStmt [(Node 32 [] NullStmt)])) None))])))))])))];
     ts_locs := [(2,1,2,24); (5,1,6,2); (7,1,10,2); (8,1,8,26); (8,20,8,23); (9,1,9,46); (9,18,9,22); (9,38,9,42); (11,1,16,1); (12,1,12,41); (12,20,12,23); (12,27,12,41); (12,29,12,36); (12,36,12,36); (12,36,12,36); (13,1,15,1); (13,18,13,22); (13,38,13,42); (13,47,15,1); (14,5,14,46); (14,9,14,39); (14,9,14,10); (14,10,14,10); (14,10,14,10); (14,18,14,39); (14,19,14,39); (14,20,14,20); (14,20,14,20); (14,35,14,35); (14,35,14,35); (14,35,14,35); (14,42,14,46); (14,44,14,44)]%Z;
     ts_evals := []; ts_same := []; ts_decls := []; ts_parents := [] |}.
Example BrokenNullCheck_ObjC_EzButRedundantNullNeCheck_holds : sorted_violations_of (shippedRule sh_BrokenNilCheck) BrokenNullCheck_ObjC_EzButRedundantNullNeCheck = Some [].
Proof. vm_compute. reflexivity. Qed.

Definition BrokenNullCheck_ObjC_ExplicitButRedundantNullNeCheck : testcase :=
  {| ts_lang := LObjC; ts_path := $"input.m"; ts_code := [];
     ts_comments := []; ts_conf := [];
     ts_tops := [(toplevel 0 (TOther), (Node 0 [] (OtherDecl []))); (toplevel 1 (TOther), (Node 1 [] (ObjCContainerDecl {| oc_kind := OKInterface; oc_name := $"NSObject"; oc_lines := (2)%Z; oc_ivars := 0; oc_methods := []; oc_classes := [$"NSObject"]; oc_superMethods := None |} []))); (toplevel 2 (TOther), (Node 2 [] (ObjCContainerDecl {| oc_kind := OKInterface; oc_name := $"A"; oc_lines := (4)%Z; oc_ivars := 0; oc_methods := [($"isEqualTo:", true); ($"compare:withOther:", false)]; oc_classes := [$"A"; $"NSObject"]; oc_superMethods := (Some ($"NSObject", [])) |} [(Node 3 [] (ObjCMethodDecl {| om_selector := $"isEqualTo:"; om_class := (Some $"A"); om_overriding := false; om_overridden := []; om_bodyLines := (0)%Z |} [(Node 4 [] (VarDecl {| v_isParm := true; v_name := $"obj"; v_used := false; v_referenced := false; v_local := false; v_staticMember := false; v_private := false; v_unusedAttr := false; v_defaultArg := false; v_canonicalType := $"struct objc_object *"; v_inTemplate := false; v_contexts := [CxObjCMethod true false false false; CxOther] |} None))] None)); (Node 5 [] (ObjCMethodDecl {| om_selector := $"compare:withOther:"; om_class := (Some $"A"); om_overriding := false; om_overridden := []; om_bodyLines := (0)%Z |} [(Node 6 [] (VarDecl {| v_isParm := true; v_name := $"obj1"; v_used := false; v_referenced := false; v_local := false; v_staticMember := false; v_private := false; v_unusedAttr := false; v_defaultArg := false; v_canonicalType := $"A *"; v_inTemplate := false; v_contexts := [CxObjCMethod true false false false; CxOther] |} None)); (Node 7 [] (VarDecl {| v_isParm := true; v_name := $"obj2"; v_used := false; v_referenced := false; v_local := false; v_staticMember := false; v_private := false; v_unusedAttr := false; v_defaultArg := false; v_canonicalType := $"A *"; v_inTemplate := false; v_contexts := [CxObjCMethod true false false false; CxOther] |} None))] None))]))); (toplevel 8 (TOther), (Node 8 [] (ObjCContainerDecl {| oc_kind := OKImplementation; oc_name := $"A"; oc_lines := (6)%Z; oc_ivars := 0; oc_methods := [($"isEqualTo:", true); ($"compare:withOther:", false)]; oc_classes := [$"A"; $"NSObject"]; oc_superMethods := (Some ($"NSObject", [])) |} [(Node 9 [] (ObjCMethodDecl {| om_selector := $"isEqualTo:"; om_class := (Some $"A"); om_overriding := false; om_overridden := []; om_bodyLines := (1)%Z |} [(Node 10 [] (VarDecl {| v_isParm := true; v_name := $"obj"; v_used := false; v_referenced := false; v_local := false; v_staticMember := false; v_private := false; v_unusedAttr := false; v_defaultArg := false; v_canonicalType := $"struct objc_object *"; v_inTemplate := false; v_contexts := [CxObjCMethod false false false false] |} None))] (Some (Node 11 [] (CompoundStmt [(Node 12 [] (ReturnStmt (Some (Node 13 $"BOOL" (CStyleCastExpr CK_Other (Node 14 $"int" (IntegerLiteral (1)%Z)))))))]))))); (Node 15 [] (ObjCMethodDecl {| om_selector := $"compare:withOther:"; om_class := (Some $"A"); om_overriding := false; om_overridden := []; om_bodyLines := (3)%Z |} [(Node 16 [] (VarDecl {| v_isParm := true; v_name := $"obj1"; v_used := true; v_referenced := true; v_local := false; v_staticMember := false; v_private := false; v_unusedAttr := false; v_defaultArg := false; v_canonicalType := $"A *"; v_inTemplate := false; v_contexts := [CxObjCMethod false false false false] |} None)); (Node 17 [] (VarDecl {| v_isParm := true; v_name := $"obj2"; v_used := true; v_referenced := true; v_local := false; v_staticMember := false; v_private := false; v_unusedAttr := false; v_defaultArg := false; v_canonicalType := $"A *"; v_inTemplate := false; v_contexts := [CxObjCMethod false false false false] |} None))] (Some (Node 18 [] (CompoundStmt [(Node 19 [] (IfStmt [] (Node 20 $"int" (BinaryOperator BO_LOr (Node 21 $"int" (BinaryOperator BO_EQ (Node 22 $"A *" (ImplicitCastExpr CK_LValueToRValue (Node 23 $"A *" (DeclRefExpr 16 $"obj1" false)))) (Node 24 $"A *" (ImplicitCastExpr CK_BitCast (Node 25 $"id" (CStyleCastExpr CK_NullToPointer (Node 26 $"int" (IntegerLiteral (0)%Z)))))))) (Node 27 $"int" (UnaryOperator UO_LNot (Node 28 $"BOOL" (ObjCMessageExpr {| ms_selector := $"isEqualTo:"; ms_receiver := RInstance; ms_implicit := false; ms_interface := (Some $"A"); ms_method := (Some (Decl [] (Some (Method false None (InOther (Some NoCategory)))))); ms_methodClass := (Some $"A") |} (Some (Node 29 $"A *" (ImplicitCastExpr CK_LValueToRValue (Node 30 $"A *" (DeclRefExpr 16 $"obj1" false))))) [(Node 31 $"id" (ImplicitCastExpr CK_BitCast (Node 32 $"A *" (ImplicitCastExpr CK_LValueToRValue (Node 33 $"A *" (DeclRefExpr 17 $"obj2" false))))))])))))) (Node 34 [] (CompoundStmt [(Node 35 [] NullStmt)])) None))])))))])))];
     ts_locs := [(2,1,2,24); (5,1,6,2); (7,1,10,2); (8,1,8,26); (8,20,8,23); (9,1,9,46); (9,18,9,22); (9,38,9,42); (11,1,16,1); (12,1,12,41); (12,20,12,23); (12,27,12,41); (12,29,12,36); (12,36,12,36); (12,36,12,36); (13,1,15,1); (13,18,13,22); (13,38,13,42); (13,47,15,1); (14,5,14,52); (14,9,14,45); (14,9,14,17); (14,9,14,9); (14,9,14,9); (14,17,14,17); (14,17,14,17); (14,17,14,17); (14,24,14,45); (14,25,14,45); (14,26,14,26); (14,26,14,26); (14,41,14,41); (14,41,14,41); (14,41,14,41); (14,48,14,52); (14,50,14,50)]%Z;
     ts_evals := []; ts_same := []; ts_decls := []; ts_parents := [] |}.
Example BrokenNullCheck_ObjC_ExplicitButRedundantNullNeCheck_holds : sorted_violations_of (shippedRule sh_BrokenNilCheck) BrokenNullCheck_ObjC_ExplicitButRedundantNullNeCheck = Some [].
Proof. vm_compute. reflexivity. Qed.

Definition BrokenNullCheck_ObjC_BrokenEzButRedundantNullNeCheck : testcase :=
  {| ts_lang := LObjC; ts_path := $"input.m"; ts_code := [];
     ts_comments := []; ts_conf := [];
     ts_tops := [(toplevel 0 (TOther), (Node 0 [] (OtherDecl []))); (toplevel 1 (TOther), (Node 1 [] (ObjCContainerDecl {| oc_kind := OKInterface; oc_name := $"NSObject"; oc_lines := (2)%Z; oc_ivars := 0; oc_methods := []; oc_classes := [$"NSObject"]; oc_superMethods := None |} []))); (toplevel 2 (TOther), (Node 2 [] (ObjCContainerDecl {| oc_kind := OKInterface; oc_name := $"A"; oc_lines := (4)%Z; oc_ivars := 0; oc_methods := [($"isEqualTo:", true); ($"compare:withOther:", false)]; oc_classes := [$"A"; $"NSObject"]; oc_superMethods := (Some ($"NSObject", [])) |} [(Node 3 [] (ObjCMethodDecl {| om_selector := $"isEqualTo:"; om_class := (Some $"A"); om_overriding := false; om_overridden := []; om_bodyLines := (0)%Z |} [(Node 4 [] (VarDecl {| v_isParm := true; v_name := $"obj"; v_used := false; v_referenced := false; v_local := false; v_staticMember := false; v_private := false; v_unusedAttr := false; v_defaultArg := false; v_canonicalType := $"struct objc_object *"; v_inTemplate := false; v_contexts := [CxObjCMethod true false false false; CxOther] |} None))] None)); (Node 5 [] (ObjCMethodDecl {| om_selector := $"compare:withOther:"; om_class := (Some $"A"); om_overriding := false; om_overridden := []; om_bodyLines := (0)%Z |} [(Node 6 [] (VarDecl {| v_isParm := true; v_name := $"obj1"; v_used := false; v_referenced := false; v_local := false; v_staticMember := false; v_private := false; v_unusedAttr := false; v_defaultArg := false; v_canonicalType := $"A *"; v_inTemplate := false; v_contexts := [CxObjCMethod true false false false; CxOther] |} None)); (Node 7 [] (VarDecl {| v_isParm := true; v_name := $"obj2"; v_used := false; v_referenced := false; v_local := false; v_staticMember := false; v_private := false; v_unusedAttr := false; v_defaultArg := false; v_canonicalType := $"A *"; v_inTemplate := false; v_contexts := [CxObjCMethod true false false false; CxOther] |} None))] None))]))); (toplevel 8 (TOther), (Node 8 [] (ObjCContainerDecl {| oc_kind := OKImplementation; oc_name := $"A"; oc_lines := (6)%Z; oc_ivars := 0; oc_methods := [($"isEqualTo:", true); ($"compare:withOther:", false)]; oc_classes := [$"A"; $"NSObject"]; oc_superMethods := (Some ($"NSObject", [])) |} [(Node 9 [] (ObjCMethodDecl {| om_selector := $"isEqualTo:"; om_class := (Some $"A"); om_overriding := false; om_overridden := []; om_bodyLines := (1)%Z |} [(Node 10 [] (VarDecl {| v_isParm := true; v_name := $"obj"; v_used := false; v_referenced := false; v_local := false; v_staticMember := false; v_private := false; v_unusedAttr := false; v_defaultArg := false; v_canonicalType := $"struct objc_object *"; v_inTemplate := false; v_contexts := [CxObjCMethod false false false false] |} None))] (Some (Node 11 [] (CompoundStmt [(Node 12 [] (ReturnStmt (Some (Node 13 $"BOOL" (CStyleCastExpr CK_Other (Node 14 $"int" (IntegerLiteral (1)%Z)))))))]))))); (Node 15 [] (ObjCMethodDecl {| om_selector := $"compare:withOther:"; om_class := (Some $"A"); om_overriding := false; om_overridden := []; om_bodyLines := (3)%Z |} [(Node 16 [] (VarDecl {| v_isParm := true; v_name := $"obj1"; v_used := true; v_referenced := true; v_local := false; v_staticMember := false; v_private := false; v_unusedAttr := false; v_defaultArg := false; v_canonicalType := $"A *"; v_inTemplate := false; v_contexts := [CxObjCMethod false false false false] |} None)); (Node 17 [] (VarDecl {| v_isParm := true; v_name := $"obj2"; v_used := true; v_referenced := true; v_local := false; v_staticMember := false; v_private := false; v_unusedAttr := false; v_defaultArg := false; v_canonicalType := $"A *"; v_inTemplate := false; v_contexts := [CxObjCMethod false false false false] |} None))] (Some (Node 18 [] (CompoundStmt [(Node 19 [] (IfStmt [] (Node 20 $"int" (BinaryOperator BO_LAnd (Node 21 $"int" (UnaryOperator UO_LNot (Node 22 $"A *" (ImplicitCastExpr CK_LValueToRValue (Node 23 $"A *" (DeclRefExpr 16 $"obj1" false)))))) (Node 24 $"int" (UnaryOperator UO_LNot (Node 25 $"BOOL" (ObjCMessageExpr {| ms_selector := $"isEqualTo:"; ms_receiver := RInstance; ms_implicit := false; ms_interface := (Some $"A"); ms_method := (Some (Decl [] (Some (Method false None (InOther (Some NoCategory)))))); ms_methodClass := (Some $"A") |} (Some (Node 26 $"A *" (ImplicitCastExpr CK_LValueToRValue (Node 27 $"A *" (DeclRefExpr 16 $"obj1" false))))) [(Node 28 $"id" (ImplicitCastExpr CK_BitCast (Node 29 $"A *" (ImplicitCastExpr CK_LValueToRValue (Node 30 $"A *" (DeclRefExpr 17 $"obj2" false))))))])))))) (Node 31 [] (CompoundStmt [(Node 32 [] NullStmt)])) None))])))))])))];
     ts_locs := [(2,1,2,24); (5,1,6,2); (7,1,10,2); (8,1,8,26); (8,20,8,23); (9,1,9,46); (9,18,9,22); (9,38,9,42); (11,1,16,1); (12,1,12,41); (12,20,12,23); (12,27,12,41); (12,29,12,36); (12,36,12,36); (12,36,12,36); (13,1,15,1); (13,18,13,22); (13,38,13,42); (13,47,15,1); (14,5,14,46); (14,9,14,39); (14,9,14,10); (14,10,14,10); (14,10,14,10); (14,18,14,39); (14,19,14,39); (14,20,14,20); (14,20,14,20); (14,35,14,35); (14,35,14,35); (14,35,14,35); (14,42,14,46); (14,44,14,44)]%Z;
     ts_evals := []; ts_same := []; ts_decls := []; ts_parents := [] |}.
Example BrokenNullCheck_ObjC_BrokenEzButRedundantNullNeCheck_holds : nth_violation (shippedRule sh_BrokenNilCheck) BrokenNullCheck_ObjC_BrokenEzButRedundantNullNeCheck 0 = Some (14, 9, 14, 39, $"")%Z.
Proof. vm_compute. reflexivity. Qed.

Definition BrokenNullCheck_ObjC_BrokenExplicitButRedundantNullNeCheck : testcase :=
  {| ts_lang := LObjC; ts_path := $"input.m"; ts_code := [];
     ts_comments := []; ts_conf := [];
     ts_tops := [(toplevel 0 (TOther), (Node 0 [] (OtherDecl []))); (toplevel 1 (TOther), (Node 1 [] (ObjCContainerDecl {| oc_kind := OKInterface; oc_name := $"NSObject"; oc_lines := (2)%Z; oc_ivars := 0; oc_methods := []; oc_classes := [$"NSObject"]; oc_superMethods := None |} []))); (toplevel 2 (TOther), (Node 2 [] (ObjCContainerDecl {| oc_kind := OKInterface; oc_name := $"A"; oc_lines := (4)%Z; oc_ivars := 0; oc_methods := [($"isEqualTo:", true); ($"compare:withOther:", false)]; oc_classes := [$"A"; $"NSObject"]; oc_superMethods := (Some ($"NSObject", [])) |} [(Node 3 [] (ObjCMethodDecl {| om_selector := $"isEqualTo:"; om_class := (Some $"A"); om_overriding := false; om_overridden := []; om_bodyLines := (0)%Z |} [(Node 4 [] (VarDecl {| v_isParm := true; v_name := $"obj"; v_used := false; v_referenced := false; v_local := false; v_staticMember := false; v_private := false; v_unusedAttr := false; v_defaultArg := false; v_canonicalType := $"struct objc_object *"; v_inTemplate := false; v_contexts := [CxObjCMethod true false false false; CxOther] |} None))] None)); (Node 5 [] (ObjCMethodDecl {| om_selector := $"compare:withOther:"; om_class := (Some $"A"); om_overriding := false; om_overridden := []; om_bodyLines := (0)%Z |} [(Node 6 [] (VarDecl {| v_isParm := true; v_name := $"obj1"; v_used := false; v_referenced := false; v_local := false; v_staticMember := false; v_private := false; v_unusedAttr := false; v_defaultArg := false; v_canonicalType := $"A *"; v_inTemplate := false; v_contexts := [CxObjCMethod true false false false; CxOther] |} None)); (Node 7 [] (VarDecl {| v_isParm := true; v_name := $"obj2"; v_used := false; v_referenced := false; v_local := false; v_staticMember := false; v_private := false; v_unusedAttr := false; v_defaultArg := false; v_canonicalType := $"A *"; v_inTemplate := false; v_contexts := [CxObjCMethod true false false false; CxOther] |} None))] None))]))); (toplevel 8 (TOther), (Node 8 [] (ObjCContainerDecl {| oc_kind := OKImplementation; oc_name := $"A"; oc_lines := (6)%Z; oc_ivars := 0; oc_methods := [($"isEqualTo:", true); ($"compare:withOther:", false)]; oc_classes := [$"A"; $"NSObject"]; oc_superMethods := (Some ($"NSObject", [])) |} [(Node 9 [] (ObjCMethodDecl {| om_selector := $"isEqualTo:"; om_class := (Some $"A"); om_overriding := false; om_overridden := []; om_bodyLines := (1)%Z |} [(Node 10 [] (VarDecl {| v_isParm := true; v_name := $"obj"; v_used := false; v_referenced := false; v_local := false; v_staticMember := false; v_private := false; v_unusedAttr := false; v_defaultArg := false; v_canonicalType := $"struct objc_object *"; v_inTemplate := false; v_contexts := [CxObjCMethod false false false false] |} None))] (Some (Node 11 [] (CompoundStmt [(Node 12 [] (ReturnStmt (Some (Node 13 $"BOOL" (CStyleCastExpr CK_Other (Node 14 $"int" (IntegerLiteral (1)%Z)))))))]))))); (Node 15 [] (ObjCMethodDecl {| om_selector := $"compare:withOther:"; om_class := (Some $"A"); om_overriding := false; om_overridden := []; om_bodyLines := (3)%Z |} [(Node 16 [] (VarDecl {| v_isParm := true; v_name := $"obj1"; v_used := true; v_referenced := true; v_local := false; v_staticMember := false; v_private := false; v_unusedAttr := false; v_defaultArg := false; v_canonicalType := $"A *"; v_inTemplate := false; v_contexts := [CxObjCMethod false false false false] |} None)); (Node 17 [] (VarDecl {| v_isParm := true; v_name := $"obj2"; v_used := true; v_referenced := true; v_local := false; v_staticMember := false; v_private := false; v_unusedAttr := false; v_defaultArg := false; v_canonicalType := $"A *"; v_inTemplate := false; v_contexts := [CxObjCMethod false false false false] |} None))] (Some (Node 18 [] (CompoundStmt [(Node 19 [] (IfStmt [] (Node 20 $"int" (BinaryOperator BO_LAnd (Node 21 $"int" (BinaryOperator BO_EQ (Node 22 $"A *" (ImplicitCastExpr CK_LValueToRValue (Node 23 $"A *" (DeclRefExpr 16 $"obj1" false)))) (Node 24 $"A *" (ImplicitCastExpr CK_BitCast (Node 25 $"id" (CStyleCastExpr CK_NullToPointer (Node 26 $"int" (IntegerLiteral (0)%Z)))))))) (Node 27 $"int" (UnaryOperator UO_LNot (Node 28 $"BOOL" (ObjCMessageExpr {| ms_selector := $"isEqualTo:"; ms_receiver := RInstance; ms_implicit := false; ms_interface := (Some $"A"); ms_method := (Some (Decl [] (Some (Method false None (InOther (Some NoCategory)))))); ms_methodClass := (Some $"A") |} (Some (Node 29 $"A *" (ImplicitCastExpr CK_LValueToRValue (Node 30 $"A *" (DeclRefExpr 16 $"obj1" false))))) [(Node 31 $"id" (ImplicitCastExpr CK_BitCast (Node 32 $"A *" (ImplicitCastExpr CK_LValueToRValue (Node 33 $"A *" (DeclRefExpr 17 $"obj2" false))))))])))))) (Node 34 [] (CompoundStmt [(Node 35 [] NullStmt)])) None))])))))])))];
     ts_locs := [(2,1,2,24); (5,1,6,2); (7,1,10,2); (8,1,8,26); (8,20,8,23); (9,1,9,46); (9,18,9,22); (9,38,9,42); (11,1,16,1); (12,1,12,41); (12,20,12,23); (12,27,12,41); (12,29,12,36); (12,36,12,36); (12,36,12,36); (13,1,15,1); (13,18,13,22); (13,38,13,42); (13,47,15,1); (14,5,14,52); (14,9,14,45); (14,9,14,17); (14,9,14,9); (14,9,14,9); (14,17,14,17); (14,17,14,17); (14,17,14,17); (14,24,14,45); (14,25,14,45); (14,26,14,26); (14,26,14,26); (14,41,14,41); (14,41,14,41); (14,41,14,41); (14,48,14,52); (14,50,14,50)]%Z;
     ts_evals := []; ts_same := []; ts_decls := []; ts_parents := [] |}.
Example BrokenNullCheck_ObjC_BrokenExplicitButRedundantNullNeCheck_holds : nth_violation (shippedRule sh_BrokenNilCheck) BrokenNullCheck_ObjC_BrokenExplicitButRedundantNullNeCheck 0 = Some (14, 9, 14, 45, $"")%Z.
Proof. vm_compute. reflexivity. Qed.

Definition BrokenNullCheck_C_ShouldIgnoreDifferentIdentifers : testcase :=
  {| ts_lang := LC; ts_path := $"input.c"; ts_code := [];
     ts_comments := []; ts_conf := [];
     ts_tops := [(toplevel 0 (TOther), (Node 0 [] (OtherDecl []))); (toplevel 1 (TOther), (Node 1 [] (OtherDecl [(Node 2 [] (OtherDecl [])); (Node 3 [] (OtherDecl []))]))); (toplevel 4 (TFunction false), (Node 4 [] (FunctionDecl {| f_name := $"m"; f_method := None; f_isDefinition := true; f_bodyLines := (1)%Z |} [(Node 5 [] (VarDecl {| v_isParm := true; v_name := $"a"; v_used := true; v_referenced := true; v_local := false; v_staticMember := false; v_private := false; v_unusedAttr := false; v_defaultArg := false; v_canonicalType := $"struct A *"; v_inTemplate := false; v_contexts := [CxFunction true true false] |} None)); (Node 6 [] (VarDecl {| v_isParm := true; v_name := $"b"; v_used := true; v_referenced := true; v_local := false; v_staticMember := false; v_private := false; v_unusedAttr := false; v_defaultArg := false; v_canonicalType := $"struct B *"; v_inTemplate := false; v_contexts := [CxFunction true true false] |} None))] (Some (Node 7 [] (CompoundStmt [(Node 8 [] (IfStmt [] (Node 9 [] (BinaryOperator BO_LOr (Node 10 [] (ImplicitCastExpr CK_LValueToRValue (Node 11 [] (DeclRefExpr 6 $"b" false)))) (Node 12 [] (BinaryOperator BO_EQ (Node 13 [] (ImplicitCastExpr CK_LValueToRValue (Node 14 [] (MemberExpr true (Node 15 [] (ImplicitCastExpr CK_LValueToRValue (Node 16 [] (DeclRefExpr 5 $"a" false)))))))) (Node 17 [] (IntegerLiteral (1)%Z)))))) (Node 18 [] (CompoundStmt [(Node 19 [] NullStmt)])) None))]))))))];
     ts_locs := [(2,1,2,11); (3,1,6,1); (4,5,4,9); (5,5,5,9); (7,1,7,64); (7,8,7,18); (7,21,7,31); (7,34,7,64); (7,36,7,62); (7,40,7,55); (7,40,7,40); (7,40,7,40); (7,45,7,55); (7,45,7,48); (7,45,7,48); (7,45,7,45); (7,45,7,45); (7,55,7,55); (7,58,7,62); (7,60,7,60)]%Z;
     ts_evals := []; ts_same := []; ts_decls := []; ts_parents := [] |}.
Example BrokenNullCheck_C_ShouldIgnoreDifferentIdentifers_holds : sorted_violations_of (shippedRule sh_BrokenNullCheck) BrokenNullCheck_C_ShouldIgnoreDifferentIdentifers = Some [].
Proof. vm_compute. reflexivity. Qed.

Definition BrokenNullCheck_ObjC_ShouldIgnoreDifferentIdentifers : testcase :=
  {| ts_lang := LObjC; ts_path := $"input.m"; ts_code := [];
     ts_comments := []; ts_conf := [];
     ts_tops := [(toplevel 0 (TOther), (Node 0 [] (OtherDecl []))); (toplevel 1 (TOther), (Node 1 [] (ObjCContainerDecl {| oc_kind := OKInterface; oc_name := $"NSObject"; oc_lines := (2)%Z; oc_ivars := 0; oc_methods := []; oc_classes := [$"NSObject"]; oc_superMethods := None |} []))); (toplevel 2 (TOther), (Node 2 [] (ObjCContainerDecl {| oc_kind := OKInterface; oc_name := $"A"; oc_lines := (4)%Z; oc_ivars := 0; oc_methods := [($"isEqualTo:", true); ($"compare:withOther:", false)]; oc_classes := [$"A"; $"NSObject"]; oc_superMethods := (Some ($"NSObject", [])) |} [(Node 3 [] (ObjCMethodDecl {| om_selector := $"isEqualTo:"; om_class := (Some $"A"); om_overriding := false; om_overridden := []; om_bodyLines := (0)%Z |} [(Node 4 [] (VarDecl {| v_isParm := true; v_name := $"obj"; v_used := false; v_referenced := false; v_local := false; v_staticMember := false; v_private := false; v_unusedAttr := false; v_defaultArg := false; v_canonicalType := $"struct objc_object *"; v_inTemplate := false; v_contexts := [CxObjCMethod true false false false; CxOther] |} None))] None)); (Node 5 [] (ObjCMethodDecl {| om_selector := $"compare:withOther:"; om_class := (Some $"A"); om_overriding := false; om_overridden := []; om_bodyLines := (0)%Z |} [(Node 6 [] (VarDecl {| v_isParm := true; v_name := $"obj1"; v_used := false; v_referenced := false; v_local := false; v_staticMember := false; v_private := false; v_unusedAttr := false; v_defaultArg := false; v_canonicalType := $"A *"; v_inTemplate := false; v_contexts := [CxObjCMethod true false false false; CxOther] |} None)); (Node 7 [] (VarDecl {| v_isParm := true; v_name := $"obj2"; v_used := false; v_referenced := false; v_local := false; v_staticMember := false; v_private := false; v_unusedAttr := false; v_defaultArg := false; v_canonicalType := $"A *"; v_inTemplate := false; v_contexts := [CxObjCMethod true false false false; CxOther] |} None))] None))]))); (toplevel 8 (TOther), (Node 8 [] (ObjCContainerDecl {| oc_kind := OKImplementation; oc_name := $"A"; oc_lines := (6)%Z; oc_ivars := 0; oc_methods := [($"isEqualTo:", true); ($"compare:withOther:", false)]; oc_classes := [$"A"; $"NSObject"]; oc_superMethods := (Some ($"NSObject", [])) |} [(Node 9 [] (ObjCMethodDecl {| om_selector := $"isEqualTo:"; om_class := (Some $"A"); om_overriding := false; om_overridden := []; om_bodyLines := (1)%Z |} [(Node 10 [] (VarDecl {| v_isParm := true; v_name := $"obj"; v_used := false; v_referenced := false; v_local := false; v_staticMember := false; v_private := false; v_unusedAttr := false; v_defaultArg := false; v_canonicalType := $"struct objc_object *"; v_inTemplate := false; v_contexts := [CxObjCMethod false false false false] |} None))] (Some (Node 11 [] (CompoundStmt [(Node 12 [] (ReturnStmt (Some (Node 13 $"BOOL" (CStyleCastExpr CK_Other (Node 14 $"int" (IntegerLiteral (1)%Z)))))))]))))); (Node 15 [] (ObjCMethodDecl {| om_selector := $"compare:withOther:"; om_class := (Some $"A"); om_overriding := false; om_overridden := []; om_bodyLines := (3)%Z |} [(Node 16 [] (VarDecl {| v_isParm := true; v_name := $"obj1"; v_used := true; v_referenced := true; v_local := false; v_staticMember := false; v_private := false; v_unusedAttr := false; v_defaultArg := false; v_canonicalType := $"A *"; v_inTemplate := false; v_contexts := [CxObjCMethod false false false false] |} None)); (Node 17 [] (VarDecl {| v_isParm := true; v_name := $"obj2"; v_used := true; v_referenced := true; v_local := false; v_staticMember := false; v_private := false; v_unusedAttr := false; v_defaultArg := false; v_canonicalType := $"A *"; v_inTemplate := false; v_contexts := [CxObjCMethod false false false false] |} None))] (Some (Node 18 [] (CompoundStmt [(Node 19 [] (IfStmt [] (Node 20 $"int" (BinaryOperator BO_LAnd (Node 21 $"int" (BinaryOperator BO_EQ (Node 22 $"A *" (ImplicitCastExpr CK_LValueToRValue (Node 23 $"A *" (DeclRefExpr 16 $"obj1" false)))) (Node 24 $"A *" (ImplicitCastExpr CK_BitCast (Node 25 $"id" (CStyleCastExpr CK_NullToPointer (Node 26 $"int" (IntegerLiteral (0)%Z)))))))) (Node 27 $"int" (UnaryOperator UO_LNot (Node 28 $"BOOL" (ObjCMessageExpr {| ms_selector := $"isEqualTo:"; ms_receiver := RInstance; ms_implicit := false; ms_interface := (Some $"A"); ms_method := (Some (Decl [] (Some (Method false None (InOther (Some NoCategory)))))); ms_methodClass := (Some $"A") |} (Some (Node 29 $"A *" (ImplicitCastExpr CK_LValueToRValue (Node 30 $"A *" (DeclRefExpr 17 $"obj2" false))))) [(Node 31 $"id" (ImplicitCastExpr CK_BitCast (Node 32 $"A *" (ImplicitCastExpr CK_LValueToRValue (Node 33 $"A *" (DeclRefExpr 16 $"obj1" false))))))])))))) (Node 34 [] (CompoundStmt [(Node 35 [] NullStmt)])) None))])))))])))];
     ts_locs := [(2,1,2,24); (5,1,6,2); (7,1,10,2); (8,1,8,26); (8,20,8,23); (9,1,9,46); (9,18,9,22); (9,38,9,42); (11,1,16,1); (12,1,12,41); (12,20,12,23); (12,27,12,41); (12,29,12,36); (12,36,12,36); (12,36,12,36); (13,1,15,1); (13,18,13,22); (13,38,13,42); (13,47,15,1); (14,5,14,52); (14,9,14,45); (14,9,14,17); (14,9,14,9); (14,9,14,9); (14,17,14,17); (14,17,14,17); (14,17,14,17); (14,24,14,45); (14,25,14,45); (14,26,14,26); (14,26,14,26); (14,41,14,41); (14,41,14,41); (14,41,14,41); (14,48,14,52); (14,50,14,50)]%Z;
     ts_evals := []; ts_same := []; ts_decls := []; ts_parents := [] |}.
Example BrokenNullCheck_ObjC_ShouldIgnoreDifferentIdentifers_holds : sorted_violations_of (shippedRule sh_BrokenNilCheck) BrokenNullCheck_ObjC_ShouldIgnoreDifferentIdentifers = Some [].
Proof. vm_compute. reflexivity. Qed.

Definition BrokenNullCheck_C_NullEqualsNull : testcase :=
  {| ts_lang := LC; ts_path := $"input.c"; ts_code := [];
     ts_comments := []; ts_conf := [];
     ts_tops := [(toplevel 0 (TOther), (Node 0 [] (OtherDecl []))); (toplevel 1 (TOther), (Node 1 [] (OtherDecl [(Node 2 [] (OtherDecl [])); (Node 3 [] (OtherDecl []))]))); (toplevel 4 (TFunction false), (Node 4 [] (FunctionDecl {| f_name := $"m"; f_method := None; f_isDefinition := true; f_bodyLines := (1)%Z |} [(Node 5 [] (VarDecl {| v_isParm := true; v_name := $"a"; v_used := true; v_referenced := true; v_local := false; v_staticMember := false; v_private := false; v_unusedAttr := false; v_defaultArg := false; v_canonicalType := $"struct A *"; v_inTemplate := false; v_contexts := [CxFunction true true false] |} None)); (Node 6 [] (VarDecl {| v_isParm := true; v_name := $"b"; v_used := false; v_referenced := false; v_local := false; v_staticMember := false; v_private := false; v_unusedAttr := false; v_defaultArg := false; v_canonicalType := $"struct B *"; v_inTemplate := false; v_contexts := [CxFunction true true false] |} None))] (Some (Node 7 [] (CompoundStmt [(Node 8 [] (IfStmt [] (Node 9 [] (BinaryOperator BO_LAnd (Node 10 [] (BinaryOperator BO_EQ (Node 11 [] (ParenExpr (Node 12 [] (CStyleCastExpr CK_NullToPointer (Node 13 [] (IntegerLiteral (0)%Z)))))) (Node 14 [] (ParenExpr (Node 15 [] (CStyleCastExpr CK_NullToPointer (Node 16 [] (IntegerLiteral (0)%Z)))))))) (Node 17 [] (BinaryOperator BO_EQ (Node 18 [] (ImplicitCastExpr CK_LValueToRValue (Node 19 [] (MemberExpr true (Node 20 [] (ImplicitCastExpr CK_LValueToRValue (Node 21 [] (DeclRefExpr 5 $"a" false)))))))) (Node 22 [] (IntegerLiteral (1)%Z)))))) (Node 23 [] (CompoundStmt [(Node 24 [] NullStmt)])) None))]))))))];
     ts_locs := [(2,1,2,11); (3,1,6,1); (4,5,4,9); (5,5,5,9); (7,1,7,75); (7,8,7,18); (7,21,7,31); (7,34,7,75); (7,36,7,73); (7,40,7,66); (7,40,7,48); (7,40,7,40); (7,40,7,40); (7,40,7,40); (7,48,7,48); (7,48,7,48); (7,48,7,48); (7,56,7,66); (7,56,7,59); (7,56,7,59); (7,56,7,56); (7,56,7,56); (7,66,7,66); (7,69,7,73); (7,71,7,71)]%Z;
     ts_evals := []; ts_same := []; ts_decls := []; ts_parents := [] |}.
Example BrokenNullCheck_C_NullEqualsNull_holds : sorted_violations_of (shippedRule sh_BrokenNullCheck) BrokenNullCheck_C_NullEqualsNull = Some [].
Proof. vm_compute. reflexivity. Qed.

Definition BrokenNullCheck_Cpp_NullOnTheLeftHandSide : testcase :=
  {| ts_lang := LCXX; ts_path := $"input.cpp"; ts_code := [];
     ts_comments := []; ts_conf := [];
     ts_tops := [(toplevel 0 (TOther), (Node 0 [] (CXXRecordDecl {| r_class := (CxxRecord 0 $"B" true false None []); r_fields := 0; r_methods := 0; r_lines := (1)%Z |} []))); (toplevel 1 (TOther), (Node 1 [] (CXXRecordDecl {| r_class := (CxxRecord 1 $"A" true false None []); r_fields := 0; r_methods := 2; r_lines := (5)%Z |} [(Node 2 [] (FunctionDecl {| f_name := $"foo"; f_method := (Some {| cm_virtual := false; cm_static := false; cm_private := false; cm_inRecord := true |}); f_isDefinition := false; f_bodyLines := (0)%Z |} [(Node 3 [] (VarDecl {| v_isParm := true; v_name := $"f"; v_used := false; v_referenced := false; v_local := false; v_staticMember := false; v_private := false; v_unusedAttr := false; v_defaultArg := false; v_canonicalType := $"A *"; v_inTemplate := false; v_contexts := [CxFunction false false false; CxRecord] |} None))] None)); (Node 4 [] (FunctionDecl {| f_name := $"bar"; f_method := (Some {| cm_virtual := false; cm_static := false; cm_private := false; cm_inRecord := true |}); f_isDefinition := false; f_bodyLines := (0)%Z |} [(Node 5 [] (VarDecl {| v_isParm := true; v_name := $"b"; v_used := false; v_referenced := false; v_local := false; v_staticMember := false; v_private := false; v_unusedAttr := false; v_defaultArg := false; v_canonicalType := $"B *"; v_inTemplate := false; v_contexts := [CxFunction false false false; CxRecord] |} None))] None))]))); (toplevel 6 (TFunction false), (Node 6 [] (FunctionDecl {| f_name := $"m"; f_method := None; f_isDefinition := true; f_bodyLines := (1)%Z |} [(Node 7 [] (VarDecl {| v_isParm := true; v_name := $"a"; v_used := true; v_referenced := true; v_local := false; v_staticMember := false; v_private := false; v_unusedAttr := false; v_defaultArg := false; v_canonicalType := $"A *"; v_inTemplate := false; v_contexts := [CxFunction true true false] |} None)); (Node 8 [] (VarDecl {| v_isParm := true; v_name := $"b"; v_used := true; v_referenced := true; v_local := false; v_staticMember := false; v_private := false; v_unusedAttr := false; v_defaultArg := false; v_canonicalType := $"B *"; v_inTemplate := false; v_contexts := [CxFunction true true false] |} None))] (Some (Node 9 [] (CompoundStmt [(Node 10 [] (IfStmt [] (Node 11 [] (BinaryOperator BO_LAnd (Node 12 [] (BinaryOperator BO_EQ (Node 13 [] (ImplicitCastExpr CK_NullToPointer (Node 14 [] (IntegerLiteral (0)%Z)))) (Node 15 [] (ImplicitCastExpr CK_LValueToRValue (Node 16 [] (DeclRefExpr 7 $"a" false)))))) (Node 17 [] (CallExpr (Some ($"bar", Decl [] None)) (Node 18 [] (MemberExpr true (Node 19 [] (ImplicitCastExpr CK_LValueToRValue (Node 20 [] (DeclRefExpr 7 $"a" false)))))) [(Node 21 [] (ImplicitCastExpr CK_LValueToRValue (Node 22 [] (DeclRefExpr 8 $"b" false))))])))) (Node 23 [] (CompoundStmt [(Node 24 [] NullStmt)])) None))]))))))];
     ts_locs := [(2,1,2,10); (3,1,7,1); (5,5,5,18); (5,14,5,17); (6,5,6,18); (6,14,6,17); (8,1,8,53); (8,8,8,11); (8,14,8,17); (8,20,8,53); (8,22,8,51); (8,26,8,44); (8,26,8,31); (8,26,8,26); (8,26,8,26); (8,31,8,31); (8,31,8,31); (8,36,8,44); (8,36,8,39); (8,36,8,36); (8,36,8,36); (8,43,8,43); (8,43,8,43); (8,47,8,51); (8,49,8,49)]%Z;
     ts_evals := []; ts_same := []; ts_decls := []; ts_parents := [] |}.
Example BrokenNullCheck_Cpp_NullOnTheLeftHandSide_holds : nth_violation (shippedRule sh_BrokenNullCheck) BrokenNullCheck_Cpp_NullOnTheLeftHandSide 0 = Some (8, 26, 8, 44, $"")%Z.
Proof. vm_compute. reflexivity. Qed.

Definition BrokenNullCheck_C_MultipleMemberExpr : testcase :=
  {| ts_lang := LC; ts_path := $"input.c"; ts_code := [];
     ts_comments := []; ts_conf := [];
     ts_tops := [(toplevel 0 (TOther), (Node 0 [] (OtherDecl []))); (toplevel 1 (TOther), (Node 1 [] (OtherDecl [(Node 2 [] (OtherDecl [])); (Node 3 [] (OtherDecl []))]))); (toplevel 4 (TOther), (Node 4 [] (OtherDecl [(Node 5 [] (OtherDecl []))]))); (toplevel 6 (TFunction false), (Node 6 [] (FunctionDecl {| f_name := $"m"; f_method := None; f_isDefinition := true; f_bodyLines := (1)%Z |} [(Node 7 [] (VarDecl {| v_isParm := true; v_name := $"a"; v_used := true; v_referenced := true; v_local := false; v_staticMember := false; v_private := false; v_unusedAttr := false; v_defaultArg := false; v_canonicalType := $"struct A *"; v_inTemplate := false; v_contexts := [CxFunction true true false] |} None)); (Node 8 [] (VarDecl {| v_isParm := true; v_name := $"c"; v_used := true; v_referenced := true; v_local := false; v_staticMember := false; v_private := false; v_unusedAttr := false; v_defaultArg := false; v_canonicalType := $"struct C *"; v_inTemplate := false; v_contexts := [CxFunction true true false] |} None))] (Some (Node 9 [] (CompoundStmt [(Node 10 [] (IfStmt [] (Node 11 [] (BinaryOperator BO_LOr (Node 12 [] (BinaryOperator BO_NE (Node 13 [] (ImplicitCastExpr CK_LValueToRValue (Node 14 [] (DeclRefExpr 7 $"a" false)))) (Node 15 [] (ImplicitCastExpr CK_NullToPointer (Node 16 [] (ParenExpr (Node 17 [] (CStyleCastExpr CK_NullToPointer (Node 18 [] (IntegerLiteral (0)%Z)))))))))) (Node 19 [] (ParenExpr (Node 20 [] (BinaryOperator BO_LAnd (Node 21 [] (BinaryOperator BO_EQ (Node 22 [] (ImplicitCastExpr CK_LValueToRValue (Node 23 [] (MemberExpr true (Node 24 [] (ImplicitCastExpr CK_LValueToRValue (Node 25 [] (DeclRefExpr 8 $"c" false)))))))) (Node 26 [] (IntegerLiteral (0)%Z)))) (Node 27 [] (BinaryOperator BO_EQ (Node 28 [] (ImplicitCastExpr CK_LValueToRValue (Node 29 [] (MemberExpr true (Node 30 [] (ImplicitCastExpr CK_LValueToRValue (Node 31 [] (DeclRefExpr 7 $"a" false)))))))) (Node 32 [] (IntegerLiteral (1)%Z)))))))))) (Node 33 [] (CompoundStmt [(Node 34 [] NullStmt)])) None))]))))))];
     ts_locs := [(2,1,2,11); (3,1,6,1); (4,5,4,9); (5,5,5,9); (7,1,7,21); (7,12,7,16); (7,24,7,112); (7,31,7,41); (7,44,7,54); (7,57,7,112); (7,59,7,110); (7,63,7,103); (7,63,7,68); (7,63,7,63); (7,63,7,63); (7,68,7,68); (7,68,7,68); (7,68,7,68); (7,68,7,68); (7,76,7,103); (7,77,7,102); (7,77,7,87); (7,77,7,80); (7,77,7,80); (7,77,7,77); (7,77,7,77); (7,87,7,87); (7,92,7,102); (7,92,7,95); (7,92,7,95); (7,92,7,92); (7,92,7,92); (7,102,7,102); (7,106,7,110); (7,108,7,108)]%Z;
     ts_evals := []; ts_same := []; ts_decls := []; ts_parents := [] |}.
Example BrokenNullCheck_C_MultipleMemberExpr_holds : nth_violation (shippedRule sh_BrokenNullCheck) BrokenNullCheck_C_MultipleMemberExpr 0 = Some (7, 63, 7, 103, $"")%Z.
Proof. vm_compute. reflexivity. Qed.

Definition BrokenNullCheck_ObjC_MultipleMessageExpr : testcase :=
  {| ts_lang := LObjC; ts_path := $"input.m"; ts_code := [];
     ts_comments := []; ts_conf := [];
     ts_tops := [(toplevel 0 (TOther), (Node 0 [] (OtherDecl []))); (toplevel 1 (TOther), (Node 1 [] (ObjCContainerDecl {| oc_kind := OKInterface; oc_name := $"NSObject"; oc_lines := (2)%Z; oc_ivars := 0; oc_methods := []; oc_classes := [$"NSObject"]; oc_superMethods := None |} []))); (toplevel 2 (TOther), (Node 2 [] (ObjCContainerDecl {| oc_kind := OKInterface; oc_name := $"A"; oc_lines := (4)%Z; oc_ivars := 0; oc_methods := [($"isEqualTo:", true); ($"compare:withOther:", false)]; oc_classes := [$"A"; $"NSObject"]; oc_superMethods := (Some ($"NSObject", [])) |} [(Node 3 [] (ObjCMethodDecl {| om_selector := $"isEqualTo:"; om_class := (Some $"A"); om_overriding := false; om_overridden := []; om_bodyLines := (0)%Z |} [(Node 4 [] (VarDecl {| v_isParm := true; v_name := $"obj"; v_used := false; v_referenced := false; v_local := false; v_staticMember := false; v_private := false; v_unusedAttr := false; v_defaultArg := false; v_canonicalType := $"struct objc_object *"; v_inTemplate := false; v_contexts := [CxObjCMethod true false false false; CxOther] |} None))] None)); (Node 5 [] (ObjCMethodDecl {| om_selector := $"compare:withOther:"; om_class := (Some $"A"); om_overriding := false; om_overridden := []; om_bodyLines := (0)%Z |} [(Node 6 [] (VarDecl {| v_isParm := true; v_name := $"obj1"; v_used := false; v_referenced := false; v_local := false; v_staticMember := false; v_private := false; v_unusedAttr := false; v_defaultArg := false; v_canonicalType := $"A *"; v_inTemplate := false; v_contexts := [CxObjCMethod true false false false; CxOther] |} None)); (Node 7 [] (VarDecl {| v_isParm := true; v_name := $"obj2"; v_used := false; v_referenced := false; v_local := false; v_staticMember := false; v_private := false; v_unusedAttr := false; v_defaultArg := false; v_canonicalType := $"A *"; v_inTemplate := false; v_contexts := [CxObjCMethod true false false false; CxOther] |} None))] None))]))); (toplevel 8 (TOther), (Node 8 [] (ObjCContainerDecl {| oc_kind := OKImplementation; oc_name := $"A"; oc_lines := (6)%Z; oc_ivars := 0; oc_methods := [($"isEqualTo:", true); ($"compare:withOther:", false)]; oc_classes := [$"A"; $"NSObject"]; oc_superMethods := (Some ($"NSObject", [])) |} [(Node 9 [] (ObjCMethodDecl {| om_selector := $"isEqualTo:"; om_class := (Some $"A"); om_overriding := false; om_overridden := []; om_bodyLines := (1)%Z |} [(Node 10 [] (VarDecl {| v_isParm := true; v_name := $"obj"; v_used := false; v_referenced := false; v_local := false; v_staticMember := false; v_private := false; v_unusedAttr := false; v_defaultArg := false; v_canonicalType := $"struct objc_object *"; v_inTemplate := false; v_contexts := [CxObjCMethod false false false false] |} None))] (Some (Node 11 [] (CompoundStmt [(Node 12 [] (ReturnStmt (Some (Node 13 $"BOOL" (CStyleCastExpr CK_Other (Node 14 $"int" (IntegerLiteral (1)%Z)))))))]))))); (Node 15 [] (ObjCMethodDecl {| om_selector := $"compare:withOther:"; om_class := (Some $"A"); om_overriding := false; om_overridden := []; om_bodyLines := (3)%Z |} [(Node 16 [] (VarDecl {| v_isParm := true; v_name := $"obj1"; v_used := true; v_referenced := true; v_local := false; v_staticMember := false; v_private := false; v_unusedAttr := false; v_defaultArg := false; v_canonicalType := $"A *"; v_inTemplate := false; v_contexts := [CxObjCMethod false false false false] |} None)); (Node 17 [] (VarDecl {| v_isParm := true; v_name := $"obj2"; v_used := true; v_referenced := true; v_local := false; v_staticMember := false; v_private := false; v_unusedAttr := false; v_defaultArg := false; v_canonicalType := $"A *"; v_inTemplate := false; v_contexts := [CxObjCMethod false false false false] |} None))] (Some (Node 18 [] (CompoundStmt [(Node 19 [] (IfStmt [] (Node 20 $"int" (BinaryOperator BO_LOr (Node 21 $"int" (BinaryOperator BO_NE (Node 22 $"A *" (ImplicitCastExpr CK_LValueToRValue (Node 23 $"A *" (DeclRefExpr 16 $"obj1" false)))) (Node 24 $"A *" (ImplicitCastExpr CK_BitCast (Node 25 $"id" (CStyleCastExpr CK_NullToPointer (Node 26 $"int" (IntegerLiteral (0)%Z)))))))) (Node 27 $"int" (ParenExpr (Node 28 $"int" (BinaryOperator BO_LAnd (Node 29 $"BOOL" (ObjCMessageExpr {| ms_selector := $"isEqualTo:"; ms_receiver := RInstance; ms_implicit := false; ms_interface := (Some $"A"); ms_method := (Some (Decl [] (Some (Method false None (InOther (Some NoCategory)))))); ms_methodClass := (Some $"A") |} (Some (Node 30 $"A *" (ImplicitCastExpr CK_LValueToRValue (Node 31 $"A *" (DeclRefExpr 17 $"obj2" false))))) [(Node 32 $"id" (ImplicitCastExpr CK_BitCast (Node 33 $"A *" (ImplicitCastExpr CK_LValueToRValue (Node 34 $"A *" (DeclRefExpr 16 $"obj1" false))))))])) (Node 35 $"BOOL" (ObjCMessageExpr {| ms_selector := $"isEqualTo:"; ms_receiver := RInstance; ms_implicit := false; ms_interface := (Some $"A"); ms_method := (Some (Decl [] (Some (Method false None (InOther (Some NoCategory)))))); ms_methodClass := (Some $"A") |} (Some (Node 36 $"A *" (ImplicitCastExpr CK_LValueToRValue (Node 37 $"A *" (DeclRefExpr 16 $"obj1" false))))) [(Node 38 $"id" (ImplicitCastExpr CK_BitCast (Node 39 $"A *" (ImplicitCastExpr CK_LValueToRValue (Node 40 $"A *" (DeclRefExpr 17 $"obj2" false))))))])))))))) (Node 41 [] (CompoundStmt [(Node 42 [] NullStmt)])) None))])))))])))];
     ts_locs := [(2,1,2,24); (5,1,6,2); (7,1,10,2); (8,1,8,26); (8,20,8,23); (9,1,9,46); (9,18,9,22); (9,38,9,42); (11,1,16,1); (12,1,12,41); (12,20,12,23); (12,27,12,41); (12,29,12,36); (12,36,12,36); (12,36,12,36); (13,1,15,1); (13,18,13,22); (13,38,13,42); (13,47,15,1); (14,5,14,78); (14,9,14,71); (14,9,14,17); (14,9,14,9); (14,9,14,9); (14,17,14,17); (14,17,14,17); (14,17,14,17); (14,24,14,71); (14,25,14,70); (14,25,14,45); (14,26,14,26); (14,26,14,26); (14,41,14,41); (14,41,14,41); (14,41,14,41); (14,50,14,70); (14,51,14,51); (14,51,14,51); (14,66,14,66); (14,66,14,66); (14,66,14,66); (14,74,14,78); (14,76,14,76)]%Z;
     ts_evals := []; ts_same := []; ts_decls := []; ts_parents := [] |}.
Example BrokenNullCheck_ObjC_MultipleMessageExpr_holds : nth_violation (shippedRule sh_BrokenNilCheck) BrokenNullCheck_ObjC_MultipleMessageExpr 0 = Some (14, 9, 14, 71, $"")%Z.
Proof. vm_compute. reflexivity. Qed.

Definition BrokenNullCheck_C_BrokenExplicitNullEqCheck_ShouldIgnoreByObjC : testcase :=
  {| ts_lang := LC; ts_path := $"input.c"; ts_code := [];
     ts_comments := []; ts_conf := [];
     ts_tops := [(toplevel 0 (TOther), (Node 0 [] (OtherDecl []))); (toplevel 1 (TOther), (Node 1 [] (OtherDecl [(Node 2 [] (OtherDecl [])); (Node 3 [] (OtherDecl []))]))); (toplevel 4 (TFunction false), (Node 4 [] (FunctionDecl {| f_name := $"m"; f_method := None; f_isDefinition := true; f_bodyLines := (1)%Z |} [(Node 5 [] (VarDecl {| v_isParm := true; v_name := $"a"; v_used := true; v_referenced := true; v_local := false; v_staticMember := false; v_private := false; v_unusedAttr := false; v_defaultArg := false; v_canonicalType := $"struct A *"; v_inTemplate := false; v_contexts := [CxFunction true true false] |} None)); (Node 6 [] (VarDecl {| v_isParm := true; v_name := $"b"; v_used := false; v_referenced := false; v_local := false; v_staticMember := false; v_private := false; v_unusedAttr := false; v_defaultArg := false; v_canonicalType := $"struct B *"; v_inTemplate := false; v_contexts := [CxFunction true true false] |} None))] (Some (Node 7 [] (CompoundStmt [(Node 8 [] (IfStmt [] (Node 9 [] (BinaryOperator BO_LOr (Node 10 [] (BinaryOperator BO_NE (Node 11 [] (ImplicitCastExpr CK_LValueToRValue (Node 12 [] (DeclRefExpr 5 $"a" false)))) (Node 13 [] (ImplicitCastExpr CK_NullToPointer (Node 14 [] (ParenExpr (Node 15 [] (CStyleCastExpr CK_NullToPointer (Node 16 [] (IntegerLiteral (0)%Z)))))))))) (Node 17 [] (BinaryOperator BO_EQ (Node 18 [] (ImplicitCastExpr CK_LValueToRValue (Node 19 [] (MemberExpr true (Node 20 [] (ImplicitCastExpr CK_LValueToRValue (Node 21 [] (DeclRefExpr 5 $"a" false)))))))) (Node 22 [] (IntegerLiteral (1)%Z)))))) (Node 23 [] (CompoundStmt [(Node 24 [] NullStmt)])) None))]))))))];
     ts_locs := [(2,1,2,11); (3,1,6,1); (4,5,4,9); (5,5,5,9); (7,1,7,72); (7,8,7,18); (7,21,7,31); (7,34,7,72); (7,36,7,70); (7,40,7,63); (7,40,7,45); (7,40,7,40); (7,40,7,40); (7,45,7,45); (7,45,7,45); (7,45,7,45); (7,45,7,45); (7,53,7,63); (7,53,7,56); (7,53,7,56); (7,53,7,53); (7,53,7,53); (7,63,7,63); (7,66,7,70); (7,68,7,68)]%Z;
     ts_evals := []; ts_same := []; ts_decls := []; ts_parents := [] |}.
Example BrokenNullCheck_C_BrokenExplicitNullEqCheck_ShouldIgnoreByObjC_holds : sorted_violations_of (shippedRule sh_BrokenNilCheck) BrokenNullCheck_C_BrokenExplicitNullEqCheck_ShouldIgnoreByObjC = Some [].
Proof. vm_compute. reflexivity. Qed.

Definition BrokenNullCheck_Cpp_BrokenExplicitNullEqCheck_ShouldIgnoreByObjC : testcase :=
  {| ts_lang := LCXX; ts_path := $"input.cpp"; ts_code := [];
     ts_comments := []; ts_conf := [];
     ts_tops := [(toplevel 0 (TOther), (Node 0 [] (CXXRecordDecl {| r_class := (CxxRecord 0 $"B" true false None []); r_fields := 0; r_methods := 0; r_lines := (1)%Z |} []))); (toplevel 1 (TOther), (Node 1 [] (CXXRecordDecl {| r_class := (CxxRecord 1 $"A" true false None []); r_fields := 0; r_methods := 2; r_lines := (5)%Z |} [(Node 2 [] (FunctionDecl {| f_name := $"foo"; f_method := (Some {| cm_virtual := false; cm_static := false; cm_private := false; cm_inRecord := true |}); f_isDefinition := false; f_bodyLines := (0)%Z |} [(Node 3 [] (VarDecl {| v_isParm := true; v_name := $"f"; v_used := false; v_referenced := false; v_local := false; v_staticMember := false; v_private := false; v_unusedAttr := false; v_defaultArg := false; v_canonicalType := $"A *"; v_inTemplate := false; v_contexts := [CxFunction false false false; CxRecord] |} None))] None)); (Node 4 [] (FunctionDecl {| f_name := $"bar"; f_method := (Some {| cm_virtual := false; cm_static := false; cm_private := false; cm_inRecord := true |}); f_isDefinition := false; f_bodyLines := (0)%Z |} [(Node 5 [] (VarDecl {| v_isParm := true; v_name := $"b"; v_used := false; v_referenced := false; v_local := false; v_staticMember := false; v_private := false; v_unusedAttr := false; v_defaultArg := false; v_canonicalType := $"B *"; v_inTemplate := false; v_contexts := [CxFunction false false false; CxRecord] |} None))] None))]))); (toplevel 6 (TFunction false), (Node 6 [] (FunctionDecl {| f_name := $"m"; f_method := None; f_isDefinition := true; f_bodyLines := (1)%Z |} [(Node 7 [] (VarDecl {| v_isParm := true; v_name := $"a"; v_used := true; v_referenced := true; v_local := false; v_staticMember := false; v_private := false; v_unusedAttr := false; v_defaultArg := false; v_canonicalType := $"A *"; v_inTemplate := false; v_contexts := [CxFunction true true false] |} None)); (Node 8 [] (VarDecl {| v_isParm := true; v_name := $"b"; v_used := true; v_referenced := true; v_local := false; v_staticMember := false; v_private := false; v_unusedAttr := false; v_defaultArg := false; v_canonicalType := $"B *"; v_inTemplate := false; v_contexts := [CxFunction true true false] |} None))] (Some (Node 9 [] (CompoundStmt [(Node 10 [] (IfStmt [] (Node 11 [] (BinaryOperator BO_LOr (Node 12 [] (BinaryOperator BO_NE (Node 13 [] (ImplicitCastExpr CK_LValueToRValue (Node 14 [] (DeclRefExpr 7 $"a" false)))) (Node 15 [] (ImplicitCastExpr CK_NullToPointer (Node 16 [] (IntegerLiteral (0)%Z)))))) (Node 17 [] (CallExpr (Some ($"bar", Decl [] None)) (Node 18 [] (MemberExpr true (Node 19 [] (ImplicitCastExpr CK_LValueToRValue (Node 20 [] (DeclRefExpr 7 $"a" false)))))) [(Node 21 [] (ImplicitCastExpr CK_LValueToRValue (Node 22 [] (DeclRefExpr 8 $"b" false))))])))) (Node 23 [] (CompoundStmt [(Node 24 [] NullStmt)])) None))]))))))];
     ts_locs := [(2,1,2,10); (3,1,7,1); (5,5,5,18); (5,14,5,17); (6,5,6,18); (6,14,6,17); (8,1,8,56); (8,8,8,11); (8,14,8,17); (8,20,8,56); (8,22,8,54); (8,26,8,47); (8,26,8,31); (8,26,8,26); (8,26,8,26); (8,31,8,31); (8,31,8,31); (8,39,8,47); (8,39,8,42); (8,39,8,39); (8,39,8,39); (8,46,8,46); (8,46,8,46); (8,50,8,54); (8,52,8,52)]%Z;
     ts_evals := []; ts_same := []; ts_decls := []; ts_parents := [] |}.
Example BrokenNullCheck_Cpp_BrokenExplicitNullEqCheck_ShouldIgnoreByObjC_holds : sorted_violations_of (shippedRule sh_BrokenNilCheck) BrokenNullCheck_Cpp_BrokenExplicitNullEqCheck_ShouldIgnoreByObjC = Some [].
Proof. vm_compute. reflexivity. Qed.

Definition BrokenNullCheck_ObjC_BrokenEzButRedundantNullEqCheck_ShouldIgnoreByC : testcase :=
  {| ts_lang := LObjC; ts_path := $"input.m"; ts_code := [];
     ts_comments := []; ts_conf := [];
     ts_tops := [(toplevel 0 (TOther), (Node 0 [] (OtherDecl []))); (toplevel 1 (TOther), (Node 1 [] (ObjCContainerDecl {| oc_kind := OKInterface; oc_name := $"NSObject"; oc_lines := (2)%Z; oc_ivars := 0; oc_methods := []; oc_classes := [$"NSObject"]; oc_superMethods := None |} []))); (toplevel 2 (TOther), (Node 2 [] (ObjCContainerDecl {| oc_kind := OKInterface; oc_name := $"A"; oc_lines := (4)%Z; oc_ivars := 0; oc_methods := [($"isEqualTo:", true); ($"compare:withOther:", false)]; oc_classes := [$"A"; $"NSObject"]; oc_superMethods := (Some ($"NSObject", [])) |} [(Node 3 [] (ObjCMethodDecl {| om_selector := $"isEqualTo:"; om_class := (Some $"A"); om_overriding := false; om_overridden := []; om_bodyLines := (0)%Z |} [(Node 4 [] (VarDecl {| v_isParm := true; v_name := $"obj"; v_used := false; v_referenced := false; v_local := false; v_staticMember := false; v_private := false; v_unusedAttr := false; v_defaultArg := false; v_canonicalType := $"struct objc_object *"; v_inTemplate := false; v_contexts := [CxObjCMethod true false false false; CxOther] |} None))] None)); (Node 5 [] (ObjCMethodDecl {| om_selector := $"compare:withOther:"; om_class := (Some $"A"); om_overriding := false; om_overridden := []; om_bodyLines := (0)%Z |} [(Node 6 [] (VarDecl {| v_isParm := true; v_name := $"obj1"; v_used := false; v_referenced := false; v_local := false; v_staticMember := false; v_private := false; v_unusedAttr := false; v_defaultArg := false; v_canonicalType := $"A *"; v_inTemplate := false; v_contexts := [CxObjCMethod true false false false; CxOther] |} None)); (Node 7 [] (VarDecl {| v_isParm := true; v_name := $"obj2"; v_used := false; v_referenced := false; v_local := false; v_staticMember := false; v_private := false; v_unusedAttr := false; v_defaultArg := false; v_canonicalType := $"A *"; v_inTemplate := false; v_contexts := [CxObjCMethod true false false false; CxOther] |} None))] None))]))); (toplevel 8 (TOther), (Node 8 [] (ObjCContainerDecl {| oc_kind := OKImplementation; oc_name := $"A"; oc_lines := (6)%Z; oc_ivars := 0; oc_methods := [($"isEqualTo:", true); ($"compare:withOther:", false)]; oc_classes := [$"A"; $"NSObject"]; oc_superMethods := (Some ($"NSObject", [])) |} [(Node 9 [] (ObjCMethodDecl {| om_selector := $"isEqualTo:"; om_class := (Some $"A"); om_overriding := false; om_overridden := []; om_bodyLines := (1)%Z |} [(Node 10 [] (VarDecl {| v_isParm := true; v_name := $"obj"; v_used := false; v_referenced := false; v_local := false; v_staticMember := false; v_private := false; v_unusedAttr := false; v_defaultArg := false; v_canonicalType := $"struct objc_object *"; v_inTemplate := false; v_contexts := [CxObjCMethod false false false false] |} None))] (Some (Node 11 [] (CompoundStmt [(Node 12 [] (ReturnStmt (Some (Node 13 $"BOOL" (CStyleCastExpr CK_Other (Node 14 $"int" (IntegerLiteral (1)%Z)))))))]))))); (Node 15 [] (ObjCMethodDecl {| om_selector := $"compare:withOther:"; om_class := (Some $"A"); om_overriding := false; om_overridden := []; om_bodyLines := (3)%Z |} [(Node 16 [] (VarDecl {| v_isParm := true; v_name := $"obj1"; v_used := true; v_referenced := true; v_local := false; v_staticMember := false; v_private := false; v_unusedAttr := false; v_defaultArg := false; v_canonicalType := $"A *"; v_inTemplate := false; v_contexts := [CxObjCMethod false false false false] |} None)); (Node 17 [] (VarDecl {| v_isParm := true; v_name := $"obj2"; v_used := true; v_referenced := true; v_local := false; v_staticMember := false; v_private := false; v_unusedAttr := false; v_defaultArg := false; v_canonicalType := $"A *"; v_inTemplate := false; v_contexts := [CxObjCMethod false false false false] |} None))] (Some (Node 18 [] (CompoundStmt [(Node 19 [] (IfStmt [] (Node 20 $"int" (BinaryOperator BO_LOr (Node 21 $"A *" (ImplicitCastExpr CK_LValueToRValue (Node 22 $"A *" (DeclRefExpr 16 $"obj1" false)))) (Node 23 $"BOOL" (ObjCMessageExpr {| ms_selector := $"isEqualTo:"; ms_receiver := RInstance; ms_implicit := false; ms_interface := (Some $"A"); ms_method := (Some (Decl [] (Some (Method false None (InOther (Some NoCategory)))))); ms_methodClass := (Some $"A") |} (Some (Node 24 $"A *" (ImplicitCastExpr CK_LValueToRValue (Node 25 $"A *" (DeclRefExpr 16 $"obj1" false))))) [(Node 26 $"id" (ImplicitCastExpr CK_BitCast (Node 27 $"A *" (ImplicitCastExpr CK_LValueToRValue (Node 28 $"A *" (DeclRefExpr 17 $"obj2" false))))))])))) (Node 29 [] (CompoundStmt [(Node 30 [] NullStmt)])) None))])))))])))];
     ts_locs := [(2,1,2,24); (5,1,6,2); (7,1,10,2); (8,1,8,26); (8,20,8,23); (9,1,9,46); (9,18,9,22); (9,38,9,42); (11,1,16,1); (12,1,12,41); (12,20,12,23); (12,27,12,41); (12,29,12,36); (12,36,12,36); (12,36,12,36); (13,1,15,1); (13,18,13,22); (13,38,13,42); (13,47,15,1); (14,5,14,44); (14,9,14,37); (14,9,14,9); (14,9,14,9); (14,17,14,37); (14,18,14,18); (14,18,14,18); (14,33,14,33); (14,33,14,33); (14,33,14,33); (14,40,14,44); (14,42,14,42)]%Z;
     ts_evals := []; ts_same := []; ts_decls := []; ts_parents := [] |}.
Example BrokenNullCheck_ObjC_BrokenEzButRedundantNullEqCheck_ShouldIgnoreByC_holds : sorted_violations_of (shippedRule sh_BrokenNullCheck) BrokenNullCheck_ObjC_BrokenEzButRedundantNullEqCheck_ShouldIgnoreByC = Some [].
Proof. vm_compute. reflexivity. Qed.

(** ** oclint-rules/test/basic/BrokenOddnessCheckRuleTest.cpp *)

Definition BrokenOddnessCheck_CorrectApproaches : testcase :=
  {| ts_lang := LC; ts_path := $"input.c"; ts_code := [];
     ts_comments := []; ts_conf := [];
     ts_tops := [(toplevel 0 (TFunction false), (Node 0 [] (FunctionDecl {| f_name := $"m"; f_method := None; f_isDefinition := true; f_bodyLines := (1)%Z |} [(Node 1 [] (VarDecl {| v_isParm := true; v_name := $"i"; v_used := true; v_referenced := true; v_local := false; v_staticMember := false; v_private := false; v_unusedAttr := false; v_defaultArg := false; v_canonicalType := $"int"; v_inTemplate := false; v_contexts := [CxFunction true true false] |} None))] (Some (Node 2 [] (CompoundStmt [(Node 3 [] (IfStmt [] (Node 4 [] (BinaryOperator BO_EQ (Node 5 [] (ParenExpr (Node 6 [] (BinaryOperator BO_And (Node 7 [] (ImplicitCastExpr CK_LValueToRValue (Node 8 [] (DeclRefExpr 1 $"i" false)))) (Node 9 [] (IntegerLiteral (1)%Z)))))) (Node 10 [] (IntegerLiteral (1)%Z)))) (Node 11 [] (CompoundStmt [(Node 12 [] NullStmt)])) None))]))))))];
     ts_locs := [(1,1,1,39); (1,8,1,12); (1,15,1,39); (1,17,1,37); (1,21,1,32); (1,21,1,27); (1,22,1,26); (1,22,1,22); (1,22,1,22); (1,26,1,26); (1,32,1,32); (1,35,1,37); (1,36,1,36)]%Z;
     ts_evals := []; ts_same := []; ts_decls := []; ts_parents := [] |}.
Example BrokenOddnessCheck_CorrectApproaches_holds : sorted_violations_of (shippedRule sh_BrokenOddnessCheck) BrokenOddnessCheck_CorrectApproaches = Some [].
Proof. vm_compute. reflexivity. Qed.

Definition BrokenOddnessCheck_CorrectApproaches_2 : testcase :=
  {| ts_lang := LC; ts_path := $"input.c"; ts_code := [];
     ts_comments := []; ts_conf := [];
     ts_tops := [(toplevel 0 (TFunction false), (Node 0 [] (FunctionDecl {| f_name := $"m"; f_method := None; f_isDefinition := true; f_bodyLines := (1)%Z |} [(Node 1 [] (VarDecl {| v_isParm := true; v_name := $"i"; v_used := true; v_referenced := true; v_local := false; v_staticMember := false; v_private := false; v_unusedAttr := false; v_defaultArg := false; v_canonicalType := $"int"; v_inTemplate := false; v_contexts := [CxFunction true true false] |} None))] (Some (Node 2 [] (CompoundStmt [(Node 3 [] (IfStmt [] (Node 4 [] (BinaryOperator BO_EQ (Node 5 [] (BinaryOperator BO_Rem (Node 6 [] (ImplicitCastExpr CK_LValueToRValue (Node 7 [] (DeclRefExpr 1 $"i" false)))) (Node 8 [] (IntegerLiteral (1)%Z)))) (Node 9 [] (IntegerLiteral (1)%Z)))) (Node 10 [] (CompoundStmt [(Node 11 [] NullStmt)])) None))]))))))];
     ts_locs := [(1,1,1,37); (1,8,1,12); (1,15,1,37); (1,17,1,35); (1,21,1,30); (1,21,1,25); (1,21,1,21); (1,21,1,21); (1,25,1,25); (1,30,1,30); (1,33,1,35); (1,34,1,34)]%Z;
     ts_evals := []; ts_same := []; ts_decls := []; ts_parents := [] |}.
Example BrokenOddnessCheck_CorrectApproaches_2_holds : sorted_violations_of (shippedRule sh_BrokenOddnessCheck) BrokenOddnessCheck_CorrectApproaches_2 = Some [].
Proof. vm_compute. reflexivity. Qed.

Definition BrokenOddnessCheck_NegativeNumberDoesNotWork : testcase :=
  {| ts_lang := LC; ts_path := $"input.c"; ts_code := [];
     ts_comments := []; ts_conf := [];
     ts_tops := [(toplevel 0 (TFunction false), (Node 0 [] (FunctionDecl {| f_name := $"m"; f_method := None; f_isDefinition := true; f_bodyLines := (1)%Z |} [(Node 1 [] (VarDecl {| v_isParm := true; v_name := $"i"; v_used := true; v_referenced := true; v_local := false; v_staticMember := false; v_private := false; v_unusedAttr := false; v_defaultArg := false; v_canonicalType := $"int"; v_inTemplate := false; v_contexts := [CxFunction true true false] |} None))] (Some (Node 2 [] (CompoundStmt [(Node 3 [] (IfStmt [] (Node 4 [] (BinaryOperator BO_EQ (Node 5 [] (BinaryOperator BO_Rem (Node 6 [] (ImplicitCastExpr CK_LValueToRValue (Node 7 [] (DeclRefExpr 1 $"i" false)))) (Node 8 [] (IntegerLiteral (2)%Z)))) (Node 9 [] (IntegerLiteral (1)%Z)))) (Node 10 [] (CompoundStmt [(Node 11 [] NullStmt)])) None))]))))))];
     ts_locs := [(1,1,1,37); (1,8,1,12); (1,15,1,37); (1,17,1,35); (1,21,1,30); (1,21,1,25); (1,21,1,21); (1,21,1,21); (1,25,1,25); (1,30,1,30); (1,33,1,35); (1,34,1,34)]%Z;
     ts_evals := []; ts_same := []; ts_decls := []; ts_parents := [] |}.
Example BrokenOddnessCheck_NegativeNumberDoesNotWork_holds : nth_violation (shippedRule sh_BrokenOddnessCheck) BrokenOddnessCheck_NegativeNumberDoesNotWork 0 = Some (1, 21, 1, 30, $"")%Z.
Proof. vm_compute. reflexivity. Qed.

Definition BrokenOddnessCheck_NegativeNumberDoesNotWorkReverse : testcase :=
  {| ts_lang := LC; ts_path := $"input.c"; ts_code := [];
     ts_comments := []; ts_conf := [];
     ts_tops := [(toplevel 0 (TFunction false), (Node 0 [] (FunctionDecl {| f_name := $"m"; f_method := None; f_isDefinition := true; f_bodyLines := (1)%Z |} [(Node 1 [] (VarDecl {| v_isParm := true; v_name := $"i"; v_used := true; v_referenced := true; v_local := false; v_staticMember := false; v_private := false; v_unusedAttr := false; v_defaultArg := false; v_canonicalType := $"int"; v_inTemplate := false; v_contexts := [CxFunction true true false] |} None))] (Some (Node 2 [] (CompoundStmt [(Node 3 [] (IfStmt [] (Node 4 [] (BinaryOperator BO_EQ (Node 5 [] (IntegerLiteral (1)%Z)) (Node 6 [] (BinaryOperator BO_Rem (Node 7 [] (ImplicitCastExpr CK_LValueToRValue (Node 8 [] (DeclRefExpr 1 $"i" false)))) (Node 9 [] (IntegerLiteral (2)%Z)))))) (Node 10 [] (CompoundStmt [(Node 11 [] NullStmt)])) None))]))))))];
     ts_locs := [(1,1,1,37); (1,8,1,12); (1,15,1,37); (1,17,1,35); (1,21,1,30); (1,21,1,21); (1,26,1,30); (1,26,1,26); (1,26,1,26); (1,30,1,30); (1,33,1,35); (1,34,1,34)]%Z;
     ts_evals := []; ts_same := []; ts_decls := []; ts_parents := [] |}.
Example BrokenOddnessCheck_NegativeNumberDoesNotWorkReverse_holds : nth_violation (shippedRule sh_BrokenOddnessCheck) BrokenOddnessCheck_NegativeNumberDoesNotWorkReverse 0 = Some (1, 21, 1, 30, $"")%Z.
Proof. vm_compute. reflexivity. Qed.

Definition BrokenOddnessCheck_Method : testcase :=
  {| ts_lang := LC; ts_path := $"input.c"; ts_code := [];
     ts_comments := []; ts_conf := [];
     ts_tops := [(toplevel 0 (TFunction false), (Node 0 [] (FunctionDecl {| f_name := $"a"; f_method := None; f_isDefinition := false; f_bodyLines := (0)%Z |} [] None))); (toplevel 1 (TFunction false), (Node 1 [] (FunctionDecl {| f_name := $"m"; f_method := None; f_isDefinition := true; f_bodyLines := (1)%Z |} [] (Some (Node 2 [] (CompoundStmt [(Node 3 [] (IfStmt [] (Node 4 [] (BinaryOperator BO_EQ (Node 5 [] (IntegerLiteral (1)%Z)) (Node 6 [] (BinaryOperator BO_Rem (Node 7 [] (CallExpr (Some ($"a", (Decl [] None))) (Node 8 [] (ImplicitCastExpr CK_Other (Node 9 [] (DeclRefExpr 0 $"a" false)))) [])) (Node 10 [] (IntegerLiteral (2)%Z)))))) (Node 11 [] (CompoundStmt [(Node 12 [] NullStmt)])) None))]))))))];
     ts_locs := [(1,1,1,7); (1,10,1,43); (1,19,1,43); (1,21,1,41); (1,25,1,36); (1,25,1,25); (1,30,1,36); (1,30,1,32); (1,30,1,30); (1,30,1,30); (1,36,1,36); (1,39,1,41); (1,40,1,40)]%Z;
     ts_evals := []; ts_same := []; ts_decls := []; ts_parents := [] |}.
Example BrokenOddnessCheck_Method_holds : nth_violation (shippedRule sh_BrokenOddnessCheck) BrokenOddnessCheck_Method 0 = Some (1, 25, 1, 36, $"")%Z.
Proof. vm_compute. reflexivity. Qed.

(** ** oclint-rules/test/basic/CollapsibleIfStatementsRuleTest.cpp *)

Definition CollapsibleIfStatements_InterveningStatementAboveNestedIfStmt : testcase :=
  {| ts_lang := LC; ts_path := $"input.c"; ts_code := [];
     ts_comments := []; ts_conf := [];
     ts_tops := [(toplevel 0 (TFunction false), (Node 0 [] (FunctionDecl {| f_name := $"m"; f_method := None; f_isDefinition := true; f_bodyLines := (1)%Z |} [] (Some (Node 1 [] (CompoundStmt [(Node 2 [] (IfStmt [] (Node 3 [] (IntegerLiteral (1)%Z)) (Node 4 [] (CompoundStmt [(Node 5 [] (DeclStmt [(Node 6 [] (VarDecl {| v_isParm := false; v_name := $"i"; v_used := false; v_referenced := false; v_local := true; v_staticMember := false; v_private := false; v_unusedAttr := false; v_defaultArg := false; v_canonicalType := $"int"; v_inTemplate := false; v_contexts := [CxFunction true true false] |} (Some (Node 7 [] (IntegerLiteral (1)%Z)))))])); (Node 8 [] (IfStmt [] (Node 9 [] (IntegerLiteral (0)%Z)) (Node 10 [] (CompoundStmt [])) None))])) None))]))))))];
     ts_locs := [(1,1,1,44); (1,10,1,44); (1,12,1,42); (1,16,1,16); (1,19,1,42); (1,21,1,30); (1,21,1,29); (1,29,1,29); (1,32,1,40); (1,36,1,36); (1,39,1,40)]%Z;
     ts_evals := [(3, true); (9, false)]; ts_same := []; ts_decls := []; ts_parents := [] |}.
Example CollapsibleIfStatements_InterveningStatementAboveNestedIfStmt_holds : sorted_violations_of (shippedRule sh_CollapsibleIfStatements) CollapsibleIfStatements_InterveningStatementAboveNestedIfStmt = Some [].
Proof. vm_compute. reflexivity. Qed.

Definition CollapsibleIfStatements_InterveningStatementBelowNestedIfStmt : testcase :=
  {| ts_lang := LC; ts_path := $"input.c"; ts_code := [];
     ts_comments := []; ts_conf := [];
     ts_tops := [(toplevel 0 (TFunction false), (Node 0 [] (FunctionDecl {| f_name := $"m"; f_method := None; f_isDefinition := true; f_bodyLines := (1)%Z |} [] (Some (Node 1 [] (CompoundStmt [(Node 2 [] (IfStmt [] (Node 3 [] (IntegerLiteral (1)%Z)) (Node 4 [] (CompoundStmt [(Node 5 [] (IfStmt [] (Node 6 [] (IntegerLiteral (0)%Z)) (Node 7 [] (CompoundStmt [])) None)); (Node 8 [] (DeclStmt [(Node 9 [] (VarDecl {| v_isParm := false; v_name := $"i"; v_used := false; v_referenced := false; v_local := true; v_staticMember := false; v_private := false; v_unusedAttr := false; v_defaultArg := false; v_canonicalType := $"int"; v_inTemplate := false; v_contexts := [CxFunction true true false] |} (Some (Node 10 [] (IntegerLiteral (1)%Z)))))]))])) None))]))))))];
     ts_locs := [(1,1,1,44); (1,10,1,44); (1,12,1,42); (1,16,1,16); (1,19,1,42); (1,21,1,29); (1,25,1,25); (1,28,1,29); (1,31,1,40); (1,31,1,39); (1,39,1,39)]%Z;
     ts_evals := [(3, true); (6, false)]; ts_same := []; ts_decls := []; ts_parents := [] |}.
Example CollapsibleIfStatements_InterveningStatementBelowNestedIfStmt_holds : sorted_violations_of (shippedRule sh_CollapsibleIfStatements) CollapsibleIfStatements_InterveningStatementBelowNestedIfStmt = Some [].
Proof. vm_compute. reflexivity. Qed.

Definition CollapsibleIfStatements_IfThenIsIf : testcase :=
  {| ts_lang := LC; ts_path := $"input.c"; ts_code := [];
     ts_comments := []; ts_conf := [];
     ts_tops := [(toplevel 0 (TFunction false), (Node 0 [] (FunctionDecl {| f_name := $"m"; f_method := None; f_isDefinition := true; f_bodyLines := (1)%Z |} [] (Some (Node 1 [] (CompoundStmt [(Node 2 [] (IfStmt [] (Node 3 [] (IntegerLiteral (1)%Z)) (Node 4 [] (IfStmt [] (Node 5 [] (IntegerLiteral (0)%Z)) (Node 6 [] (CompoundStmt [])) None)) None))]))))))];
     ts_locs := [(1,1,1,29); (1,10,1,29); (1,12,1,27); (1,16,1,16); (1,19,1,27); (1,23,1,23); (1,26,1,27)]%Z;
     ts_evals := [(3, true); (5, false)]; ts_same := []; ts_decls := []; ts_parents := [] |}.
Example CollapsibleIfStatements_IfThenIsIf_holds : nth_violation (shippedRule sh_CollapsibleIfStatements) CollapsibleIfStatements_IfThenIsIf 0 = Some (1, 12, 1, 27, $"")%Z.
Proof. vm_compute. reflexivity. Qed.

Definition CollapsibleIfStatements_IfThenIsCompoundContainsOnlyIf : testcase :=
  {| ts_lang := LC; ts_path := $"input.c"; ts_code := [];
     ts_comments := []; ts_conf := [];
     ts_tops := [(toplevel 0 (TFunction false), (Node 0 [] (FunctionDecl {| f_name := $"m"; f_method := None; f_isDefinition := true; f_bodyLines := (1)%Z |} [] (Some (Node 1 [] (CompoundStmt [(Node 2 [] (IfStmt [] (Node 3 [] (IntegerLiteral (1)%Z)) (Node 4 [] (CompoundStmt [(Node 5 [] (IfStmt [] (Node 6 [] (IntegerLiteral (0)%Z)) (Node 7 [] (CompoundStmt [])) None))])) None))]))))))];
     ts_locs := [(1,1,1,33); (1,10,1,33); (1,12,1,31); (1,16,1,16); (1,19,1,31); (1,21,1,29); (1,25,1,25); (1,28,1,29)]%Z;
     ts_evals := [(3, true); (6, false)]; ts_same := []; ts_decls := []; ts_parents := [] |}.
Example CollapsibleIfStatements_IfThenIsCompoundContainsOnlyIf_holds : nth_violation (shippedRule sh_CollapsibleIfStatements) CollapsibleIfStatements_IfThenIsCompoundContainsOnlyIf 0 = Some (1, 12, 1, 31, $"")%Z.
Proof. vm_compute. reflexivity. Qed.

Definition CollapsibleIfStatements_BothOuterAndInnerIfHasElseExistence : testcase :=
  {| ts_lang := LC; ts_path := $"input.c"; ts_code := [];
     ts_comments := []; ts_conf := [];
     ts_tops := [(toplevel 0 (TFunction false), (Node 0 [] (FunctionDecl {| f_name := $"m"; f_method := None; f_isDefinition := true; f_bodyLines := (1)%Z |} [] (Some (Node 1 [] (CompoundStmt [(Node 2 [] (IfStmt [] (Node 3 [] (IntegerLiteral (1)%Z)) (Node 4 [] (CompoundStmt [(Node 5 [] (IfStmt [] (Node 6 [] (IntegerLiteral (0)%Z)) (Node 7 [] (CompoundStmt [])) (Some (Node 8 [] (CompoundStmt [])))))])) (Some (Node 9 [] (CompoundStmt [])))))]))))))];
     ts_locs := [(1,1,1,49); (1,10,1,49); (1,12,1,47); (1,16,1,16); (1,19,1,39); (1,21,1,37); (1,25,1,25); (1,28,1,29); (1,36,1,37); (1,46,1,47)]%Z;
     ts_evals := [(3, true); (6, false)]; ts_same := []; ts_decls := []; ts_parents := [] |}.
Example CollapsibleIfStatements_BothOuterAndInnerIfHasElseExistence_holds : sorted_violations_of (shippedRule sh_CollapsibleIfStatements) CollapsibleIfStatements_BothOuterAndInnerIfHasElseExistence = Some [].
Proof. vm_compute. reflexivity. Qed.

Definition CollapsibleIfStatements_OuterIfHasElseInnerDoesNot : testcase :=
  {| ts_lang := LC; ts_path := $"input.c"; ts_code := [];
     ts_comments := []; ts_conf := [];
     ts_tops := [(toplevel 0 (TFunction false), (Node 0 [] (FunctionDecl {| f_name := $"m"; f_method := None; f_isDefinition := true; f_bodyLines := (1)%Z |} [] (Some (Node 1 [] (CompoundStmt [(Node 2 [] (IfStmt [] (Node 3 [] (IntegerLiteral (1)%Z)) (Node 4 [] (CompoundStmt [(Node 5 [] (IfStmt [] (Node 6 [] (IntegerLiteral (0)%Z)) (Node 7 [] (CompoundStmt [])) None))])) (Some (Node 8 [] (CompoundStmt [])))))]))))))];
     ts_locs := [(1,1,1,41); (1,10,1,41); (1,12,1,39); (1,16,1,16); (1,19,1,31); (1,21,1,29); (1,25,1,25); (1,28,1,29); (1,38,1,39)]%Z;
     ts_evals := [(3, true); (6, false)]; ts_same := []; ts_decls := []; ts_parents := [] |}.
Example CollapsibleIfStatements_OuterIfHasElseInnerDoesNot_holds : sorted_violations_of (shippedRule sh_CollapsibleIfStatements) CollapsibleIfStatements_OuterIfHasElseInnerDoesNot = Some [].
Proof. vm_compute. reflexivity. Qed.

Definition CollapsibleIfStatements_OuterIfHasNoElseInnerDoes : testcase :=
  {| ts_lang := LC; ts_path := $"input.c"; ts_code := [];
     ts_comments := []; ts_conf := [];
     ts_tops := [(toplevel 0 (TFunction false), (Node 0 [] (FunctionDecl {| f_name := $"m"; f_method := None; f_isDefinition := true; f_bodyLines := (1)%Z |} [] (Some (Node 1 [] (CompoundStmt [(Node 2 [] (IfStmt [] (Node 3 [] (IntegerLiteral (1)%Z)) (Node 4 [] (CompoundStmt [(Node 5 [] (IfStmt [] (Node 6 [] (IntegerLiteral (0)%Z)) (Node 7 [] (CompoundStmt [])) (Some (Node 8 [] (CompoundStmt [])))))])) None))]))))))];
     ts_locs := [(1,1,1,41); (1,10,1,41); (1,12,1,39); (1,16,1,16); (1,19,1,39); (1,21,1,37); (1,25,1,25); (1,28,1,29); (1,36,1,37)]%Z;
     ts_evals := [(3, true); (6, false)]; ts_same := []; ts_decls := []; ts_parents := [] |}.
Example CollapsibleIfStatements_OuterIfHasNoElseInnerDoes_holds : sorted_violations_of (shippedRule sh_CollapsibleIfStatements) CollapsibleIfStatements_OuterIfHasNoElseInnerDoes = Some [].
Proof. vm_compute. reflexivity. Qed.

Definition CollapsibleIfStatements_OuterIfHasElseIf : testcase :=
  {| ts_lang := LC; ts_path := $"input.c"; ts_code := [];
     ts_comments := []; ts_conf := [];
     ts_tops := [(toplevel 0 (TFunction false), (Node 0 [] (FunctionDecl {| f_name := $"m"; f_method := None; f_isDefinition := true; f_bodyLines := (1)%Z |} [] (Some (Node 1 [] (CompoundStmt [(Node 2 [] (IfStmt [] (Node 3 [] (IntegerLiteral (1)%Z)) (Node 4 [] (CompoundStmt [(Node 5 [] (IfStmt [] (Node 6 [] (IntegerLiteral (0)%Z)) (Node 7 [] (CompoundStmt [])) (Some (Node 8 [] (CompoundStmt [])))))])) (Some (Node 9 [] (IfStmt [] (Node 10 [] (IntegerLiteral (1)%Z)) (Node 11 [] (CompoundStmt [])) None)))))]))))))];
     ts_locs := [(1,1,1,55); (1,10,1,55); (1,12,1,53); (1,16,1,16); (1,19,1,39); (1,21,1,37); (1,25,1,25); (1,28,1,29); (1,36,1,37); (1,46,1,53); (1,49,1,49); (1,52,1,53)]%Z;
     ts_evals := [(3, true); (6, false); (10, true)]; ts_same := []; ts_decls := []; ts_parents := [] |}.
Example CollapsibleIfStatements_OuterIfHasElseIf_holds : sorted_violations_of (shippedRule sh_CollapsibleIfStatements) CollapsibleIfStatements_OuterIfHasElseIf = Some [].
Proof. vm_compute. reflexivity. Qed.

Definition CollapsibleIfStatements_ElseIfCanBeCollapsed : testcase :=
  {| ts_lang := LC; ts_path := $"input.c"; ts_code := [];
     ts_comments := []; ts_conf := [];
     ts_tops := [(toplevel 0 (TFunction false), (Node 0 [] (FunctionDecl {| f_name := $"m"; f_method := None; f_isDefinition := true; f_bodyLines := (1)%Z |} [] (Some (Node 1 [] (CompoundStmt [(Node 2 [] (IfStmt [] (Node 3 [] (IntegerLiteral (1)%Z)) (Node 4 [] (CompoundStmt [])) (Some (Node 5 [] (IfStmt [] (Node 6 [] (IntegerLiteral (1)%Z)) (Node 7 [] (CompoundStmt [(Node 8 [] (IfStmt [] (Node 9 [] (IntegerLiteral (0)%Z)) (Node 10 [] (CompoundStmt [])) None))])) None)))))]))))))];
     ts_locs := [(1,1,1,47); (1,10,1,47); (1,12,1,45); (1,16,1,16); (1,19,1,20); (1,27,1,45); (1,30,1,30); (1,33,1,45); (1,35,1,43); (1,39,1,39); (1,42,1,43)]%Z;
     ts_evals := [(3, true); (6, true); (9, false)]; ts_same := []; ts_decls := []; ts_parents := [] |}.
Example CollapsibleIfStatements_ElseIfCanBeCollapsed_holds : nth_violation (shippedRule sh_CollapsibleIfStatements) CollapsibleIfStatements_ElseIfCanBeCollapsed 0 = Some (1, 27, 1, 45, $"")%Z.
Proof. vm_compute. reflexivity. Qed.

Definition CollapsibleIfStatements_ElseIfHasElseAndNestedIfHasElse : testcase :=
  {| ts_lang := LC; ts_path := $"input.c"; ts_code := [];
     ts_comments := []; ts_conf := [];
     ts_tops := [(toplevel 0 (TFunction false), (Node 0 [] (FunctionDecl {| f_name := $"m"; f_method := None; f_isDefinition := true; f_bodyLines := (1)%Z |} [] (Some (Node 1 [] (CompoundStmt [(Node 2 [] (IfStmt [] (Node 3 [] (IntegerLiteral (1)%Z)) (Node 4 [] (CompoundStmt [])) (Some (Node 5 [] (IfStmt [] (Node 6 [] (IntegerLiteral (1)%Z)) (Node 7 [] (CompoundStmt [(Node 8 [] (IfStmt [] (Node 9 [] (IntegerLiteral (0)%Z)) (Node 10 [] (CompoundStmt [])) (Some (Node 11 [] (CompoundStmt [])))))])) (Some (Node 12 [] (CompoundStmt []))))))))]))))))];
     ts_locs := [(1,1,1,64); (1,10,1,64); (1,12,1,62); (1,16,1,16); (1,19,1,20); (1,27,1,62); (1,31,1,31); (1,34,1,54); (1,36,1,52); (1,40,1,40); (1,43,1,44); (1,51,1,52); (1,61,1,62)]%Z;
     ts_evals := [(3, true); (6, true); (9, false)]; ts_same := []; ts_decls := []; ts_parents := [] |}.
Example CollapsibleIfStatements_ElseIfHasElseAndNestedIfHasElse_holds : sorted_violations_of (shippedRule sh_CollapsibleIfStatements) CollapsibleIfStatements_ElseIfHasElseAndNestedIfHasElse = Some [].
Proof. vm_compute. reflexivity. Qed.

(** ** oclint-rules/test/basic/ConstantConditionalOperatorRuleTest.cpp *)

Definition ConstantConditionalOperator_GoodConditionExpression : testcase :=
  {| ts_lang := LC; ts_path := $"input.c"; ts_code := [];
     ts_comments := []; ts_conf := [];
     ts_tops := [(toplevel 0 (TFunction false), (Node 0 [] (FunctionDecl {| f_name := $"aMethod"; f_method := None; f_isDefinition := true; f_bodyLines := (1)%Z |} [(Node 1 [] (VarDecl {| v_isParm := true; v_name := $"b"; v_used := true; v_referenced := true; v_local := false; v_staticMember := false; v_private := false; v_unusedAttr := false; v_defaultArg := false; v_canonicalType := $"int"; v_inTemplate := false; v_contexts := [CxFunction true true false] |} None)); (Node 2 [] (VarDecl {| v_isParm := true; v_name := $"c"; v_used := true; v_referenced := true; v_local := false; v_staticMember := false; v_private := false; v_unusedAttr := false; v_defaultArg := false; v_canonicalType := $"int"; v_inTemplate := false; v_contexts := [CxFunction true true false] |} None))] (Some (Node 3 [] (CompoundStmt [(Node 4 [] (DeclStmt [(Node 5 [] (VarDecl {| v_isParm := false; v_name := $"a"; v_used := false; v_referenced := false; v_local := true; v_staticMember := false; v_private := false; v_unusedAttr := false; v_defaultArg := false; v_canonicalType := $"int"; v_inTemplate := false; v_contexts := [CxFunction true true false] |} (Some (Node 6 [] (ConditionalOperator (Node 7 [] (BinaryOperator BO_EQ (Node 8 [] (ImplicitCastExpr CK_LValueToRValue (Node 9 [] (DeclRefExpr 1 $"b" false)))) (Node 10 [] (ImplicitCastExpr CK_LValueToRValue (Node 11 [] (DeclRefExpr 2 $"c" false)))))) (Node 12 [] (IntegerLiteral (1)%Z)) (Node 13 [] (IntegerLiteral (0)%Z)))))))]))]))))))];
     ts_locs := [(1,1,1,54); (1,14,1,18); (1,21,1,25); (1,28,1,54); (1,30,1,52); (1,30,1,51); (1,38,1,51); (1,38,1,43); (1,38,1,38); (1,38,1,38); (1,43,1,43); (1,43,1,43); (1,47,1,47); (1,51,1,51)]%Z;
     ts_evals := []; ts_same := []; ts_decls := []; ts_parents := [] |}.
Example ConstantConditionalOperator_GoodConditionExpression_holds : sorted_violations_of (shippedRule sh_ConstantConditionalOperator) ConstantConditionalOperator_GoodConditionExpression = Some [].
Proof. vm_compute. reflexivity. Qed.

Definition ConstantConditionalOperator_testCompareTwoKnownBoolValuesAlwaysBeTrue : testcase :=
  {| ts_lang := LC; ts_path := $"input.c"; ts_code := [];
     ts_comments := []; ts_conf := [];
     ts_tops := [(toplevel 0 (TFunction false), (Node 0 [] (FunctionDecl {| f_name := $"aMethod"; f_method := None; f_isDefinition := true; f_bodyLines := (1)%Z |} [] (Some (Node 1 [] (CompoundStmt [(Node 2 [] (DeclStmt [(Node 3 [] (VarDecl {| v_isParm := false; v_name := $"a"; v_used := false; v_referenced := false; v_local := true; v_staticMember := false; v_private := false; v_unusedAttr := false; v_defaultArg := false; v_canonicalType := $"int"; v_inTemplate := false; v_contexts := [CxFunction true true false] |} (Some (Node 4 [] (ConditionalOperator (Node 5 [] (BinaryOperator BO_EQ (Node 6 [] (IntegerLiteral (1)%Z)) (Node 7 [] (IntegerLiteral (1)%Z)))) (Node 8 [] (IntegerLiteral (1)%Z)) (Node 9 [] (IntegerLiteral (0)%Z)))))))]))]))))))];
     ts_locs := [(1,1,1,42); (1,16,1,42); (1,18,1,40); (1,18,1,39); (1,26,1,39); (1,26,1,31); (1,26,1,26); (1,31,1,31); (1,35,1,35); (1,39,1,39)]%Z;
     ts_evals := [(5, true)]; ts_same := []; ts_decls := []; ts_parents := [] |}.
Example ConstantConditionalOperator_testCompareTwoKnownBoolValuesAlwaysBeTrue_holds : nth_violation (shippedRule sh_ConstantConditionalOperator) ConstantConditionalOperator_testCompareTwoKnownBoolValuesAlwaysBeTrue 0 = Some (1, 26, 1, 31, $"")%Z.
Proof. vm_compute. reflexivity. Qed.

(** ** oclint-rules/test/basic/ConstantIfExpressionRuleTest.cpp *)

Definition ConstantIfExpression_GoodConditionExpression : testcase :=
  {| ts_lang := LC; ts_path := $"input.c"; ts_code := [];
     ts_comments := []; ts_conf := [];
     ts_tops := [(toplevel 0 (TFunction false), (Node 0 [] (FunctionDecl {| f_name := $"aMethod"; f_method := None; f_isDefinition := true; f_bodyLines := (1)%Z |} [(Node 1 [] (VarDecl {| v_isParm := true; v_name := $"b"; v_used := true; v_referenced := true; v_local := false; v_staticMember := false; v_private := false; v_unusedAttr := false; v_defaultArg := false; v_canonicalType := $"int"; v_inTemplate := false; v_contexts := [CxFunction true true false] |} None)); (Node 2 [] (VarDecl {| v_isParm := true; v_name := $"c"; v_used := true; v_referenced := true; v_local := false; v_staticMember := false; v_private := false; v_unusedAttr := false; v_defaultArg := false; v_canonicalType := $"int"; v_inTemplate := false; v_contexts := [CxFunction true true false] |} None))] (Some (Node 3 [] (CompoundStmt [(Node 4 [] (IfStmt [] (Node 5 [] (BinaryOperator BO_EQ (Node 6 [] (ImplicitCastExpr CK_LValueToRValue (Node 7 [] (DeclRefExpr 1 $"b" false)))) (Node 8 [] (ImplicitCastExpr CK_LValueToRValue (Node 9 [] (DeclRefExpr 2 $"c" false)))))) (Node 10 [] (CompoundStmt [(Node 11 [] NullStmt)])) None))]))))))];
     ts_locs := [(1,1,1,46); (1,14,1,18); (1,21,1,25); (1,28,1,46); (1,30,1,44); (1,34,1,39); (1,34,1,34); (1,34,1,34); (1,39,1,39); (1,39,1,39); (1,42,1,44); (1,43,1,43)]%Z;
     ts_evals := []; ts_same := []; ts_decls := []; ts_parents := [] |}.
Example ConstantIfExpression_GoodConditionExpression_holds : sorted_violations_of (shippedRule sh_ConstantIfExpression) ConstantIfExpression_GoodConditionExpression = Some [].
Proof. vm_compute. reflexivity. Qed.

Definition ConstantIfExpression_testCompareTwoKnownBoolValuesAlwaysBeTrue : testcase :=
  {| ts_lang := LC; ts_path := $"input.c"; ts_code := [];
     ts_comments := []; ts_conf := [];
     ts_tops := [(toplevel 0 (TFunction false), (Node 0 [] (FunctionDecl {| f_name := $"aMethod"; f_method := None; f_isDefinition := true; f_bodyLines := (1)%Z |} [] (Some (Node 1 [] (CompoundStmt [(Node 2 [] (IfStmt [] (Node 3 [] (BinaryOperator BO_EQ (Node 4 [] (IntegerLiteral (1)%Z)) (Node 5 [] (IntegerLiteral (1)%Z)))) (Node 6 [] (CompoundStmt [(Node 7 [] NullStmt)])) None))]))))))];
     ts_locs := [(1,1,1,34); (1,16,1,34); (1,18,1,32); (1,22,1,27); (1,22,1,22); (1,27,1,27); (1,30,1,32); (1,31,1,31)]%Z;
     ts_evals := [(3, true)]; ts_same := []; ts_decls := []; ts_parents := [] |}.
Example ConstantIfExpression_testCompareTwoKnownBoolValuesAlwaysBeTrue_holds : nth_violation (shippedRule sh_ConstantIfExpression) ConstantIfExpression_testCompareTwoKnownBoolValuesAlwaysBeTrue 0 = Some (1, 22, 1, 27, $"")%Z.
Proof. vm_compute. reflexivity. Qed.

Definition ConstantIfExpression_testCompareTwoKnownBoolValuesAlwaysBeFalse : testcase :=
  {| ts_lang := LC; ts_path := $"input.c"; ts_code := [];
     ts_comments := []; ts_conf := [];
     ts_tops := [(toplevel 0 (TFunction false), (Node 0 [] (FunctionDecl {| f_name := $"aMethod"; f_method := None; f_isDefinition := true; f_bodyLines := (1)%Z |} [] (Some (Node 1 [] (CompoundStmt [(Node 2 [] (IfStmt [] (Node 3 [] (BinaryOperator BO_EQ (Node 4 [] (IntegerLiteral (1)%Z)) (Node 5 [] (IntegerLiteral (0)%Z)))) (Node 6 [] (CompoundStmt [(Node 7 [] NullStmt)])) None))]))))))];
     ts_locs := [(1,1,1,34); (1,16,1,34); (1,18,1,32); (1,22,1,27); (1,22,1,22); (1,27,1,27); (1,30,1,32); (1,31,1,31)]%Z;
     ts_evals := [(3, false)]; ts_same := []; ts_decls := []; ts_parents := [] |}.
Example ConstantIfExpression_testCompareTwoKnownBoolValuesAlwaysBeFalse_holds : nth_violation (shippedRule sh_ConstantIfExpression) ConstantIfExpression_testCompareTwoKnownBoolValuesAlwaysBeFalse 0 = Some (1, 22, 1, 27, $"")%Z.
Proof. vm_compute. reflexivity. Qed.

Definition ConstantIfExpression_testIntegerAlwaysConstant : testcase :=
  {| ts_lang := LC; ts_path := $"input.c"; ts_code := [];
     ts_comments := []; ts_conf := [];
     ts_tops := [(toplevel 0 (TFunction false), (Node 0 [] (FunctionDecl {| f_name := $"aMethod"; f_method := None; f_isDefinition := true; f_bodyLines := (1)%Z |} [] (Some (Node 1 [] (CompoundStmt [(Node 2 [] (IfStmt [] (Node 3 [] (IntegerLiteral (1)%Z)) (Node 4 [] (CompoundStmt [(Node 5 [] NullStmt)])) None))]))))))];
     ts_locs := [(1,1,1,29); (1,16,1,29); (1,18,1,27); (1,22,1,22); (1,25,1,27); (1,26,1,26)]%Z;
     ts_evals := [(3, true)]; ts_same := []; ts_decls := []; ts_parents := [] |}.
Example ConstantIfExpression_testIntegerAlwaysConstant_holds : nth_violation (shippedRule sh_ConstantIfExpression) ConstantIfExpression_testIntegerAlwaysConstant 0 = Some (1, 22, 1, 22, $"")%Z.
Proof. vm_compute. reflexivity. Qed.

Definition ConstantIfExpression_testFloatAlwaysConstant : testcase :=
  {| ts_lang := LC; ts_path := $"input.c"; ts_code := [];
     ts_comments := []; ts_conf := [];
     ts_tops := [(toplevel 0 (TFunction false), (Node 0 [] (FunctionDecl {| f_name := $"aMethod"; f_method := None; f_isDefinition := true; f_bodyLines := (1)%Z |} [] (Some (Node 1 [] (CompoundStmt [(Node 2 [] (IfStmt [] (Node 3 [] (FloatingLiteral (4608218246714312622)%Z)) (Node 4 [] (CompoundStmt [(Node 5 [] NullStmt)])) None))]))))))];
     ts_locs := [(1,1,1,32); (1,16,1,32); (1,18,1,30); (1,22,1,22); (1,28,1,30); (1,29,1,29)]%Z;
     ts_evals := [(3, true)]; ts_same := []; ts_decls := []; ts_parents := [] |}.
Example ConstantIfExpression_testFloatAlwaysConstant_holds : nth_violation (shippedRule sh_ConstantIfExpression) ConstantIfExpression_testFloatAlwaysConstant 0 = Some (1, 22, 1, 22, $"")%Z.
Proof. vm_compute. reflexivity. Qed.

Definition ConstantIfExpression_testComplexConstantComparison : testcase :=
  {| ts_lang := LC; ts_path := $"input.c"; ts_code := [];
     ts_comments := []; ts_conf := [];
     ts_tops := [(toplevel 0 (TFunction false), (Node 0 [] (FunctionDecl {| f_name := $"aMethod"; f_method := None; f_isDefinition := true; f_bodyLines := (1)%Z |} [] (Some (Node 1 [] (CompoundStmt [(Node 2 [] (IfStmt [] (Node 3 [] (ConditionalOperator (Node 4 [] (IntegerLiteral (1)%Z)) (Node 5 [] (IntegerLiteral (0)%Z)) (Node 6 [] (IntegerLiteral (1)%Z)))) (Node 7 [] (CompoundStmt [(Node 8 [] NullStmt)])) None))]))))))];
     ts_locs := [(1,1,1,37); (1,16,1,37); (1,18,1,35); (1,22,1,30); (1,22,1,22); (1,26,1,26); (1,30,1,30); (1,33,1,35); (1,34,1,34)]%Z;
     ts_evals := [(3, false); (4, true)]; ts_same := []; ts_decls := []; ts_parents := [] |}.
Example ConstantIfExpression_testComplexConstantComparison_holds : nth_violation (shippedRule sh_ConstantIfExpression) ConstantIfExpression_testComplexConstantComparison 0 = Some (1, 22, 1, 30, $"")%Z.
Proof. vm_compute. reflexivity. Qed.

Definition ConstantIfExpression_testOnlyEvaluateTheNecessaryCondition : testcase :=
  {| ts_lang := LC; ts_path := $"input.c"; ts_code := [];
     ts_comments := []; ts_conf := [];
     ts_tops := [(toplevel 0 (TFunction false), (Node 0 [] (FunctionDecl {| f_name := $"foo"; f_method := None; f_isDefinition := true; f_bodyLines := (1)%Z |} [] (Some (Node 1 [] (CompoundStmt [(Node 2 [] (ReturnStmt (Some (Node 3 [] (IntegerLiteral (1)%Z)))))])))))); (toplevel 4 (TFunction false), (Node 4 [] (FunctionDecl {| f_name := $"aMethod"; f_method := None; f_isDefinition := true; f_bodyLines := (1)%Z |} [] (Some (Node 5 [] (CompoundStmt [(Node 6 [] (IfStmt [] (Node 7 [] (ConditionalOperator (Node 8 [] (IntegerLiteral (1)%Z)) (Node 9 [] (IntegerLiteral (0)%Z)) (Node 10 [] (CallExpr (Some ($"foo", (Decl [] None))) (Node 11 [] (ImplicitCastExpr CK_Other (Node 12 [] (DeclRefExpr 0 $"foo" false)))) [])))) (Node 13 [] (CompoundStmt [(Node 14 [] NullStmt)])) None))]))))))];
     ts_locs := [(1,1,1,23); (1,11,1,23); (1,13,1,20); (1,20,1,20); (1,25,1,65); (1,40,1,65); (1,42,1,63); (1,46,1,58); (1,46,1,46); (1,50,1,50); (1,54,1,58); (1,54,1,54); (1,54,1,54); (1,61,1,63); (1,62,1,62)]%Z;
     ts_evals := [(7, false); (8, true)]; ts_same := []; ts_decls := []; ts_parents := [] |}.
Example ConstantIfExpression_testOnlyEvaluateTheNecessaryCondition_holds : nth_violation (shippedRule sh_ConstantIfExpression) ConstantIfExpression_testOnlyEvaluateTheNecessaryCondition 0 = Some (1, 46, 1, 58, $"")%Z.
Proof. vm_compute. reflexivity. Qed.

(** ** oclint-rules/test/basic/DeadCodeRuleTest.cpp *)

Definition DeadCode_CleanCode : testcase :=
  {| ts_lang := LC; ts_path := $"input.c"; ts_code := [];
     ts_comments := []; ts_conf := [];
     ts_tops := [(toplevel 0 (TFunction false), (Node 0 [] (FunctionDecl {| f_name := $"a"; f_method := None; f_isDefinition := true; f_bodyLines := (1)%Z |} [] (Some (Node 1 [] (CompoundStmt [(Node 2 [] (DeclStmt [(Node 3 [] (VarDecl {| v_isParm := false; v_name := $"b"; v_used := false; v_referenced := false; v_local := true; v_staticMember := false; v_private := false; v_unusedAttr := false; v_defaultArg := false; v_canonicalType := $"int"; v_inTemplate := false; v_contexts := [CxFunction true true false] |} None))]))]))))))];
     ts_locs := [(1,1,1,19); (1,10,1,19); (1,12,1,17); (1,12,1,16)]%Z;
     ts_evals := []; ts_same := []; ts_decls := []; ts_parents := [] |}.
Example DeadCode_CleanCode_holds : sorted_violations_of (shippedRule sh_DeadCode) DeadCode_CleanCode = Some [].
Proof. vm_compute. reflexivity. Qed.

Definition DeadCode_CodeAfterReturn : testcase :=
  {| ts_lang := LC; ts_path := $"input.c"; ts_code := [];
     ts_comments := []; ts_conf := [];
     ts_tops := [(toplevel 0 (TFunction false), (Node 0 [] (FunctionDecl {| f_name := $"a"; f_method := None; f_isDefinition := true; f_bodyLines := (1)%Z |} [] (Some (Node 1 [] (CompoundStmt [(Node 2 [] (ReturnStmt None)); (Node 3 [] (DeclStmt [(Node 4 [] (VarDecl {| v_isParm := false; v_name := $"b"; v_used := false; v_referenced := false; v_local := true; v_staticMember := false; v_private := false; v_unusedAttr := false; v_defaultArg := false; v_canonicalType := $"int"; v_inTemplate := false; v_contexts := [CxFunction true true false] |} None))]))]))))))];
     ts_locs := [(1,1,1,27); (1,10,1,27); (1,12,1,12); (1,20,1,25); (1,20,1,24)]%Z;
     ts_evals := []; ts_same := []; ts_decls := []; ts_parents := [] |}.
Example DeadCode_CodeAfterReturn_holds : sorted_violations_of (shippedRule sh_DeadCode) DeadCode_CodeAfterReturn = Some [(1, 20, 1, 25, $"")%Z].
Proof. vm_compute. reflexivity. Qed.

Definition DeadCode_CodeAfterGoto : testcase :=
  {| ts_lang := LC; ts_path := $"input.c"; ts_code := [];
     ts_comments := []; ts_conf := [];
     ts_tops := [(toplevel 0 (TFunction false), (Node 0 [] (FunctionDecl {| f_name := $"a"; f_method := None; f_isDefinition := true; f_bodyLines := (1)%Z |} [] (Some (Node 1 [] (CompoundStmt [(Node 2 [] (GotoStmt $"end")); (Node 3 [] (DeclStmt [(Node 4 [] (VarDecl {| v_isParm := false; v_name := $"b"; v_used := false; v_referenced := false; v_local := true; v_staticMember := false; v_private := false; v_unusedAttr := false; v_defaultArg := false; v_canonicalType := $"int"; v_inTemplate := false; v_contexts := [CxFunction true true false] |} None))])); (Node 5 [] (LabelStmt $"end" (Node 6 [] (ReturnStmt None))))]))))))];
     ts_locs := [(1,1,1,42); (1,10,1,42); (1,12,1,17); (1,22,1,27); (1,22,1,26); (1,29,1,34); (1,34,1,34)]%Z;
     ts_evals := []; ts_same := []; ts_decls := []; ts_parents := [] |}.
Example DeadCode_CodeAfterGoto_holds : sorted_violations_of (shippedRule sh_DeadCode) DeadCode_CodeAfterGoto = Some [(1, 22, 1, 27, $"")%Z].
Proof. vm_compute. reflexivity. Qed.

Definition DeadCode_CodeAfterCXXThrow : testcase :=
  {| ts_lang := LCXX; ts_path := $"input.cpp"; ts_code := [];
     ts_comments := []; ts_conf := [];
     ts_tops := [(toplevel 0 (TFunction false), (Node 0 [] (FunctionDecl {| f_name := $"a"; f_method := None; f_isDefinition := true; f_bodyLines := (1)%Z |} [] (Some (Node 1 [] (CompoundStmt [(Node 2 [] (CXXThrowExpr (Some (Node 3 [] (IntegerLiteral (0)%Z))))); (Node 4 [] (DeclStmt [(Node 5 [] (VarDecl {| v_isParm := false; v_name := $"b"; v_used := false; v_referenced := false; v_local := true; v_staticMember := false; v_private := false; v_unusedAttr := false; v_defaultArg := false; v_canonicalType := $"int"; v_inTemplate := false; v_contexts := [CxFunction true true false] |} None))]))]))))))];
     ts_locs := [(1,1,1,28); (1,10,1,28); (1,12,1,18); (1,18,1,18); (1,21,1,26); (1,21,1,25)]%Z;
     ts_evals := []; ts_same := []; ts_decls := []; ts_parents := [] |}.
Example DeadCode_CodeAfterCXXThrow_holds : sorted_violations_of (shippedRule sh_DeadCode) DeadCode_CodeAfterCXXThrow = Some [(1, 21, 1, 26, $"")%Z].
Proof. vm_compute. reflexivity. Qed.

Definition DeadCode_CodeAfterObjCThrow : testcase :=
  {| ts_lang := LObjC; ts_path := $"input.m"; ts_code := [];
     ts_comments := []; ts_conf := [];
     ts_tops := [(toplevel 0 (TFunction false), (Node 0 [] (FunctionDecl {| f_name := $"a"; f_method := None; f_isDefinition := true; f_bodyLines := (1)%Z |} [] (Some (Node 1 [] (CompoundStmt [(Node 2 [] (DeclStmt [(Node 3 [] (VarDecl {| v_isParm := false; v_name := $"ex"; v_used := true; v_referenced := true; v_local := true; v_staticMember := false; v_private := false; v_unusedAttr := false; v_defaultArg := false; v_canonicalType := $"struct objc_object *"; v_inTemplate := false; v_contexts := [CxFunction true true false] |} None))])); (Node 4 [] (ObjCAtThrowStmt (Some (Node 5 $"id" (ImplicitCastExpr CK_LValueToRValue (Node 6 $"id" (DeclRefExpr 3 $"ex" false))))))); (Node 7 [] (DeclStmt [(Node 8 [] (VarDecl {| v_isParm := false; v_name := $"b"; v_used := false; v_referenced := false; v_local := true; v_staticMember := false; v_private := false; v_unusedAttr := false; v_defaultArg := false; v_canonicalType := $"int"; v_inTemplate := false; v_contexts := [CxFunction true true false] |} None))]))]))))))];
     ts_locs := [(1,1,1,37); (1,10,1,37); (1,12,1,17); (1,12,1,15); (1,19,1,26); (1,26,1,26); (1,26,1,26); (1,30,1,35); (1,30,1,34)]%Z;
     ts_evals := []; ts_same := []; ts_decls := []; ts_parents := [] |}.
Example DeadCode_CodeAfterObjCThrow_holds : sorted_violations_of (shippedRule sh_DeadCode) DeadCode_CodeAfterObjCThrow = Some [(1, 30, 1, 35, $"")%Z].
Proof. vm_compute. reflexivity. Qed.

Definition DeadCode_CodeAfterBreakInWhileLoop : testcase :=
  {| ts_lang := LC; ts_path := $"input.c"; ts_code := [];
     ts_comments := []; ts_conf := [];
     ts_tops := [(toplevel 0 (TFunction false), (Node 0 [] (FunctionDecl {| f_name := $"a"; f_method := None; f_isDefinition := true; f_bodyLines := (1)%Z |} [] (Some (Node 1 [] (CompoundStmt [(Node 2 [] (WhileStmt [] (Node 3 [] (IntegerLiteral (1)%Z)) (Node 4 [] (CompoundStmt [(Node 5 [] BreakStmt); (Node 6 [] (DeclStmt [(Node 7 [] (VarDecl {| v_isParm := false; v_name := $"b"; v_used := false; v_referenced := false; v_local := true; v_staticMember := false; v_private := false; v_unusedAttr := false; v_defaultArg := false; v_canonicalType := $"int"; v_inTemplate := false; v_contexts := [CxFunction true true false] |} None))]))]))))]))))))];
     ts_locs := [(1,1,1,40); (1,10,1,40); (1,12,1,38); (1,19,1,19); (1,22,1,38); (1,24,1,24); (1,31,1,36); (1,31,1,35)]%Z;
     ts_evals := []; ts_same := []; ts_decls := []; ts_parents := [] |}.
Example DeadCode_CodeAfterBreakInWhileLoop_holds : sorted_violations_of (shippedRule sh_DeadCode) DeadCode_CodeAfterBreakInWhileLoop = Some [(1, 31, 1, 36, $"")%Z].
Proof. vm_compute. reflexivity. Qed.

Definition DeadCode_CodeAfterContinueInForLoop : testcase :=
  {| ts_lang := LC; ts_path := $"input.c"; ts_code := [];
     ts_comments := []; ts_conf := [];
     ts_tops := [(toplevel 0 (TFunction false), (Node 0 [] (FunctionDecl {| f_name := $"a"; f_method := None; f_isDefinition := true; f_bodyLines := (1)%Z |} [] (Some (Node 1 [] (CompoundStmt [(Node 2 [] (ForStmt None [] None None (Node 3 [] (CompoundStmt [(Node 4 [] ContinueStmt); (Node 5 [] (DeclStmt [(Node 6 [] (VarDecl {| v_isParm := false; v_name := $"b"; v_used := false; v_referenced := false; v_local := true; v_staticMember := false; v_private := false; v_unusedAttr := false; v_defaultArg := false; v_canonicalType := $"int"; v_inTemplate := false; v_contexts := [CxFunction true true false] |} None))]))]))))]))))))];
     ts_locs := [(1,1,1,42); (1,10,1,42); (1,12,1,40); (1,21,1,40); (1,23,1,23); (1,33,1,38); (1,33,1,37)]%Z;
     ts_evals := []; ts_same := []; ts_decls := []; ts_parents := [] |}.
Example DeadCode_CodeAfterContinueInForLoop_holds : sorted_violations_of (shippedRule sh_DeadCode) DeadCode_CodeAfterContinueInForLoop = Some [(1, 33, 1, 38, $"")%Z].
Proof. vm_compute. reflexivity. Qed.

Definition DeadCode_CodeAfterBreakInDoLoop : testcase :=
  {| ts_lang := LC; ts_path := $"input.c"; ts_code := [];
     ts_comments := []; ts_conf := [];
     ts_tops := [(toplevel 0 (TFunction false), (Node 0 [] (FunctionDecl {| f_name := $"a"; f_method := None; f_isDefinition := true; f_bodyLines := (1)%Z |} [] (Some (Node 1 [] (CompoundStmt [(Node 2 [] (DoStmt (Node 3 [] (CompoundStmt [(Node 4 [] BreakStmt); (Node 5 [] (DeclStmt [(Node 6 [] (VarDecl {| v_isParm := false; v_name := $"b"; v_used := false; v_referenced := false; v_local := true; v_staticMember := false; v_private := false; v_unusedAttr := false; v_defaultArg := false; v_canonicalType := $"int"; v_inTemplate := false; v_contexts := [CxFunction true true false] |} None))]))])) (Node 7 [] (IntegerLiteral (1)%Z))))]))))))];
     ts_locs := [(1,1,1,44); (1,10,1,44); (1,12,1,41); (1,15,1,31); (1,17,1,17); (1,24,1,29); (1,24,1,28); (1,40,1,40)]%Z;
     ts_evals := []; ts_same := []; ts_decls := []; ts_parents := [] |}.
Example DeadCode_CodeAfterBreakInDoLoop_holds : sorted_violations_of (shippedRule sh_DeadCode) DeadCode_CodeAfterBreakInDoLoop = Some [(1, 24, 1, 29, $"")%Z].
Proof. vm_compute. reflexivity. Qed.

Definition DeadCode_CodeAfterContinueInForObjCForEachLoop : testcase :=
  {| ts_lang := LObjC; ts_path := $"input.m"; ts_code := [];
     ts_comments := []; ts_conf := [];
     ts_tops := [(toplevel 0 (TFunction false), (Node 0 [] (FunctionDecl {| f_name := $"a"; f_method := None; f_isDefinition := true; f_bodyLines := (1)%Z |} [] (Some (Node 1 [] (CompoundStmt [(Node 2 [] (DeclStmt [(Node 3 [] (VarDecl {| v_isParm := false; v_name := $"collection"; v_used := true; v_referenced := true; v_local := true; v_staticMember := false; v_private := false; v_unusedAttr := false; v_defaultArg := false; v_canonicalType := $"struct objc_object *"; v_inTemplate := false; v_contexts := [CxFunction true true false] |} None))])); (Node 4 [] (ObjCForCollectionStmt (Node 5 [] (DeclStmt [(Node 6 [] (VarDecl {| v_isParm := false; v_name := $"it"; v_used := false; v_referenced := false; v_local := true; v_staticMember := false; v_private := false; v_unusedAttr := false; v_defaultArg := false; v_canonicalType := $"struct objc_object *"; v_inTemplate := false; v_contexts := [CxFunction true true false] |} None))])) (Node 7 $"id" (ImplicitCastExpr CK_LValueToRValue (Node 8 $"id" (DeclRefExpr 3 $"collection" false)))) (Node 9 [] (CompoundStmt [(Node 10 [] ContinueStmt); (Node 11 [] (DeclStmt [(Node 12 [] (VarDecl {| v_isParm := false; v_name := $"b"; v_used := false; v_referenced := false; v_local := true; v_staticMember := false; v_private := false; v_unusedAttr := false; v_defaultArg := false; v_canonicalType := $"int"; v_inTemplate := false; v_contexts := [CxFunction true true false] |} None))]))]))))]))))))];
     ts_locs := [(1,1,1,77); (1,10,1,77); (1,12,1,25); (1,12,1,15); (1,27,1,75); (1,32,1,35); (1,32,1,35); (1,41,1,41); (1,41,1,41); (1,53,1,75); (1,58,1,58); (1,68,1,73); (1,68,1,72)]%Z;
     ts_evals := []; ts_same := []; ts_decls := []; ts_parents := [] |}.
Example DeadCode_CodeAfterContinueInForObjCForEachLoop_holds : sorted_violations_of (shippedRule sh_DeadCode) DeadCode_CodeAfterContinueInForObjCForEachLoop = Some [(1, 68, 1, 73, $"")%Z].
Proof. vm_compute. reflexivity. Qed.

Definition DeadCode_ReturnFollowedByCaseLabel : testcase :=
  {| ts_lang := LObjC; ts_path := $"input.m"; ts_code := [];
     ts_comments := []; ts_conf := [];
     ts_tops := [(toplevel 0 (TFunction false), (Node 0 [] (FunctionDecl {| f_name := $"a"; f_method := None; f_isDefinition := true; f_bodyLines := (7)%Z |} [(Node 1 [] (VarDecl {| v_isParm := true; v_name := $"i"; v_used := true; v_referenced := true; v_local := false; v_staticMember := false; v_private := false; v_unusedAttr := false; v_defaultArg := false; v_canonicalType := $"int"; v_inTemplate := false; v_contexts := [CxFunction true true false] |} None)); (Node 2 [] (VarDecl {| v_isParm := true; v_name := $"j"; v_used := true; v_referenced := true; v_local := false; v_staticMember := false; v_private := false; v_unusedAttr := false; v_defaultArg := false; v_canonicalType := $"int"; v_inTemplate := false; v_contexts := [CxFunction true true false] |} None))] (Some (Node 3 [] (CompoundStmt [(Node 4 [] (SwitchStmt [] (Node 5 $"int" (ImplicitCastExpr CK_LValueToRValue (Node 6 $"int" (DeclRefExpr 1 $"i" false)))) (Node 7 [] (CompoundStmt [(Node 8 [] (CaseStmt (Node 9 $"int" (OtherExpr [(Node 10 $"int" (IntegerLiteral (1)%Z))])) (Node 11 [] BreakStmt))); (Node 12 [] (CaseStmt (Node 13 $"int" (OtherExpr [(Node 14 $"int" (IntegerLiteral (2)%Z))])) (Node 15 $"int" (BinaryOperator BO_Assign (Node 16 $"int" (DeclRefExpr 2 $"j" false)) (Node 17 $"int" (IntegerLiteral (1)%Z)))))); (Node 18 [] (ReturnStmt None)); (Node 19 [] (CaseStmt (Node 20 $"int" (OtherExpr [(Node 21 $"int" (IntegerLiteral (3)%Z))])) (Node 22 [] (ReturnStmt None)))); (Node 23 [] (DefaultStmt (Node 24 [] (ReturnStmt None))))])) false))]))))))];
     ts_locs := [(1,1,7,4); (1,8,1,12); (1,15,1,19); (1,22,7,4); (2,5,7,1); (2,12,2,12); (2,12,2,12); (2,15,7,1); (3,5,3,13); (3,10,3,10); (3,10,3,10); (3,13,3,13); (4,5,4,17); (4,10,4,10); (4,10,4,10); (4,13,4,17); (4,13,4,13); (4,17,4,17); (4,20,4,20); (5,5,5,13); (5,10,5,10); (5,10,5,10); (5,13,5,13); (6,5,6,14); (6,14,6,14)]%Z;
     ts_evals := []; ts_same := []; ts_decls := []; ts_parents := [] |}.
Example DeadCode_ReturnFollowedByCaseLabel_holds : sorted_violations_of (shippedRule sh_DeadCode) DeadCode_ReturnFollowedByCaseLabel = Some [].
Proof. vm_compute. reflexivity. Qed.

Definition DeadCode_ReturnFollowedByDefault : testcase :=
  {| ts_lang := LObjC; ts_path := $"input.m"; ts_code := [];
     ts_comments := []; ts_conf := [];
     ts_tops := [(toplevel 0 (TFunction false), (Node 0 [] (FunctionDecl {| f_name := $"a"; f_method := None; f_isDefinition := true; f_bodyLines := (6)%Z |} [(Node 1 [] (VarDecl {| v_isParm := true; v_name := $"i"; v_used := true; v_referenced := true; v_local := false; v_staticMember := false; v_private := false; v_unusedAttr := false; v_defaultArg := false; v_canonicalType := $"int"; v_inTemplate := false; v_contexts := [CxFunction true true false] |} None)); (Node 2 [] (VarDecl {| v_isParm := true; v_name := $"j"; v_used := true; v_referenced := true; v_local := false; v_staticMember := false; v_private := false; v_unusedAttr := false; v_defaultArg := false; v_canonicalType := $"int"; v_inTemplate := false; v_contexts := [CxFunction true true false] |} None))] (Some (Node 3 [] (CompoundStmt [(Node 4 [] (SwitchStmt [] (Node 5 $"int" (ImplicitCastExpr CK_LValueToRValue (Node 6 $"int" (DeclRefExpr 1 $"i" false)))) (Node 7 [] (CompoundStmt [(Node 8 [] (CaseStmt (Node 9 $"int" (OtherExpr [(Node 10 $"int" (IntegerLiteral (1)%Z))])) (Node 11 [] BreakStmt))); (Node 12 [] (CaseStmt (Node 13 $"int" (OtherExpr [(Node 14 $"int" (IntegerLiteral (2)%Z))])) (Node 15 [] (ReturnStmt None)))); (Node 16 [] (CaseStmt (Node 17 $"int" (OtherExpr [(Node 18 $"int" (IntegerLiteral (3)%Z))])) (Node 19 $"int" (BinaryOperator BO_Assign (Node 20 $"int" (DeclRefExpr 2 $"j" false)) (Node 21 $"int" (IntegerLiteral (1)%Z)))))); (Node 22 [] (ReturnStmt None)); (Node 23 [] (DefaultStmt (Node 24 [] (ReturnStmt None))))])) false))]))))))];
     ts_locs := [(1,1,6,25); (1,8,1,12); (1,15,1,19); (1,22,6,25); (2,5,6,22); (2,12,2,12); (2,12,2,12); (2,15,6,22); (3,5,3,13); (3,10,3,10); (3,10,3,10); (3,13,3,13); (4,5,4,13); (4,10,4,10); (4,10,4,10); (4,13,4,13); (5,5,5,17); (5,10,5,10); (5,10,5,10); (5,13,5,17); (5,13,5,13); (5,17,5,17); (5,20,5,20); (6,5,6,14); (6,14,6,14)]%Z;
     ts_evals := []; ts_same := []; ts_decls := []; ts_parents := [] |}.
Example DeadCode_ReturnFollowedByDefault_holds : sorted_violations_of (shippedRule sh_DeadCode) DeadCode_ReturnFollowedByDefault = Some [].
Proof. vm_compute. reflexivity. Qed.

Definition DeadCode_BreakFollowedByCaseLabel : testcase :=
  {| ts_lang := LObjC; ts_path := $"input.m"; ts_code := [];
     ts_comments := []; ts_conf := [];
     ts_tops := [(toplevel 0 (TFunction false), (Node 0 [] (FunctionDecl {| f_name := $"a"; f_method := None; f_isDefinition := true; f_bodyLines := (6)%Z |} [(Node 1 [] (VarDecl {| v_isParm := true; v_name := $"i"; v_used := true; v_referenced := true; v_local := false; v_staticMember := false; v_private := false; v_unusedAttr := false; v_defaultArg := false; v_canonicalType := $"int"; v_inTemplate := false; v_contexts := [CxFunction true true false] |} None)); (Node 2 [] (VarDecl {| v_isParm := true; v_name := $"j"; v_used := true; v_referenced := true; v_local := false; v_staticMember := false; v_private := false; v_unusedAttr := false; v_defaultArg := false; v_canonicalType := $"int"; v_inTemplate := false; v_contexts := [CxFunction true true false] |} None))] (Some (Node 3 [] (CompoundStmt [(Node 4 [] (SwitchStmt [] (Node 5 $"int" (ImplicitCastExpr CK_LValueToRValue (Node 6 $"int" (DeclRefExpr 1 $"i" false)))) (Node 7 [] (CompoundStmt [(Node 8 [] (CaseStmt (Node 9 $"int" (OtherExpr [(Node 10 $"int" (IntegerLiteral (1)%Z))])) (Node 11 [] BreakStmt))); (Node 12 [] (CaseStmt (Node 13 $"int" (OtherExpr [(Node 14 $"int" (IntegerLiteral (2)%Z))])) (Node 15 $"int" (BinaryOperator BO_Assign (Node 16 $"int" (DeclRefExpr 2 $"j" false)) (Node 17 $"int" (IntegerLiteral (1)%Z)))))); (Node 18 [] BreakStmt); (Node 19 [] (CaseStmt (Node 20 $"int" (OtherExpr [(Node 21 $"int" (IntegerLiteral (3)%Z))])) (Node 22 [] (ReturnStmt None)))); (Node 23 [] (DefaultStmt (Node 24 [] (ReturnStmt None))))])) false))]))))))];
     ts_locs := [(1,1,6,25); (1,8,1,12); (1,15,1,19); (1,22,6,25); (2,5,6,22); (2,12,2,12); (2,12,2,12); (2,15,6,22); (3,5,3,13); (3,10,3,10); (3,10,3,10); (3,13,3,13); (4,5,4,17); (4,10,4,10); (4,10,4,10); (4,13,4,17); (4,13,4,13); (4,17,4,17); (4,20,4,20); (5,5,5,13); (5,10,5,10); (5,10,5,10); (5,13,5,13); (6,5,6,14); (6,14,6,14)]%Z;
     ts_evals := []; ts_same := []; ts_decls := []; ts_parents := [] |}.
Example DeadCode_BreakFollowedByCaseLabel_holds : sorted_violations_of (shippedRule sh_DeadCode) DeadCode_BreakFollowedByCaseLabel = Some [].
Proof. vm_compute. reflexivity. Qed.

Definition DeadCode_BreakFollowedByStmt : testcase :=
  {| ts_lang := LC; ts_path := $"input.c"; ts_code := [];
     ts_comments := []; ts_conf := [];
     ts_tops := [(toplevel 0 (TFunction false), (Node 0 [] (FunctionDecl {| f_name := $"f"; f_method := None; f_isDefinition := true; f_bodyLines := (5)%Z |} [(Node 1 [] (VarDecl {| v_isParm := true; v_name := $"c"; v_used := true; v_referenced := true; v_local := false; v_staticMember := false; v_private := false; v_unusedAttr := false; v_defaultArg := false; v_canonicalType := $"int"; v_inTemplate := false; v_contexts := [CxFunction true true false] |} None))] (Some (Node 2 [] (CompoundStmt [(Node 3 [] (SwitchStmt [] (Node 4 [] (ImplicitCastExpr CK_LValueToRValue (Node 5 [] (DeclRefExpr 1 $"c" false)))) (Node 6 [] (CompoundStmt [(Node 7 [] (CaseStmt (Node 8 [] (OtherExpr [(Node 9 [] (IntegerLiteral (0)%Z))])) (Node 10 [] BreakStmt))); (Node 11 [] (CallExpr (Some ($"f", (Decl [] None))) (Node 12 [] (ImplicitCastExpr CK_Other (Node 13 [] (DeclRefExpr 0 $"f" false)))) [(Node 14 [] (IntegerLiteral (0)%Z))])); (Node 15 [] (DefaultStmt (Node 16 [] BreakStmt)))])) false))]))))))];
     ts_locs := [(1,1,5,1); (1,8,1,12); (1,15,5,1); (1,20,4,5); (1,28,1,28); (1,28,1,28); (1,31,4,5); (2,9,2,17); (2,14,2,14); (2,14,2,14); (2,17,2,17); (2,24,2,27); (2,24,2,24); (2,24,2,24); (2,26,2,26); (3,9,3,18); (3,18,3,18)]%Z;
     ts_evals := []; ts_same := []; ts_decls := []; ts_parents := [] |}.
Example DeadCode_BreakFollowedByStmt_holds : sorted_violations_of (shippedRule sh_DeadCode) DeadCode_BreakFollowedByStmt = Some [(2, 24, 2, 27, $"")%Z].
Proof. vm_compute. reflexivity. Qed.

Definition DeadCode_ReturnFollowedBy2Stmt : testcase :=
  {| ts_lang := LC; ts_path := $"input.c"; ts_code := [];
     ts_comments := []; ts_conf := [];
     ts_tops := [(toplevel 0 (TFunction false), (Node 0 [] (FunctionDecl {| f_name := $"f"; f_method := None; f_isDefinition := true; f_bodyLines := (5)%Z |} [(Node 1 [] (VarDecl {| v_isParm := true; v_name := $"c"; v_used := true; v_referenced := true; v_local := false; v_staticMember := false; v_private := false; v_unusedAttr := false; v_defaultArg := false; v_canonicalType := $"int"; v_inTemplate := false; v_contexts := [CxFunction true true false] |} None))] (Some (Node 2 [] (CompoundStmt [(Node 3 [] (SwitchStmt [] (Node 4 [] (ImplicitCastExpr CK_LValueToRValue (Node 5 [] (DeclRefExpr 1 $"c" false)))) (Node 6 [] (CompoundStmt [(Node 7 [] (CaseStmt (Node 8 [] (OtherExpr [(Node 9 [] (IntegerLiteral (0)%Z))])) (Node 10 [] (CallExpr (Some ($"f", (Decl [] None))) (Node 11 [] (ImplicitCastExpr CK_Other (Node 12 [] (DeclRefExpr 0 $"f" false)))) [(Node 13 [] (IntegerLiteral (1)%Z))])))); (Node 14 [] (ReturnStmt None)); (Node 15 [] (DefaultStmt (Node 16 [] (CallExpr (Some ($"f", (Decl [] None))) (Node 17 [] (ImplicitCastExpr CK_Other (Node 18 [] (DeclRefExpr 0 $"f" false)))) [(Node 19 [] (IntegerLiteral (1)%Z))])))); (Node 20 [] BreakStmt)])) false))]))))))];
     ts_locs := [(1,1,5,1); (1,8,1,12); (1,15,5,1); (1,20,4,5); (1,28,1,28); (1,28,1,28); (1,31,4,5); (2,9,2,20); (2,14,2,14); (2,14,2,14); (2,17,2,20); (2,17,2,17); (2,17,2,17); (2,19,2,19); (2,23,2,23); (3,9,3,21); (3,18,3,21); (3,18,3,18); (3,18,3,18); (3,20,3,20); (3,24,3,24)]%Z;
     ts_evals := []; ts_same := []; ts_decls := []; ts_parents := [] |}.
Example DeadCode_ReturnFollowedBy2Stmt_holds : sorted_violations_of (shippedRule sh_DeadCode) DeadCode_ReturnFollowedBy2Stmt = Some [].
Proof. vm_compute. reflexivity. Qed.

Definition DeadCode_ReturnFollowedByStatementsInForStmt : testcase :=
  {| ts_lang := LC; ts_path := $"input.c"; ts_code := [];
     ts_comments := []; ts_conf := [];
     ts_tops := [(toplevel 0 (TFunction false), (Node 0 [] (FunctionDecl {| f_name := $"a"; f_method := None; f_isDefinition := true; f_bodyLines := (1)%Z |} [] (Some (Node 1 [] (CompoundStmt [(Node 2 [] (ForStmt None [] None None (Node 3 [] (CompoundStmt [(Node 4 [] (ReturnStmt None)); (Node 5 [] (DeclStmt [(Node 6 [] (VarDecl {| v_isParm := false; v_name := $"b"; v_used := false; v_referenced := false; v_local := true; v_staticMember := false; v_private := false; v_unusedAttr := false; v_defaultArg := false; v_canonicalType := $"int"; v_inTemplate := false; v_contexts := [CxFunction true true false] |} None))]))]))))]))))))];
     ts_locs := [(1,1,1,40); (1,10,1,40); (1,12,1,38); (1,21,1,38); (1,23,1,23); (1,31,1,36); (1,31,1,35)]%Z;
     ts_evals := []; ts_same := []; ts_decls := []; ts_parents := [] |}.
Example DeadCode_ReturnFollowedByStatementsInForStmt_holds : sorted_violations_of (shippedRule sh_DeadCode) DeadCode_ReturnFollowedByStatementsInForStmt = Some [(1, 31, 1, 36, $"")%Z].
Proof. vm_compute. reflexivity. Qed.

Definition DeadCode_ReturnFollowedByLabelStatements : testcase :=
  {| ts_lang := LC; ts_path := $"input.c"; ts_code := [];
     ts_comments := []; ts_conf := [];
     ts_tops := [(toplevel 0 (TFunction false), (Node 0 [] (FunctionDecl {| f_name := $"f"; f_method := None; f_isDefinition := true; f_bodyLines := (6)%Z |} [(Node 1 [] (VarDecl {| v_isParm := true; v_name := $"var"; v_used := true; v_referenced := true; v_local := false; v_staticMember := false; v_private := false; v_unusedAttr := false; v_defaultArg := false; v_canonicalType := $"int"; v_inTemplate := false; v_contexts := [CxFunction true true false] |} None))] (Some (Node 2 [] (CompoundStmt [(Node 3 [] (IfStmt [] (Node 4 [] (BinaryOperator BO_EQ (Node 5 [] (ImplicitCastExpr CK_LValueToRValue (Node 6 [] (DeclRefExpr 1 $"var" false)))) (Node 7 [] (IntegerLiteral (42)%Z)))) (Node 8 [] (GotoStmt $"end")) None)); (Node 9 [] (ReturnStmt None)); (Node 10 [] (LabelStmt $"end" (Node 11 [] (CallExpr (Some ($"f", (Decl [] None))) (Node 12 [] (ImplicitCastExpr CK_Other (Node 13 [] (DeclRefExpr 0 $"f" false)))) [(Node 14 [] (IntegerLiteral (0)%Z))]))))]))))))];
     ts_locs := [(1,1,6,1); (1,8,1,12); (1,17,6,1); (2,5,2,25); (2,9,2,16); (2,9,2,9); (2,9,2,9); (2,16,2,16); (2,20,2,25); (3,5,3,5); (4,1,5,8); (5,5,5,8); (5,5,5,5); (5,5,5,5); (5,7,5,7)]%Z;
     ts_evals := []; ts_same := []; ts_decls := []; ts_parents := [] |}.
Example DeadCode_ReturnFollowedByLabelStatements_holds : sorted_violations_of (shippedRule sh_DeadCode) DeadCode_ReturnFollowedByLabelStatements = Some [].
Proof. vm_compute. reflexivity. Qed.

Definition DeadCode_ReturnInSubBlock : testcase :=
  {| ts_lang := LC; ts_path := $"input.c"; ts_code := [];
     ts_comments := []; ts_conf := [];
     ts_tops := [(toplevel 0 (TFunction false), (Node 0 [] (FunctionDecl {| f_name := $"f"; f_method := None; f_isDefinition := true; f_bodyLines := (4)%Z |} [] (Some (Node 1 [] (CompoundStmt [(Node 2 [] (CompoundStmt [(Node 3 [] (ReturnStmt None))])); (Node 4 [] (CallExpr (Some ($"f", (Decl [] None))) (Node 5 [] (ImplicitCastExpr CK_Other (Node 6 [] (DeclRefExpr 0 $"f" false)))) []))]))))))];
     ts_locs := [(1,1,4,1); (1,10,4,1); (2,5,2,15); (2,7,2,7); (3,5,3,7); (3,5,3,5); (3,5,3,5)]%Z;
     ts_evals := []; ts_same := []; ts_decls := []; ts_parents := [] |}.
Example DeadCode_ReturnInSubBlock_holds : sorted_violations_of (shippedRule sh_DeadCode) DeadCode_ReturnInSubBlock = Some [(3, 5, 3, 7, $"")%Z].
Proof. vm_compute. reflexivity. Qed.

Definition DeadCode_ReturnInIfNoElseFollowed : testcase :=
  {| ts_lang := LC; ts_path := $"input.c"; ts_code := [];
     ts_comments := []; ts_conf := [];
     ts_tops := [(toplevel 0 (TFunction false), (Node 0 [] (FunctionDecl {| f_name := $"f"; f_method := None; f_isDefinition := true; f_bodyLines := (4)%Z |} [(Node 1 [] (VarDecl {| v_isParm := true; v_name := $"i"; v_used := true; v_referenced := true; v_local := false; v_staticMember := false; v_private := false; v_unusedAttr := false; v_defaultArg := false; v_canonicalType := $"int"; v_inTemplate := false; v_contexts := [CxFunction true true false] |} None))] (Some (Node 2 [] (CompoundStmt [(Node 3 [] (IfStmt [] (Node 4 [] (ImplicitCastExpr CK_LValueToRValue (Node 5 [] (DeclRefExpr 1 $"i" false)))) (Node 6 [] (CompoundStmt [(Node 7 [] (ReturnStmt None))])) None)); (Node 8 [] (CallExpr (Some ($"f", (Decl [] None))) (Node 9 [] (ImplicitCastExpr CK_Other (Node 10 [] (DeclRefExpr 0 $"f" false)))) [(Node 11 [] (IntegerLiteral (1)%Z))]))]))))))];
     ts_locs := [(1,1,4,1); (1,8,1,12); (1,15,4,1); (2,5,2,22); (2,9,2,9); (2,9,2,9); (2,12,2,22); (2,14,2,14); (3,5,3,8); (3,5,3,5); (3,5,3,5); (3,7,3,7)]%Z;
     ts_evals := []; ts_same := []; ts_decls := []; ts_parents := [] |}.
Example DeadCode_ReturnInIfNoElseFollowed_holds : sorted_violations_of (shippedRule sh_DeadCode) DeadCode_ReturnInIfNoElseFollowed = Some [].
Proof. vm_compute. reflexivity. Qed.

Definition DeadCode_ReturnInIfNotInElseFollowed : testcase :=
  {| ts_lang := LC; ts_path := $"input.c"; ts_code := [];
     ts_comments := []; ts_conf := [];
     ts_tops := [(toplevel 0 (TFunction false), (Node 0 [] (FunctionDecl {| f_name := $"f"; f_method := None; f_isDefinition := true; f_bodyLines := (4)%Z |} [(Node 1 [] (VarDecl {| v_isParm := true; v_name := $"i"; v_used := true; v_referenced := true; v_local := false; v_staticMember := false; v_private := false; v_unusedAttr := false; v_defaultArg := false; v_canonicalType := $"int"; v_inTemplate := false; v_contexts := [CxFunction true true false] |} None))] (Some (Node 2 [] (CompoundStmt [(Node 3 [] (IfStmt [] (Node 4 [] (ImplicitCastExpr CK_LValueToRValue (Node 5 [] (DeclRefExpr 1 $"i" false)))) (Node 6 [] (CompoundStmt [(Node 7 [] (ReturnStmt None))])) (Some (Node 8 [] NullStmt)))); (Node 9 [] (CallExpr (Some ($"f", (Decl [] None))) (Node 10 [] (ImplicitCastExpr CK_Other (Node 11 [] (DeclRefExpr 0 $"f" false)))) [(Node 12 [] (IntegerLiteral (1)%Z))]))]))))))];
     ts_locs := [(1,1,4,1); (1,8,1,12); (1,15,4,1); (2,5,2,29); (2,9,2,9); (2,9,2,9); (2,12,2,22); (2,14,2,14); (2,29,2,29); (3,5,3,8); (3,5,3,5); (3,5,3,5); (3,7,3,7)]%Z;
     ts_evals := []; ts_same := []; ts_decls := []; ts_parents := [] |}.
Example DeadCode_ReturnInIfNotInElseFollowed_holds : sorted_violations_of (shippedRule sh_DeadCode) DeadCode_ReturnInIfNotInElseFollowed = Some [].
Proof. vm_compute. reflexivity. Qed.

Definition DeadCode_ReturnInIfElseFollowed : testcase :=
  {| ts_lang := LC; ts_path := $"input.c"; ts_code := [];
     ts_comments := []; ts_conf := [];
     ts_tops := [(toplevel 0 (TFunction false), (Node 0 [] (FunctionDecl {| f_name := $"f"; f_method := None; f_isDefinition := true; f_bodyLines := (4)%Z |} [(Node 1 [] (VarDecl {| v_isParm := true; v_name := $"i"; v_used := true; v_referenced := true; v_local := false; v_staticMember := false; v_private := false; v_unusedAttr := false; v_defaultArg := false; v_canonicalType := $"int"; v_inTemplate := false; v_contexts := [CxFunction true true false] |} None))] (Some (Node 2 [] (CompoundStmt [(Node 3 [] (IfStmt [] (Node 4 [] (ImplicitCastExpr CK_LValueToRValue (Node 5 [] (DeclRefExpr 1 $"i" false)))) (Node 6 [] (CompoundStmt [(Node 7 [] (ReturnStmt None))])) (Some (Node 8 [] (CompoundStmt [(Node 9 [] (ReturnStmt None))]))))); (Node 10 [] (CallExpr (Some ($"f", (Decl [] None))) (Node 11 [] (ImplicitCastExpr CK_Other (Node 12 [] (DeclRefExpr 0 $"f" false)))) [(Node 13 [] (IntegerLiteral (1)%Z))]))]))))))];
     ts_locs := [(1,1,4,1); (1,8,1,12); (1,15,4,1); (2,5,2,39); (2,9,2,9); (2,9,2,9); (2,12,2,22); (2,14,2,14); (2,29,2,39); (2,31,2,31); (3,5,3,8); (3,5,3,5); (3,5,3,5); (3,7,3,7)]%Z;
     ts_evals := []; ts_same := []; ts_decls := []; ts_parents := [] |}.
Example DeadCode_ReturnInIfElseFollowed_holds : sorted_violations_of (shippedRule sh_DeadCode) DeadCode_ReturnInIfElseFollowed = Some [(3, 5, 3, 8, $"")%Z].
Proof. vm_compute. reflexivity. Qed.

Definition DeadCode_NotSupported : testcase :=
  {| ts_lang := LCXX; ts_path := $"input.cpp"; ts_code := [];
     ts_comments := []; ts_conf := [];
     ts_tops := [(toplevel 0 (TFunction false), (Node 0 [] (FunctionDecl {| f_name := $"f"; f_method := None; f_isDefinition := true; f_bodyLines := (1)%Z |} [] (Some (Node 1 [] (CompoundStmt [(Node 2 [] (CXXTryStmt (Node 3 [] (CompoundStmt [(Node 4 [] (ReturnStmt None))])) [(Node 5 [] (CXXCatchStmt (Some (Node 6 [] (VarDecl {| v_isParm := false; v_name := $""; v_used := false; v_referenced := false; v_local := true; v_staticMember := false; v_private := false; v_unusedAttr := false; v_defaultArg := false; v_canonicalType := $"int"; v_inTemplate := false; v_contexts := [CxFunction true true false] |} None))) (Node 7 [] (CompoundStmt [(Node 8 [] (CXXThrowExpr None))]))))])); (Node 9 [] (DeclStmt [(Node 10 [] (VarDecl {| v_isParm := false; v_name := $"b"; v_used := false; v_referenced := false; v_local := true; v_staticMember := false; v_private := false; v_unusedAttr := false; v_defaultArg := false; v_canonicalType := $"int"; v_inTemplate := false; v_contexts := [CxFunction true true false] |} None))]))]))))))];
     ts_locs := [(1,1,1,58); (1,10,1,58); (1,12,1,49); (1,16,1,26); (1,18,1,18); (1,28,1,49); (1,35,1,35); (1,40,1,49); (1,42,1,42); (1,51,1,56); (1,51,1,55)]%Z;
     ts_evals := []; ts_same := []; ts_decls := []; ts_parents := [] |}.
Example DeadCode_NotSupported_holds : sorted_violations_of (shippedRule sh_DeadCode) DeadCode_NotSupported = Some [].
Proof. vm_compute. reflexivity. Qed.

(** ** oclint-rules/test/basic/DoubleNegativeRuleTest.cpp *)

Definition DoubleNegative_GoodNegative : testcase :=
  {| ts_lang := LC; ts_path := $"input.c"; ts_code := [];
     ts_comments := []; ts_conf := [];
     ts_tops := [(toplevel 0 (TFunction false), (Node 0 [] (FunctionDecl {| f_name := $"aMethod"; f_method := None; f_isDefinition := true; f_bodyLines := (1)%Z |} [] (Some (Node 1 [] (CompoundStmt [(Node 2 [] (DeclStmt [(Node 3 [] (VarDecl {| v_isParm := false; v_name := $"b1"; v_used := false; v_referenced := false; v_local := true; v_staticMember := false; v_private := false; v_unusedAttr := false; v_defaultArg := false; v_canonicalType := $"int"; v_inTemplate := false; v_contexts := [CxFunction true true false] |} (Some (Node 4 [] (UnaryOperator UO_LNot (Node 5 [] (IntegerLiteral (0)%Z)))))))])); (Node 6 [] (DeclStmt [(Node 7 [] (VarDecl {| v_isParm := false; v_name := $"b2"; v_used := false; v_referenced := false; v_local := true; v_staticMember := false; v_private := false; v_unusedAttr := false; v_defaultArg := false; v_canonicalType := $"int"; v_inTemplate := false; v_contexts := [CxFunction true true false] |} (Some (Node 8 [] (UnaryOperator UO_Not (Node 9 [] (IntegerLiteral (1)%Z)))))))]))]))))))];
     ts_locs := [(1,1,1,44); (1,16,1,44); (1,18,1,29); (1,18,1,28); (1,27,1,28); (1,28,1,28); (1,31,1,42); (1,31,1,41); (1,40,1,41); (1,41,1,41)]%Z;
     ts_evals := []; ts_same := []; ts_decls := []; ts_parents := [] |}.
Example DoubleNegative_GoodNegative_holds : sorted_violations_of (shippedRule sh_DoubleNegative) DoubleNegative_GoodNegative = Some [].
Proof. vm_compute. reflexivity. Qed.

Definition DoubleNegative_DoubleLogicalNot : testcase :=
  {| ts_lang := LC; ts_path := $"input.c"; ts_code := [];
     ts_comments := []; ts_conf := [];
     ts_tops := [(toplevel 0 (TFunction false), (Node 0 [] (FunctionDecl {| f_name := $"aMethod"; f_method := None; f_isDefinition := true; f_bodyLines := (1)%Z |} [] (Some (Node 1 [] (CompoundStmt [(Node 2 [] (DeclStmt [(Node 3 [] (VarDecl {| v_isParm := false; v_name := $"b"; v_used := false; v_referenced := false; v_local := true; v_staticMember := false; v_private := false; v_unusedAttr := false; v_defaultArg := false; v_canonicalType := $"int"; v_inTemplate := false; v_contexts := [CxFunction true true false] |} (Some (Node 4 [] (UnaryOperator UO_LNot (Node 5 [] (UnaryOperator UO_LNot (Node 6 [] (IntegerLiteral (1)%Z)))))))))]))]))))))];
     ts_locs := [(1,1,1,31); (1,16,1,31); (1,18,1,29); (1,18,1,28); (1,26,1,28); (1,27,1,28); (1,28,1,28)]%Z;
     ts_evals := []; ts_same := []; ts_decls := []; ts_parents := [] |}.
Example DoubleNegative_DoubleLogicalNot_holds : nth_violation (shippedRule sh_DoubleNegative) DoubleNegative_DoubleLogicalNot 0 = Some (1, 26, 1, 28, $"")%Z.
Proof. vm_compute. reflexivity. Qed.

Definition DoubleNegative_DoubleLogicalNotWithParentheses : testcase :=
  {| ts_lang := LC; ts_path := $"input.c"; ts_code := [];
     ts_comments := []; ts_conf := [];
     ts_tops := [(toplevel 0 (TFunction false), (Node 0 [] (FunctionDecl {| f_name := $"aMethod"; f_method := None; f_isDefinition := true; f_bodyLines := (1)%Z |} [] (Some (Node 1 [] (CompoundStmt [(Node 2 [] (DeclStmt [(Node 3 [] (VarDecl {| v_isParm := false; v_name := $"b"; v_used := false; v_referenced := false; v_local := true; v_staticMember := false; v_private := false; v_unusedAttr := false; v_defaultArg := false; v_canonicalType := $"int"; v_inTemplate := false; v_contexts := [CxFunction true true false] |} (Some (Node 4 [] (UnaryOperator UO_LNot (Node 5 [] (ParenExpr (Node 6 [] (UnaryOperator UO_LNot (Node 7 [] (IntegerLiteral (1)%Z)))))))))))]))]))))))];
     ts_locs := [(1,1,1,33); (1,16,1,33); (1,18,1,31); (1,18,1,30); (1,26,1,30); (1,27,1,30); (1,28,1,29); (1,29,1,29)]%Z;
     ts_evals := []; ts_same := []; ts_decls := []; ts_parents := [] |}.
Example DoubleNegative_DoubleLogicalNotWithParentheses_holds : nth_violation (shippedRule sh_DoubleNegative) DoubleNegative_DoubleLogicalNotWithParentheses 0 = Some (1, 26, 1, 30, $"")%Z.
Proof. vm_compute. reflexivity. Qed.

Definition DoubleNegative_DoubleNot : testcase :=
  {| ts_lang := LC; ts_path := $"input.c"; ts_code := [];
     ts_comments := []; ts_conf := [];
     ts_tops := [(toplevel 0 (TFunction false), (Node 0 [] (FunctionDecl {| f_name := $"aMethod"; f_method := None; f_isDefinition := true; f_bodyLines := (1)%Z |} [] (Some (Node 1 [] (CompoundStmt [(Node 2 [] (DeclStmt [(Node 3 [] (VarDecl {| v_isParm := false; v_name := $"b"; v_used := false; v_referenced := false; v_local := true; v_staticMember := false; v_private := false; v_unusedAttr := false; v_defaultArg := false; v_canonicalType := $"int"; v_inTemplate := false; v_contexts := [CxFunction true true false] |} (Some (Node 4 [] (UnaryOperator UO_Not (Node 5 [] (UnaryOperator UO_Not (Node 6 [] (IntegerLiteral (1)%Z)))))))))]))]))))))];
     ts_locs := [(1,1,1,31); (1,16,1,31); (1,18,1,29); (1,18,1,28); (1,26,1,28); (1,27,1,28); (1,28,1,28)]%Z;
     ts_evals := []; ts_same := []; ts_decls := []; ts_parents := [] |}.
Example DoubleNegative_DoubleNot_holds : nth_violation (shippedRule sh_DoubleNegative) DoubleNegative_DoubleNot 0 = Some (1, 26, 1, 28, $"")%Z.
Proof. vm_compute. reflexivity. Qed.

Definition DoubleNegative_DoubleNotWithParentheses : testcase :=
  {| ts_lang := LC; ts_path := $"input.c"; ts_code := [];
     ts_comments := []; ts_conf := [];
     ts_tops := [(toplevel 0 (TFunction false), (Node 0 [] (FunctionDecl {| f_name := $"aMethod"; f_method := None; f_isDefinition := true; f_bodyLines := (1)%Z |} [] (Some (Node 1 [] (CompoundStmt [(Node 2 [] (DeclStmt [(Node 3 [] (VarDecl {| v_isParm := false; v_name := $"b"; v_used := false; v_referenced := false; v_local := true; v_staticMember := false; v_private := false; v_unusedAttr := false; v_defaultArg := false; v_canonicalType := $"int"; v_inTemplate := false; v_contexts := [CxFunction true true false] |} (Some (Node 4 [] (UnaryOperator UO_Not (Node 5 [] (ParenExpr (Node 6 [] (UnaryOperator UO_Not (Node 7 [] (IntegerLiteral (1)%Z)))))))))))]))]))))))];
     ts_locs := [(1,1,1,33); (1,16,1,33); (1,18,1,31); (1,18,1,30); (1,26,1,30); (1,27,1,30); (1,28,1,29); (1,29,1,29)]%Z;
     ts_evals := []; ts_same := []; ts_decls := []; ts_parents := [] |}.
Example DoubleNegative_DoubleNotWithParentheses_holds : nth_violation (shippedRule sh_DoubleNegative) DoubleNegative_DoubleNotWithParentheses 0 = Some (1, 26, 1, 30, $"")%Z.
Proof. vm_compute. reflexivity. Qed.

Definition DoubleNegative_DoubleNegativeWithNestedParentheses : testcase :=
  {| ts_lang := LC; ts_path := $"input.c"; ts_code := [];
     ts_comments := []; ts_conf := [];
     ts_tops := [(toplevel 0 (TFunction false), (Node 0 [] (FunctionDecl {| f_name := $"aMethod"; f_method := None; f_isDefinition := true; f_bodyLines := (1)%Z |} [] (Some (Node 1 [] (CompoundStmt [(Node 2 [] (DeclStmt [(Node 3 [] (VarDecl {| v_isParm := false; v_name := $"b"; v_used := false; v_referenced := false; v_local := true; v_staticMember := false; v_private := false; v_unusedAttr := false; v_defaultArg := false; v_canonicalType := $"int"; v_inTemplate := false; v_contexts := [CxFunction true true false] |} (Some (Node 4 [] (UnaryOperator UO_LNot (Node 5 [] (ParenExpr (Node 6 [] (ParenExpr (Node 7 [] (ParenExpr (Node 8 [] (UnaryOperator UO_LNot (Node 9 [] (IntegerLiteral (1)%Z)))))))))))))))]))]))))))];
     ts_locs := [(1,1,1,37); (1,16,1,37); (1,18,1,35); (1,18,1,34); (1,26,1,34); (1,27,1,34); (1,28,1,33); (1,29,1,32); (1,30,1,31); (1,31,1,31)]%Z;
     ts_evals := []; ts_same := []; ts_decls := []; ts_parents := [] |}.
Example DoubleNegative_DoubleNegativeWithNestedParentheses_holds : nth_violation (shippedRule sh_DoubleNegative) DoubleNegative_DoubleNegativeWithNestedParentheses 0 = Some (1, 26, 1, 34, $"")%Z.
Proof. vm_compute. reflexivity. Qed.

Definition DoubleNegative_NotFollowByLogicalNot : testcase :=
  {| ts_lang := LC; ts_path := $"input.c"; ts_code := [];
     ts_comments := []; ts_conf := [];
     ts_tops := [(toplevel 0 (TFunction false), (Node 0 [] (FunctionDecl {| f_name := $"aMethod"; f_method := None; f_isDefinition := true; f_bodyLines := (1)%Z |} [] (Some (Node 1 [] (CompoundStmt [(Node 2 [] (DeclStmt [(Node 3 [] (VarDecl {| v_isParm := false; v_name := $"b"; v_used := false; v_referenced := false; v_local := true; v_staticMember := false; v_private := false; v_unusedAttr := false; v_defaultArg := false; v_canonicalType := $"int"; v_inTemplate := false; v_contexts := [CxFunction true true false] |} (Some (Node 4 [] (UnaryOperator UO_Not (Node 5 [] (UnaryOperator UO_LNot (Node 6 [] (IntegerLiteral (1)%Z)))))))))]))]))))))];
     ts_locs := [(1,1,1,31); (1,16,1,31); (1,18,1,29); (1,18,1,28); (1,26,1,28); (1,27,1,28); (1,28,1,28)]%Z;
     ts_evals := []; ts_same := []; ts_decls := []; ts_parents := [] |}.
Example DoubleNegative_NotFollowByLogicalNot_holds : sorted_violations_of (shippedRule sh_DoubleNegative) DoubleNegative_NotFollowByLogicalNot = Some [].
Proof. vm_compute. reflexivity. Qed.

Definition DoubleNegative_LogicalNotFollowByNot : testcase :=
  {| ts_lang := LC; ts_path := $"input.c"; ts_code := [];
     ts_comments := []; ts_conf := [];
     ts_tops := [(toplevel 0 (TFunction false), (Node 0 [] (FunctionDecl {| f_name := $"aMethod"; f_method := None; f_isDefinition := true; f_bodyLines := (1)%Z |} [] (Some (Node 1 [] (CompoundStmt [(Node 2 [] (DeclStmt [(Node 3 [] (VarDecl {| v_isParm := false; v_name := $"b"; v_used := false; v_referenced := false; v_local := true; v_staticMember := false; v_private := false; v_unusedAttr := false; v_defaultArg := false; v_canonicalType := $"int"; v_inTemplate := false; v_contexts := [CxFunction true true false] |} (Some (Node 4 [] (UnaryOperator UO_LNot (Node 5 [] (UnaryOperator UO_Not (Node 6 [] (IntegerLiteral (1)%Z)))))))))]))]))))))];
     ts_locs := [(1,1,1,31); (1,16,1,31); (1,18,1,29); (1,18,1,28); (1,26,1,28); (1,27,1,28); (1,28,1,28)]%Z;
     ts_evals := []; ts_same := []; ts_decls := []; ts_parents := [] |}.
Example DoubleNegative_LogicalNotFollowByNot_holds : sorted_violations_of (shippedRule sh_DoubleNegative) DoubleNegative_LogicalNotFollowByNot = Some [].
Proof. vm_compute. reflexivity. Qed.

(** ** oclint-rules/test/basic/ForLoopShouldBeWhileLoopRuleTest.cpp *)

Definition ForLoopShouldBeWhileLoop_GoodForLoop : testcase :=
  {| ts_lang := LC; ts_path := $"input.c"; ts_code := [];
     ts_comments := []; ts_conf := [];
     ts_tops := [(toplevel 0 (TFunction false), (Node 0 [] (FunctionDecl {| f_name := $"aMethod"; f_method := None; f_isDefinition := true; f_bodyLines := (1)%Z |} [(Node 1 [] (VarDecl {| v_isParm := true; v_name := $"a"; v_used := true; v_referenced := true; v_local := false; v_staticMember := false; v_private := false; v_unusedAttr := false; v_defaultArg := false; v_canonicalType := $"int"; v_inTemplate := false; v_contexts := [CxFunction true true false] |} None))] (Some (Node 2 [] (CompoundStmt [(Node 3 [] (ForStmt (Some (Node 4 [] (DeclStmt [(Node 5 [] (VarDecl {| v_isParm := false; v_name := $"i"; v_used := true; v_referenced := true; v_local := true; v_staticMember := false; v_private := false; v_unusedAttr := false; v_defaultArg := false; v_canonicalType := $"int"; v_inTemplate := false; v_contexts := [CxFunction true true false] |} (Some (Node 6 [] (IntegerLiteral (0)%Z)))))]))) [] (Some (Node 7 [] (BinaryOperator BO_Other (Node 8 [] (ImplicitCastExpr CK_LValueToRValue (Node 9 [] (DeclRefExpr 5 $"i" false)))) (Node 10 [] (ImplicitCastExpr CK_LValueToRValue (Node 11 [] (DeclRefExpr 1 $"a" false))))))) (Some (Node 12 [] (UnaryOperator UO_Other (Node 13 [] (DeclRefExpr 5 $"i" false))))) (Node 14 [] (CompoundStmt [(Node 15 [] NullStmt)]))))]))))))];
     ts_locs := [(1,1,1,55); (1,14,1,18); (1,21,1,55); (1,23,1,53); (1,28,1,37); (1,28,1,36); (1,36,1,36); (1,39,1,43); (1,39,1,39); (1,39,1,39); (1,43,1,43); (1,43,1,43); (1,46,1,47); (1,46,1,46); (1,51,1,53); (1,52,1,52)]%Z;
     ts_evals := []; ts_same := []; ts_decls := []; ts_parents := [] |}.
Example ForLoopShouldBeWhileLoop_GoodForLoop_holds : sorted_violations_of (shippedRule sh_ForLoopShouldBeWhileLoop) ForLoopShouldBeWhileLoop_GoodForLoop = Some [].
Proof. vm_compute. reflexivity. Qed.

Definition ForLoopShouldBeWhileLoop_NoIncExpr : testcase :=
  {| ts_lang := LC; ts_path := $"input.c"; ts_code := [];
     ts_comments := []; ts_conf := [];
     ts_tops := [(toplevel 0 (TFunction false), (Node 0 [] (FunctionDecl {| f_name := $"aMethod"; f_method := None; f_isDefinition := true; f_bodyLines := (1)%Z |} [(Node 1 [] (VarDecl {| v_isParm := true; v_name := $"a"; v_used := true; v_referenced := true; v_local := false; v_staticMember := false; v_private := false; v_unusedAttr := false; v_defaultArg := false; v_canonicalType := $"int"; v_inTemplate := false; v_contexts := [CxFunction true true false] |} None))] (Some (Node 2 [] (CompoundStmt [(Node 3 [] (ForStmt (Some (Node 4 [] (DeclStmt [(Node 5 [] (VarDecl {| v_isParm := false; v_name := $"i"; v_used := true; v_referenced := true; v_local := true; v_staticMember := false; v_private := false; v_unusedAttr := false; v_defaultArg := false; v_canonicalType := $"int"; v_inTemplate := false; v_contexts := [CxFunction true true false] |} (Some (Node 6 [] (IntegerLiteral (0)%Z)))))]))) [] (Some (Node 7 [] (BinaryOperator BO_Other (Node 8 [] (ImplicitCastExpr CK_LValueToRValue (Node 9 [] (DeclRefExpr 5 $"i" false)))) (Node 10 [] (ImplicitCastExpr CK_LValueToRValue (Node 11 [] (DeclRefExpr 1 $"a" false))))))) None (Node 12 [] (CompoundStmt [(Node 13 [] NullStmt)]))))]))))))];
     ts_locs := [(1,1,1,51); (1,14,1,18); (1,21,1,51); (1,23,1,49); (1,28,1,37); (1,28,1,36); (1,36,1,36); (1,39,1,43); (1,39,1,39); (1,39,1,39); (1,43,1,43); (1,43,1,43); (1,47,1,49); (1,48,1,48)]%Z;
     ts_evals := []; ts_same := []; ts_decls := []; ts_parents := [] |}.
Example ForLoopShouldBeWhileLoop_NoIncExpr_holds : sorted_violations_of (shippedRule sh_ForLoopShouldBeWhileLoop) ForLoopShouldBeWhileLoop_NoIncExpr = Some [].
Proof. vm_compute. reflexivity. Qed.

Definition ForLoopShouldBeWhileLoop_NoInitExpr : testcase :=
  {| ts_lang := LC; ts_path := $"input.c"; ts_code := [];
     ts_comments := []; ts_conf := [];
     ts_tops := [(toplevel 0 (TFunction false), (Node 0 [] (FunctionDecl {| f_name := $"aMethod"; f_method := None; f_isDefinition := true; f_bodyLines := (1)%Z |} [(Node 1 [] (VarDecl {| v_isParm := true; v_name := $"a"; v_used := true; v_referenced := true; v_local := false; v_staticMember := false; v_private := false; v_unusedAttr := false; v_defaultArg := false; v_canonicalType := $"int"; v_inTemplate := false; v_contexts := [CxFunction true true false] |} None))] (Some (Node 2 [] (CompoundStmt [(Node 3 [] (ForStmt None [] (Some (Node 4 [] (BinaryOperator BO_Other (Node 5 [] (ImplicitCastExpr CK_LValueToRValue (Node 6 [] (DeclRefExpr 1 $"a" false)))) (Node 7 [] (IntegerLiteral (100)%Z))))) (Some (Node 8 [] (UnaryOperator UO_Other (Node 9 [] (DeclRefExpr 1 $"a" false))))) (Node 10 [] (CompoundStmt [(Node 11 [] NullStmt)]))))]))))))];
     ts_locs := [(1,1,1,48); (1,14,1,18); (1,21,1,48); (1,23,1,46); (1,30,1,34); (1,30,1,30); (1,30,1,30); (1,34,1,34); (1,39,1,40); (1,39,1,39); (1,44,1,46); (1,45,1,45)]%Z;
     ts_evals := []; ts_same := []; ts_decls := []; ts_parents := [] |}.
Example ForLoopShouldBeWhileLoop_NoInitExpr_holds : sorted_violations_of (shippedRule sh_ForLoopShouldBeWhileLoop) ForLoopShouldBeWhileLoop_NoInitExpr = Some [].
Proof. vm_compute. reflexivity. Qed.

Definition ForLoopShouldBeWhileLoop_NoInitExprNorIncExpr : testcase :=
  {| ts_lang := LC; ts_path := $"input.c"; ts_code := [];
     ts_comments := []; ts_conf := [];
     ts_tops := [(toplevel 0 (TFunction false), (Node 0 [] (FunctionDecl {| f_name := $"aMethod"; f_method := None; f_isDefinition := true; f_bodyLines := (1)%Z |} [(Node 1 [] (VarDecl {| v_isParm := true; v_name := $"a"; v_used := true; v_referenced := true; v_local := false; v_staticMember := false; v_private := false; v_unusedAttr := false; v_defaultArg := false; v_canonicalType := $"int"; v_inTemplate := false; v_contexts := [CxFunction true true false] |} None))] (Some (Node 2 [] (CompoundStmt [(Node 3 [] (ForStmt None [] (Some (Node 4 [] (BinaryOperator BO_Other (Node 5 [] (ImplicitCastExpr CK_LValueToRValue (Node 6 [] (DeclRefExpr 1 $"a" false)))) (Node 7 [] (IntegerLiteral (100)%Z))))) None (Node 8 [] (CompoundStmt [(Node 9 [] NullStmt)]))))]))))))];
     ts_locs := [(1,1,1,44); (1,14,1,18); (1,21,1,44); (1,23,1,42); (1,30,1,34); (1,30,1,30); (1,30,1,30); (1,34,1,34); (1,40,1,42); (1,41,1,41)]%Z;
     ts_evals := []; ts_same := []; ts_decls := []; ts_parents := [] |}.
Example ForLoopShouldBeWhileLoop_NoInitExprNorIncExpr_holds : nth_violation (shippedRule sh_ForLoopShouldBeWhileLoop) ForLoopShouldBeWhileLoop_NoInitExprNorIncExpr 0 = Some (1, 23, 1, 42, $"")%Z.
Proof. vm_compute. reflexivity. Qed.

Definition ForLoopShouldBeWhileLoop_IgnoreNullCondExpr : testcase :=
  {| ts_lang := LC; ts_path := $"input.c"; ts_code := [];
     ts_comments := []; ts_conf := [];
     ts_tops := [(toplevel 0 (TFunction false), (Node 0 [] (FunctionDecl {| f_name := $"aMethod"; f_method := None; f_isDefinition := true; f_bodyLines := (1)%Z |} [(Node 1 [] (VarDecl {| v_isParm := true; v_name := $"a"; v_used := false; v_referenced := false; v_local := false; v_staticMember := false; v_private := false; v_unusedAttr := false; v_defaultArg := false; v_canonicalType := $"int"; v_inTemplate := false; v_contexts := [CxFunction true true false] |} None))] (Some (Node 2 [] (CompoundStmt [(Node 3 [] (ForStmt (Some (Node 4 [] (DeclStmt [(Node 5 [] (VarDecl {| v_isParm := false; v_name := $"i"; v_used := true; v_referenced := true; v_local := true; v_staticMember := false; v_private := false; v_unusedAttr := false; v_defaultArg := false; v_canonicalType := $"int"; v_inTemplate := false; v_contexts := [CxFunction true true false] |} (Some (Node 6 [] (IntegerLiteral (0)%Z)))))]))) [] None (Some (Node 7 [] (UnaryOperator UO_Other (Node 8 [] (DeclRefExpr 5 $"i" false))))) (Node 9 [] (CompoundStmt [(Node 10 [] NullStmt)]))))]))))))];
     ts_locs := [(1,1,1,50); (1,14,1,18); (1,21,1,50); (1,23,1,48); (1,28,1,37); (1,28,1,36); (1,36,1,36); (1,41,1,42); (1,41,1,41); (1,46,1,48); (1,47,1,47)]%Z;
     ts_evals := []; ts_same := []; ts_decls := []; ts_parents := [] |}.
Example ForLoopShouldBeWhileLoop_IgnoreNullCondExpr_holds : sorted_violations_of (shippedRule sh_ForLoopShouldBeWhileLoop) ForLoopShouldBeWhileLoop_IgnoreNullCondExpr = Some [].
Proof. vm_compute. reflexivity. Qed.

(** ** oclint-rules/test/basic/GotoStatementRuleTest.cpp *)

Definition GotoStatement_NoGoto : testcase :=
  {| ts_lang := LC; ts_path := $"input.c"; ts_code := [];
     ts_comments := []; ts_conf := [];
     ts_tops := [(toplevel 0 (TFunction false), (Node 0 [] (FunctionDecl {| f_name := $"m"; f_method := None; f_isDefinition := true; f_bodyLines := (1)%Z |} [] (Some (Node 1 [] (CompoundStmt [(Node 2 [] (IfStmt [] (Node 3 [] (IntegerLiteral (1)%Z)) (Node 4 [] (CompoundStmt [(Node 5 [] NullStmt)])) None))]))))))];
     ts_locs := [(1,1,1,25); (1,10,1,25); (1,12,1,23); (1,16,1,16); (1,19,1,23); (1,21,1,21)]%Z;
     ts_evals := [(3, true)]; ts_same := []; ts_decls := []; ts_parents := [] |}.
Example GotoStatement_NoGoto_holds : sorted_violations_of (shippedRule sh_GotoStatement) GotoStatement_NoGoto = Some [].
Proof. vm_compute. reflexivity. Qed.

Definition GotoStatement_OneGoto : testcase :=
  {| ts_lang := LC; ts_path := $"input.c"; ts_code := [];
     ts_comments := []; ts_conf := [];
     ts_tops := [(toplevel 0 (TFunction false), (Node 0 [] (FunctionDecl {| f_name := $"a"; f_method := None; f_isDefinition := false; f_bodyLines := (0)%Z |} [] None))); (toplevel 1 (TFunction false), (Node 1 [] (FunctionDecl {| f_name := $"m"; f_method := None; f_isDefinition := true; f_bodyLines := (2)%Z |} [] (Some (Node 2 [] (CompoundStmt [(Node 3 [] (GotoStmt $"A")); (Node 4 [] (LabelStmt $"A" (Node 5 [] (CallExpr (Some ($"a", (Decl [] None))) (Node 6 [] (ImplicitCastExpr CK_Other (Node 7 [] (DeclRefExpr 0 $"a" false)))) []))))]))))))];
     ts_locs := [(1,1,1,8); (1,11,2,6); (1,20,2,6); (1,22,1,27); (1,30,2,3); (2,1,2,3); (2,1,2,1); (2,1,2,1)]%Z;
     ts_evals := []; ts_same := []; ts_decls := []; ts_parents := [] |}.
Example GotoStatement_OneGoto_holds : nth_violation (shippedRule sh_GotoStatement) GotoStatement_OneGoto 0 = Some (1, 22, 1, 27, $"")%Z.
Proof. vm_compute. reflexivity. Qed.

Definition GotoStatement_TwoGotos : testcase :=
  {| ts_lang := LC; ts_path := $"input.c"; ts_code := [];
     ts_comments := []; ts_conf := [];
     ts_tops := [(toplevel 0 (TFunction false), (Node 0 [] (FunctionDecl {| f_name := $"a"; f_method := None; f_isDefinition := false; f_bodyLines := (0)%Z |} [] None))); (toplevel 1 (TFunction false), (Node 1 [] (FunctionDecl {| f_name := $"m"; f_method := None; f_isDefinition := true; f_bodyLines := (4)%Z |} [] (Some (Node 2 [] (CompoundStmt [(Node 3 [] (GotoStmt $"A")); (Node 4 [] (GotoStmt $"B")); (Node 5 [] (LabelStmt $"A" (Node 6 [] (CallExpr (Some ($"a", (Decl [] None))) (Node 7 [] (ImplicitCastExpr CK_Other (Node 8 [] (DeclRefExpr 0 $"a" false)))) [])))); (Node 9 [] (LabelStmt $"B" (Node 10 [] (CallExpr (Some ($"a", (Decl [] None))) (Node 11 [] (ImplicitCastExpr CK_Other (Node 12 [] (DeclRefExpr 0 $"a" false)))) []))))]))))))];
     ts_locs := [(1,1,1,8); (1,11,4,6); (1,20,4,6); (1,22,1,27); (1,30,1,35); (1,38,2,3); (2,1,2,3); (2,1,2,1); (2,1,2,1); (3,1,4,3); (4,1,4,3); (4,1,4,1); (4,1,4,1)]%Z;
     ts_evals := []; ts_same := []; ts_decls := []; ts_parents := [] |}.
Example GotoStatement_TwoGotos_holds : nth_violation (shippedRule sh_GotoStatement) GotoStatement_TwoGotos 0 = Some (1, 22, 1, 27, $"")%Z.
Proof. vm_compute. reflexivity. Qed.

Definition GotoStatement_TwoGotos_2 : testcase :=
  {| ts_lang := LC; ts_path := $"input.c"; ts_code := [];
     ts_comments := []; ts_conf := [];
     ts_tops := [(toplevel 0 (TFunction false), (Node 0 [] (FunctionDecl {| f_name := $"a"; f_method := None; f_isDefinition := false; f_bodyLines := (0)%Z |} [] None))); (toplevel 1 (TFunction false), (Node 1 [] (FunctionDecl {| f_name := $"m"; f_method := None; f_isDefinition := true; f_bodyLines := (4)%Z |} [] (Some (Node 2 [] (CompoundStmt [(Node 3 [] (GotoStmt $"A")); (Node 4 [] (GotoStmt $"B")); (Node 5 [] (LabelStmt $"A" (Node 6 [] (CallExpr (Some ($"a", (Decl [] None))) (Node 7 [] (ImplicitCastExpr CK_Other (Node 8 [] (DeclRefExpr 0 $"a" false)))) [])))); (Node 9 [] (LabelStmt $"B" (Node 10 [] (CallExpr (Some ($"a", (Decl [] None))) (Node 11 [] (ImplicitCastExpr CK_Other (Node 12 [] (DeclRefExpr 0 $"a" false)))) []))))]))))))];
     ts_locs := [(1,1,1,8); (1,11,4,6); (1,20,4,6); (1,22,1,27); (1,30,1,35); (1,38,2,3); (2,1,2,3); (2,1,2,1); (2,1,2,1); (3,1,4,3); (4,1,4,3); (4,1,4,1); (4,1,4,1)]%Z;
     ts_evals := []; ts_same := []; ts_decls := []; ts_parents := [] |}.
Example GotoStatement_TwoGotos_2_holds : nth_violation (shippedRule sh_GotoStatement) GotoStatement_TwoGotos_2 1 = Some (1, 30, 1, 35, $"")%Z.
Proof. vm_compute. reflexivity. Qed.

(** ** oclint-rules/test/basic/JumbledIncrementerRuleTest.cpp *)

Definition JumbledIncrementer_GoodNestedForLoops : testcase :=
  {| ts_lang := LC; ts_path := $"input.c"; ts_code := [];
     ts_comments := []; ts_conf := [];
     ts_tops := [(toplevel 0 (TFunction false), (Node 0 [] (FunctionDecl {| f_name := $"aMethod"; f_method := None; f_isDefinition := true; f_bodyLines := (1)%Z |} [(Node 1 [] (VarDecl {| v_isParm := true; v_name := $"a"; v_used := true; v_referenced := true; v_local := false; v_staticMember := false; v_private := false; v_unusedAttr := false; v_defaultArg := false; v_canonicalType := $"int"; v_inTemplate := false; v_contexts := [CxFunction true true false] |} None))] (Some (Node 2 [] (CompoundStmt [(Node 3 [] (ForStmt (Some (Node 4 [] (DeclStmt [(Node 5 [] (VarDecl {| v_isParm := false; v_name := $"i"; v_used := true; v_referenced := true; v_local := true; v_staticMember := false; v_private := false; v_unusedAttr := false; v_defaultArg := false; v_canonicalType := $"int"; v_inTemplate := false; v_contexts := [CxFunction true true false] |} (Some (Node 6 [] (IntegerLiteral (0)%Z)))))]))) [] (Some (Node 7 [] (BinaryOperator BO_Other (Node 8 [] (ImplicitCastExpr CK_LValueToRValue (Node 9 [] (DeclRefExpr 5 $"i" false)))) (Node 10 [] (ImplicitCastExpr CK_LValueToRValue (Node 11 [] (DeclRefExpr 1 $"a" false))))))) (Some (Node 12 [] (UnaryOperator UO_Other (Node 13 [] (DeclRefExpr 5 $"i" false))))) (Node 14 [] (CompoundStmt [(Node 15 [] (ForStmt (Some (Node 16 [] (DeclStmt [(Node 17 [] (VarDecl {| v_isParm := false; v_name := $"j"; v_used := true; v_referenced := true; v_local := true; v_staticMember := false; v_private := false; v_unusedAttr := false; v_defaultArg := false; v_canonicalType := $"int"; v_inTemplate := false; v_contexts := [CxFunction true true false] |} (Some (Node 18 [] (IntegerLiteral (0)%Z)))))]))) [] (Some (Node 19 [] (BinaryOperator BO_Other (Node 20 [] (ImplicitCastExpr CK_LValueToRValue (Node 21 [] (DeclRefExpr 17 $"j" false)))) (Node 22 [] (ImplicitCastExpr CK_LValueToRValue (Node 23 [] (DeclRefExpr 1 $"a" false))))))) (Some (Node 24 [] (UnaryOperator UO_Other (Node 25 [] (DeclRefExpr 17 $"j" false))))) (Node 26 [] (CompoundStmt [(Node 27 [] NullStmt)]))))]))))]))))))];
     ts_locs := [(1,1,1,87); (1,14,1,18); (1,21,1,87); (1,23,1,85); (1,28,1,37); (1,28,1,36); (1,36,1,36); (1,39,1,43); (1,39,1,39); (1,39,1,39); (1,43,1,43); (1,43,1,43); (1,46,1,47); (1,46,1,46); (1,51,1,85); (1,53,1,83); (1,58,1,67); (1,58,1,66); (1,66,1,66); (1,69,1,73); (1,69,1,69); (1,69,1,69); (1,73,1,73); (1,73,1,73); (1,76,1,77); (1,76,1,76); (1,81,1,83); (1,82,1,82)]%Z;
     ts_evals := []; ts_same := []; ts_decls := []; ts_parents := [] |}.
Example JumbledIncrementer_GoodNestedForLoops_holds : sorted_violations_of (shippedRule sh_JumbledIncrementer) JumbledIncrementer_GoodNestedForLoops = Some [].
Proof. vm_compute. reflexivity. Qed.

Definition JumbledIncrementer_InnerForLoopInsideCompoundStmt : testcase :=
  {| ts_lang := LC; ts_path := $"input.c"; ts_code := [];
     ts_comments := []; ts_conf := [];
     ts_tops := [(toplevel 0 (TFunction false), (Node 0 [] (FunctionDecl {| f_name := $"aMethod"; f_method := None; f_isDefinition := true; f_bodyLines := (1)%Z |} [(Node 1 [] (VarDecl {| v_isParm := true; v_name := $"a"; v_used := true; v_referenced := true; v_local := false; v_staticMember := false; v_private := false; v_unusedAttr := false; v_defaultArg := false; v_canonicalType := $"int"; v_inTemplate := false; v_contexts := [CxFunction true true false] |} None))] (Some (Node 2 [] (CompoundStmt [(Node 3 [] (ForStmt (Some (Node 4 [] (DeclStmt [(Node 5 [] (VarDecl {| v_isParm := false; v_name := $"i"; v_used := true; v_referenced := true; v_local := true; v_staticMember := false; v_private := false; v_unusedAttr := false; v_defaultArg := false; v_canonicalType := $"int"; v_inTemplate := false; v_contexts := [CxFunction true true false] |} (Some (Node 6 [] (IntegerLiteral (0)%Z)))))]))) [] (Some (Node 7 [] (BinaryOperator BO_Other (Node 8 [] (ImplicitCastExpr CK_LValueToRValue (Node 9 [] (DeclRefExpr 5 $"i" false)))) (Node 10 [] (ImplicitCastExpr CK_LValueToRValue (Node 11 [] (DeclRefExpr 1 $"a" false))))))) (Some (Node 12 [] (UnaryOperator UO_Other (Node 13 [] (DeclRefExpr 5 $"i" false))))) (Node 14 [] (CompoundStmt [(Node 15 [] (ForStmt (Some (Node 16 [] (DeclStmt [(Node 17 [] (VarDecl {| v_isParm := false; v_name := $"j"; v_used := true; v_referenced := true; v_local := true; v_staticMember := false; v_private := false; v_unusedAttr := false; v_defaultArg := false; v_canonicalType := $"int"; v_inTemplate := false; v_contexts := [CxFunction true true false] |} (Some (Node 18 [] (IntegerLiteral (0)%Z)))))]))) [] (Some (Node 19 [] (BinaryOperator BO_Other (Node 20 [] (ImplicitCastExpr CK_LValueToRValue (Node 21 [] (DeclRefExpr 17 $"j" false)))) (Node 22 [] (ImplicitCastExpr CK_LValueToRValue (Node 23 [] (DeclRefExpr 1 $"a" false))))))) (Some (Node 24 [] (UnaryOperator UO_Other (Node 25 [] (DeclRefExpr 5 $"i" false))))) (Node 26 [] (CompoundStmt [(Node 27 [] NullStmt)]))))]))))]))))))];
     ts_locs := [(1,1,1,87); (1,14,1,18); (1,21,1,87); (1,23,1,85); (1,28,1,37); (1,28,1,36); (1,36,1,36); (1,39,1,43); (1,39,1,39); (1,39,1,39); (1,43,1,43); (1,43,1,43); (1,46,1,47); (1,46,1,46); (1,51,1,85); (1,53,1,83); (1,58,1,67); (1,58,1,66); (1,66,1,66); (1,69,1,73); (1,69,1,69); (1,69,1,69); (1,73,1,73); (1,73,1,73); (1,76,1,77); (1,76,1,76); (1,81,1,83); (1,82,1,82)]%Z;
     ts_evals := []; ts_same := []; ts_decls := []; ts_parents := [] |}.
Example JumbledIncrementer_InnerForLoopInsideCompoundStmt_holds : nth_violation (shippedRule sh_JumbledIncrementer) JumbledIncrementer_InnerForLoopInsideCompoundStmt 0 = Some (1, 76, 1, 77, $"")%Z.
Proof. vm_compute. reflexivity. Qed.

Definition JumbledIncrementer_InnerForLoopIsTheBodyOfOuterForLoop : testcase :=
  {| ts_lang := LC; ts_path := $"input.c"; ts_code := [];
     ts_comments := []; ts_conf := [];
     ts_tops := [(toplevel 0 (TFunction false), (Node 0 [] (FunctionDecl {| f_name := $"aMethod"; f_method := None; f_isDefinition := true; f_bodyLines := (1)%Z |} [(Node 1 [] (VarDecl {| v_isParm := true; v_name := $"a"; v_used := true; v_referenced := true; v_local := false; v_staticMember := false; v_private := false; v_unusedAttr := false; v_defaultArg := false; v_canonicalType := $"int"; v_inTemplate := false; v_contexts := [CxFunction true true false] |} None))] (Some (Node 2 [] (CompoundStmt [(Node 3 [] (ForStmt (Some (Node 4 [] (DeclStmt [(Node 5 [] (VarDecl {| v_isParm := false; v_name := $"i"; v_used := true; v_referenced := true; v_local := true; v_staticMember := false; v_private := false; v_unusedAttr := false; v_defaultArg := false; v_canonicalType := $"int"; v_inTemplate := false; v_contexts := [CxFunction true true false] |} (Some (Node 6 [] (IntegerLiteral (0)%Z)))))]))) [] (Some (Node 7 [] (BinaryOperator BO_Other (Node 8 [] (ImplicitCastExpr CK_LValueToRValue (Node 9 [] (DeclRefExpr 5 $"i" false)))) (Node 10 [] (ImplicitCastExpr CK_LValueToRValue (Node 11 [] (DeclRefExpr 1 $"a" false))))))) (Some (Node 12 [] (UnaryOperator UO_Other (Node 13 [] (DeclRefExpr 5 $"i" false))))) (Node 14 [] (ForStmt (Some (Node 15 [] (DeclStmt [(Node 16 [] (VarDecl {| v_isParm := false; v_name := $"j"; v_used := true; v_referenced := true; v_local := true; v_staticMember := false; v_private := false; v_unusedAttr := false; v_defaultArg := false; v_canonicalType := $"int"; v_inTemplate := false; v_contexts := [CxFunction true true false] |} (Some (Node 17 [] (IntegerLiteral (0)%Z)))))]))) [] (Some (Node 18 [] (BinaryOperator BO_Other (Node 19 [] (ImplicitCastExpr CK_LValueToRValue (Node 20 [] (DeclRefExpr 16 $"j" false)))) (Node 21 [] (ImplicitCastExpr CK_LValueToRValue (Node 22 [] (DeclRefExpr 1 $"a" false))))))) (Some (Node 23 [] (UnaryOperator UO_Other (Node 24 [] (DeclRefExpr 5 $"i" false))))) (Node 25 [] (CompoundStmt [(Node 26 [] NullStmt)]))))))]))))))];
     ts_locs := [(1,1,1,83); (1,14,1,18); (1,21,1,83); (1,23,1,81); (1,28,1,37); (1,28,1,36); (1,36,1,36); (1,39,1,43); (1,39,1,39); (1,39,1,39); (1,43,1,43); (1,43,1,43); (1,46,1,47); (1,46,1,46); (1,51,1,81); (1,56,1,65); (1,56,1,64); (1,64,1,64); (1,67,1,71); (1,67,1,67); (1,67,1,67); (1,71,1,71); (1,71,1,71); (1,74,1,75); (1,74,1,74); (1,79,1,81); (1,80,1,80)]%Z;
     ts_evals := []; ts_same := []; ts_decls := []; ts_parents := [] |}.
Example JumbledIncrementer_InnerForLoopIsTheBodyOfOuterForLoop_holds : nth_violation (shippedRule sh_JumbledIncrementer) JumbledIncrementer_InnerForLoopIsTheBodyOfOuterForLoop 0 = Some (1, 74, 1, 75, $"")%Z.
Proof. vm_compute. reflexivity. Qed.

Definition JumbledIncrementer_MultiIncsAreFine : testcase :=
  {| ts_lang := LC; ts_path := $"input.c"; ts_code := [];
     ts_comments := []; ts_conf := [];
     ts_tops := [(toplevel 0 (TFunction false), (Node 0 [] (FunctionDecl {| f_name := $"aMethod"; f_method := None; f_isDefinition := true; f_bodyLines := (1)%Z |} [(Node 1 [] (VarDecl {| v_isParm := true; v_name := $"a"; v_used := true; v_referenced := true; v_local := false; v_staticMember := false; v_private := false; v_unusedAttr := false; v_defaultArg := false; v_canonicalType := $"int"; v_inTemplate := false; v_contexts := [CxFunction true true false] |} None))] (Some (Node 2 [] (CompoundStmt [(Node 3 [] (ForStmt (Some (Node 4 [] (DeclStmt [(Node 5 [] (VarDecl {| v_isParm := false; v_name := $"i"; v_used := true; v_referenced := true; v_local := true; v_staticMember := false; v_private := false; v_unusedAttr := false; v_defaultArg := false; v_canonicalType := $"int"; v_inTemplate := false; v_contexts := [CxFunction true true false] |} (Some (Node 6 [] (IntegerLiteral (0)%Z)))))]))) [] (Some (Node 7 [] (BinaryOperator BO_Other (Node 8 [] (ImplicitCastExpr CK_LValueToRValue (Node 9 [] (DeclRefExpr 5 $"i" false)))) (Node 10 [] (ImplicitCastExpr CK_LValueToRValue (Node 11 [] (DeclRefExpr 1 $"a" false))))))) (Some (Node 12 [] (UnaryOperator UO_Other (Node 13 [] (DeclRefExpr 5 $"i" false))))) (Node 14 [] (ForStmt (Some (Node 15 [] (DeclStmt [(Node 16 [] (VarDecl {| v_isParm := false; v_name := $"j"; v_used := true; v_referenced := true; v_local := true; v_staticMember := false; v_private := false; v_unusedAttr := false; v_defaultArg := false; v_canonicalType := $"int"; v_inTemplate := false; v_contexts := [CxFunction true true false] |} (Some (Node 17 [] (IntegerLiteral (0)%Z)))))]))) [] (Some (Node 18 [] (BinaryOperator BO_Other (Node 19 [] (ImplicitCastExpr CK_LValueToRValue (Node 20 [] (DeclRefExpr 16 $"j" false)))) (Node 21 [] (ImplicitCastExpr CK_LValueToRValue (Node 22 [] (DeclRefExpr 1 $"a" false))))))) (Some (Node 23 [] (BinaryOperator BO_Other (Node 24 [] (UnaryOperator UO_Other (Node 25 [] (DeclRefExpr 5 $"i" false)))) (Node 26 [] (UnaryOperator UO_Other (Node 27 [] (DeclRefExpr 16 $"j" false))))))) (Node 28 [] (CompoundStmt [(Node 29 [] NullStmt)]))))))]))))))];
     ts_locs := [(1,1,1,88); (1,14,1,18); (1,21,1,88); (1,23,1,86); (1,28,1,37); (1,28,1,36); (1,36,1,36); (1,39,1,43); (1,39,1,39); (1,39,1,39); (1,43,1,43); (1,43,1,43); (1,46,1,47); (1,46,1,46); (1,51,1,86); (1,56,1,65); (1,56,1,64); (1,64,1,64); (1,67,1,71); (1,67,1,67); (1,67,1,67); (1,71,1,71); (1,71,1,71); (1,74,1,80); (1,74,1,75); (1,74,1,74); (1,79,1,80); (1,79,1,79); (1,84,1,86); (1,85,1,85)]%Z;
     ts_evals := []; ts_same := []; ts_decls := []; ts_parents := [] |}.
Example JumbledIncrementer_MultiIncsAreFine_holds : sorted_violations_of (shippedRule sh_JumbledIncrementer) JumbledIncrementer_MultiIncsAreFine = Some [].
Proof. vm_compute. reflexivity. Qed.

(** ** oclint-rules/test/basic/MisplacedNullCheckRuleTest.cpp *)

Definition MisplacedNullCheck_C_CorrectExplicitNullEqCheck : testcase :=
  {| ts_lang := LC; ts_path := $"input.c"; ts_code := [];
     ts_comments := []; ts_conf := [];
     ts_tops := [(toplevel 0 (TOther), (Node 0 [] (OtherDecl []))); (toplevel 1 (TOther), (Node 1 [] (OtherDecl [(Node 2 [] (OtherDecl [])); (Node 3 [] (OtherDecl []))]))); (toplevel 4 (TFunction false), (Node 4 [] (FunctionDecl {| f_name := $"m"; f_method := None; f_isDefinition := true; f_bodyLines := (1)%Z |} [(Node 5 [] (VarDecl {| v_isParm := true; v_name := $"a"; v_used := true; v_referenced := true; v_local := false; v_staticMember := false; v_private := false; v_unusedAttr := false; v_defaultArg := false; v_canonicalType := $"struct A *"; v_inTemplate := false; v_contexts := [CxFunction true true false] |} None)); (Node 6 [] (VarDecl {| v_isParm := true; v_name := $"b"; v_used := false; v_referenced := false; v_local := false; v_staticMember := false; v_private := false; v_unusedAttr := false; v_defaultArg := false; v_canonicalType := $"struct B *"; v_inTemplate := false; v_contexts := [CxFunction true true false] |} None))] (Some (Node 7 [] (CompoundStmt [(Node 8 [] (IfStmt [] (Node 9 [] (BinaryOperator BO_LAnd (Node 10 [] (BinaryOperator BO_NE (Node 11 [] (ImplicitCastExpr CK_LValueToRValue (Node 12 [] (DeclRefExpr 5 $"a" false)))) (Node 13 [] (ImplicitCastExpr CK_NullToPointer (Node 14 [] (ParenExpr (Node 15 [] (CStyleCastExpr CK_NullToPointer (Node 16 [] (IntegerLiteral (0)%Z)))))))))) (Node 17 [] (BinaryOperator BO_EQ (Node 18 [] (ImplicitCastExpr CK_LValueToRValue (Node 19 [] (MemberExpr true (Node 20 [] (ImplicitCastExpr CK_LValueToRValue (Node 21 [] (DeclRefExpr 5 $"a" false)))))))) (Node 22 [] (IntegerLiteral (1)%Z)))))) (Node 23 [] (CompoundStmt [(Node 24 [] NullStmt)])) None))]))))))];
     ts_locs := [(2,1,2,11); (3,1,6,1); (4,5,4,9); (5,5,5,9); (7,1,7,72); (7,8,7,18); (7,21,7,31); (7,34,7,72); (7,36,7,70); (7,40,7,63); (7,40,7,45); (7,40,7,40); (7,40,7,40); (7,45,7,45); (7,45,7,45); (7,45,7,45); (7,45,7,45); (7,53,7,63); (7,53,7,56); (7,53,7,56); (7,53,7,53); (7,53,7,53); (7,63,7,63); (7,66,7,70); (7,68,7,68)]%Z;
     ts_evals := []; ts_same := []; ts_decls := []; ts_parents := [] |}.
Example MisplacedNullCheck_C_CorrectExplicitNullEqCheck_holds : sorted_violations_of (shippedRule sh_MisplacedNullCheck) MisplacedNullCheck_C_CorrectExplicitNullEqCheck = Some [].
Proof. vm_compute. reflexivity. Qed.

Definition MisplacedNullCheck_C_CorrectEzNullEqCheck : testcase :=
  {| ts_lang := LC; ts_path := $"input.c"; ts_code := [];
     ts_comments := []; ts_conf := [];
     ts_tops := [(toplevel 0 (TOther), (Node 0 [] (OtherDecl []))); (toplevel 1 (TOther), (Node 1 [] (OtherDecl [(Node 2 [] (OtherDecl [])); (Node 3 [] (OtherDecl []))]))); (toplevel 4 (TFunction false), (Node 4 [] (FunctionDecl {| f_name := $"m"; f_method := None; f_isDefinition := true; f_bodyLines := (1)%Z |} [(Node 5 [] (VarDecl {| v_isParm := true; v_name := $"a"; v_used := true; v_referenced := true; v_local := false; v_staticMember := false; v_private := false; v_unusedAttr := false; v_defaultArg := false; v_canonicalType := $"struct A *"; v_inTemplate := false; v_contexts := [CxFunction true true false] |} None)); (Node 6 [] (VarDecl {| v_isParm := true; v_name := $"b"; v_used := false; v_referenced := false; v_local := false; v_staticMember := false; v_private := false; v_unusedAttr := false; v_defaultArg := false; v_canonicalType := $"struct B *"; v_inTemplate := false; v_contexts := [CxFunction true true false] |} None))] (Some (Node 7 [] (CompoundStmt [(Node 8 [] (IfStmt [] (Node 9 [] (BinaryOperator BO_LAnd (Node 10 [] (ImplicitCastExpr CK_LValueToRValue (Node 11 [] (DeclRefExpr 5 $"a" false)))) (Node 12 [] (BinaryOperator BO_EQ (Node 13 [] (ImplicitCastExpr CK_LValueToRValue (Node 14 [] (MemberExpr true (Node 15 [] (ImplicitCastExpr CK_LValueToRValue (Node 16 [] (DeclRefExpr 5 $"a" false)))))))) (Node 17 [] (IntegerLiteral (1)%Z)))))) (Node 18 [] (CompoundStmt [(Node 19 [] NullStmt)])) None))]))))))];
     ts_locs := [(2,1,2,11); (3,1,6,1); (4,5,4,9); (5,5,5,9); (7,1,7,64); (7,8,7,18); (7,21,7,31); (7,34,7,64); (7,36,7,62); (7,40,7,55); (7,40,7,40); (7,40,7,40); (7,45,7,55); (7,45,7,48); (7,45,7,48); (7,45,7,45); (7,45,7,45); (7,55,7,55); (7,58,7,62); (7,60,7,60)]%Z;
     ts_evals := []; ts_same := []; ts_decls := []; ts_parents := [] |}.
Example MisplacedNullCheck_C_CorrectEzNullEqCheck_holds : sorted_violations_of (shippedRule sh_MisplacedNullCheck) MisplacedNullCheck_C_CorrectEzNullEqCheck = Some [].
Proof. vm_compute. reflexivity. Qed.

Definition MisplacedNullCheck_C_MisplacedExplicitNullEqCheck : testcase :=
  {| ts_lang := LC; ts_path := $"input.c"; ts_code := [];
     ts_comments := []; ts_conf := [];
     ts_tops := [(toplevel 0 (TOther), (Node 0 [] (OtherDecl []))); (toplevel 1 (TOther), (Node 1 [] (OtherDecl [(Node 2 [] (OtherDecl [])); (Node 3 [] (OtherDecl []))]))); (toplevel 4 (TFunction false), (Node 4 [] (FunctionDecl {| f_name := $"m"; f_method := None; f_isDefinition := true; f_bodyLines := (1)%Z |} [(Node 5 [] (VarDecl {| v_isParm := true; v_name := $"a"; v_used := true; v_referenced := true; v_local := false; v_staticMember := false; v_private := false; v_unusedAttr := false; v_defaultArg := false; v_canonicalType := $"struct A *"; v_inTemplate := false; v_contexts := [CxFunction true true false] |} None)); (Node 6 [] (VarDecl {| v_isParm := true; v_name := $"b"; v_used := false; v_referenced := false; v_local := false; v_staticMember := false; v_private := false; v_unusedAttr := false; v_defaultArg := false; v_canonicalType := $"struct B *"; v_inTemplate := false; v_contexts := [CxFunction true true false] |} None))] (Some (Node 7 [] (CompoundStmt [(Node 8 [] (IfStmt [] (Node 9 [] (BinaryOperator BO_LAnd (Node 10 [] (BinaryOperator BO_EQ (Node 11 [] (ImplicitCastExpr CK_LValueToRValue (Node 12 [] (MemberExpr true (Node 13 [] (ImplicitCastExpr CK_LValueToRValue (Node 14 [] (DeclRefExpr 5 $"a" false)))))))) (Node 15 [] (IntegerLiteral (1)%Z)))) (Node 16 [] (BinaryOperator BO_NE (Node 17 [] (ImplicitCastExpr CK_LValueToRValue (Node 18 [] (DeclRefExpr 5 $"a" false)))) (Node 19 [] (ImplicitCastExpr CK_NullToPointer (Node 20 [] (ParenExpr (Node 21 [] (CStyleCastExpr CK_NullToPointer (Node 22 [] (IntegerLiteral (0)%Z)))))))))))) (Node 23 [] (CompoundStmt [(Node 24 [] NullStmt)])) None))]))))))];
     ts_locs := [(2,1,2,11); (3,1,6,1); (4,5,4,9); (5,5,5,9); (7,1,7,72); (7,8,7,18); (7,21,7,31); (7,34,7,72); (7,36,7,70); (7,40,7,60); (7,40,7,50); (7,40,7,43); (7,40,7,43); (7,40,7,40); (7,40,7,40); (7,50,7,50); (7,55,7,60); (7,55,7,55); (7,55,7,55); (7,60,7,60); (7,60,7,60); (7,60,7,60); (7,60,7,60); (7,66,7,70); (7,68,7,68)]%Z;
     ts_evals := []; ts_same := []; ts_decls := []; ts_parents := [] |}.
Example MisplacedNullCheck_C_MisplacedExplicitNullEqCheck_holds : nth_violation (shippedRule sh_MisplacedNullCheck) MisplacedNullCheck_C_MisplacedExplicitNullEqCheck 0 = Some (7, 40, 7, 60, $"")%Z.
Proof. vm_compute. reflexivity. Qed.

Definition MisplacedNullCheck_C_MisplacedEzNullEqCheck : testcase :=
  {| ts_lang := LC; ts_path := $"input.c"; ts_code := [];
     ts_comments := []; ts_conf := [];
     ts_tops := [(toplevel 0 (TOther), (Node 0 [] (OtherDecl []))); (toplevel 1 (TOther), (Node 1 [] (OtherDecl [(Node 2 [] (OtherDecl [])); (Node 3 [] (OtherDecl []))]))); (toplevel 4 (TFunction false), (Node 4 [] (FunctionDecl {| f_name := $"m"; f_method := None; f_isDefinition := true; f_bodyLines := (1)%Z |} [(Node 5 [] (VarDecl {| v_isParm := true; v_name := $"a"; v_used := true; v_referenced := true; v_local := false; v_staticMember := false; v_private := false; v_unusedAttr := false; v_defaultArg := false; v_canonicalType := $"struct A *"; v_inTemplate := false; v_contexts := [CxFunction true true false] |} None)); (Node 6 [] (VarDecl {| v_isParm := true; v_name := $"b"; v_used := false; v_referenced := false; v_local := false; v_staticMember := false; v_private := false; v_unusedAttr := false; v_defaultArg := false; v_canonicalType := $"struct B *"; v_inTemplate := false; v_contexts := [CxFunction true true false] |} None))] (Some (Node 7 [] (CompoundStmt [(Node 8 [] (IfStmt [] (Node 9 [] (BinaryOperator BO_LAnd (Node 10 [] (BinaryOperator BO_EQ (Node 11 [] (ImplicitCastExpr CK_LValueToRValue (Node 12 [] (MemberExpr true (Node 13 [] (ImplicitCastExpr CK_LValueToRValue (Node 14 [] (DeclRefExpr 5 $"a" false)))))))) (Node 15 [] (IntegerLiteral (1)%Z)))) (Node 16 [] (ImplicitCastExpr CK_LValueToRValue (Node 17 [] (DeclRefExpr 5 $"a" false)))))) (Node 18 [] (CompoundStmt [(Node 19 [] NullStmt)])) None))]))))))];
     ts_locs := [(2,1,2,11); (3,1,6,1); (4,5,4,9); (5,5,5,9); (7,1,7,64); (7,8,7,18); (7,21,7,31); (7,34,7,64); (7,36,7,62); (7,40,7,55); (7,40,7,50); (7,40,7,43); (7,40,7,43); (7,40,7,40); (7,40,7,40); (7,50,7,50); (7,55,7,55); (7,55,7,55); (7,58,7,62); (7,60,7,60)]%Z;
     ts_evals := []; ts_same := []; ts_decls := []; ts_parents := [] |}.
Example MisplacedNullCheck_C_MisplacedEzNullEqCheck_holds : nth_violation (shippedRule sh_MisplacedNullCheck) MisplacedNullCheck_C_MisplacedEzNullEqCheck 0 = Some (7, 40, 7, 55, $"")%Z.
Proof. vm_compute. reflexivity. Qed.

Definition MisplacedNullCheck_C_CorrectExplicitNullNeCheck : testcase :=
  {| ts_lang := LC; ts_path := $"input.c"; ts_code := [];
     ts_comments := []; ts_conf := [];
     ts_tops := [(toplevel 0 (TOther), (Node 0 [] (OtherDecl []))); (toplevel 1 (TOther), (Node 1 [] (OtherDecl [(Node 2 [] (OtherDecl [])); (Node 3 [] (OtherDecl []))]))); (toplevel 4 (TFunction false), (Node 4 [] (FunctionDecl {| f_name := $"m"; f_method := None; f_isDefinition := true; f_bodyLines := (1)%Z |} [(Node 5 [] (VarDecl {| v_isParm := true; v_name := $"a"; v_used := true; v_referenced := true; v_local := false; v_staticMember := false; v_private := false; v_unusedAttr := false; v_defaultArg := false; v_canonicalType := $"struct A *"; v_inTemplate := false; v_contexts := [CxFunction true true false] |} None)); (Node 6 [] (VarDecl {| v_isParm := true; v_name := $"b"; v_used := false; v_referenced := false; v_local := false; v_staticMember := false; v_private := false; v_unusedAttr := false; v_defaultArg := false; v_canonicalType := $"struct B *"; v_inTemplate := false; v_contexts := [CxFunction true true false] |} None))] (Some (Node 7 [] (CompoundStmt [(Node 8 [] (IfStmt [] (Node 9 [] (BinaryOperator BO_LOr (Node 10 [] (BinaryOperator BO_EQ (Node 11 [] (ImplicitCastExpr CK_LValueToRValue (Node 12 [] (DeclRefExpr 5 $"a" false)))) (Node 13 [] (ImplicitCastExpr CK_NullToPointer (Node 14 [] (ParenExpr (Node 15 [] (CStyleCastExpr CK_NullToPointer (Node 16 [] (IntegerLiteral (0)%Z)))))))))) (Node 17 [] (BinaryOperator BO_EQ (Node 18 [] (ImplicitCastExpr CK_LValueToRValue (Node 19 [] (MemberExpr true (Node 20 [] (ImplicitCastExpr CK_LValueToRValue (Node 21 [] (DeclRefExpr 5 $"a" false)))))))) (Node 22 [] (IntegerLiteral (1)%Z)))))) (Node 23 [] (CompoundStmt [(Node 24 [] NullStmt)])) None))]))))))];
     ts_locs := [(2,1,2,11); (3,1,6,1); (4,5,4,9); (5,5,5,9); (7,1,7,72); (7,8,7,18); (7,21,7,31); (7,34,7,72); (7,36,7,70); (7,40,7,63); (7,40,7,45); (7,40,7,40); (7,40,7,40); (7,45,7,45); (7,45,7,45); (7,45,7,45); (7,45,7,45); (7,53,7,63); (7,53,7,56); (7,53,7,56); (7,53,7,53); (7,53,7,53); (7,63,7,63); (7,66,7,70); (7,68,7,68)]%Z;
     ts_evals := []; ts_same := []; ts_decls := []; ts_parents := [] |}.
Example MisplacedNullCheck_C_CorrectExplicitNullNeCheck_holds : sorted_violations_of (shippedRule sh_MisplacedNullCheck) MisplacedNullCheck_C_CorrectExplicitNullNeCheck = Some [].
Proof. vm_compute. reflexivity. Qed.

Definition MisplacedNullCheck_C_CorrectEzNullNeCheck : testcase :=
  {| ts_lang := LC; ts_path := $"input.c"; ts_code := [];
     ts_comments := []; ts_conf := [];
     ts_tops := [(toplevel 0 (TOther), (Node 0 [] (OtherDecl []))); (toplevel 1 (TOther), (Node 1 [] (OtherDecl [(Node 2 [] (OtherDecl [])); (Node 3 [] (OtherDecl []))]))); (toplevel 4 (TFunction false), (Node 4 [] (FunctionDecl {| f_name := $"m"; f_method := None; f_isDefinition := true; f_bodyLines := (1)%Z |} [(Node 5 [] (VarDecl {| v_isParm := true; v_name := $"a"; v_used := true; v_referenced := true; v_local := false; v_staticMember := false; v_private := false; v_unusedAttr := false; v_defaultArg := false; v_canonicalType := $"struct A *"; v_inTemplate := false; v_contexts := [CxFunction true true false] |} None)); (Node 6 [] (VarDecl {| v_isParm := true; v_name := $"b"; v_used := false; v_referenced := false; v_local := false; v_staticMember := false; v_private := false; v_unusedAttr := false; v_defaultArg := false; v_canonicalType := $"struct B *"; v_inTemplate := false; v_contexts := [CxFunction true true false] |} None))] (Some (Node 7 [] (CompoundStmt [(Node 8 [] (IfStmt [] (Node 9 [] (BinaryOperator BO_LOr (Node 10 [] (UnaryOperator UO_LNot (Node 11 [] (ImplicitCastExpr CK_LValueToRValue (Node 12 [] (DeclRefExpr 5 $"a" false)))))) (Node 13 [] (BinaryOperator BO_EQ (Node 14 [] (ImplicitCastExpr CK_LValueToRValue (Node 15 [] (MemberExpr true (Node 16 [] (ImplicitCastExpr CK_LValueToRValue (Node 17 [] (DeclRefExpr 5 $"a" false)))))))) (Node 18 [] (IntegerLiteral (1)%Z)))))) (Node 19 [] (CompoundStmt [(Node 20 [] NullStmt)])) None))]))))))];
     ts_locs := [(2,1,2,11); (3,1,6,1); (4,5,4,9); (5,5,5,9); (7,1,7,65); (7,8,7,18); (7,21,7,31); (7,34,7,65); (7,36,7,63); (7,40,7,56); (7,40,7,41); (7,41,7,41); (7,41,7,41); (7,46,7,56); (7,46,7,49); (7,46,7,49); (7,46,7,46); (7,46,7,46); (7,56,7,56); (7,59,7,63); (7,61,7,61)]%Z;
     ts_evals := []; ts_same := []; ts_decls := []; ts_parents := [] |}.
Example MisplacedNullCheck_C_CorrectEzNullNeCheck_holds : sorted_violations_of (shippedRule sh_MisplacedNullCheck) MisplacedNullCheck_C_CorrectEzNullNeCheck = Some [].
Proof. vm_compute. reflexivity. Qed.

Definition MisplacedNullCheck_C_MisplacedExplicitNullNeCheck : testcase :=
  {| ts_lang := LC; ts_path := $"input.c"; ts_code := [];
     ts_comments := []; ts_conf := [];
     ts_tops := [(toplevel 0 (TOther), (Node 0 [] (OtherDecl []))); (toplevel 1 (TOther), (Node 1 [] (OtherDecl [(Node 2 [] (OtherDecl [])); (Node 3 [] (OtherDecl []))]))); (toplevel 4 (TFunction false), (Node 4 [] (FunctionDecl {| f_name := $"m"; f_method := None; f_isDefinition := true; f_bodyLines := (1)%Z |} [(Node 5 [] (VarDecl {| v_isParm := true; v_name := $"a"; v_used := true; v_referenced := true; v_local := false; v_staticMember := false; v_private := false; v_unusedAttr := false; v_defaultArg := false; v_canonicalType := $"struct A *"; v_inTemplate := false; v_contexts := [CxFunction true true false] |} None)); (Node 6 [] (VarDecl {| v_isParm := true; v_name := $"b"; v_used := false; v_referenced := false; v_local := false; v_staticMember := false; v_private := false; v_unusedAttr := false; v_defaultArg := false; v_canonicalType := $"struct B *"; v_inTemplate := false; v_contexts := [CxFunction true true false] |} None))] (Some (Node 7 [] (CompoundStmt [(Node 8 [] (IfStmt [] (Node 9 [] (BinaryOperator BO_LOr (Node 10 [] (BinaryOperator BO_EQ (Node 11 [] (ImplicitCastExpr CK_LValueToRValue (Node 12 [] (MemberExpr true (Node 13 [] (ImplicitCastExpr CK_LValueToRValue (Node 14 [] (DeclRefExpr 5 $"a" false)))))))) (Node 15 [] (IntegerLiteral (1)%Z)))) (Node 16 [] (BinaryOperator BO_EQ (Node 17 [] (ImplicitCastExpr CK_LValueToRValue (Node 18 [] (DeclRefExpr 5 $"a" false)))) (Node 19 [] (ImplicitCastExpr CK_NullToPointer (Node 20 [] (ParenExpr (Node 21 [] (CStyleCastExpr CK_NullToPointer (Node 22 [] (IntegerLiteral (0)%Z)))))))))))) (Node 23 [] (CompoundStmt [(Node 24 [] NullStmt)])) None))]))))))];
     ts_locs := [(2,1,2,11); (3,1,6,1); (4,5,4,9); (5,5,5,9); (7,1,7,72); (7,8,7,18); (7,21,7,31); (7,34,7,72); (7,36,7,70); (7,40,7,60); (7,40,7,50); (7,40,7,43); (7,40,7,43); (7,40,7,40); (7,40,7,40); (7,50,7,50); (7,55,7,60); (7,55,7,55); (7,55,7,55); (7,60,7,60); (7,60,7,60); (7,60,7,60); (7,60,7,60); (7,66,7,70); (7,68,7,68)]%Z;
     ts_evals := []; ts_same := []; ts_decls := []; ts_parents := [] |}.
Example MisplacedNullCheck_C_MisplacedExplicitNullNeCheck_holds : nth_violation (shippedRule sh_MisplacedNullCheck) MisplacedNullCheck_C_MisplacedExplicitNullNeCheck 0 = Some (7, 40, 7, 60, $"")%Z.
Proof. vm_compute. reflexivity. Qed.

Definition MisplacedNullCheck_C_MisplacedEzNullNeCheck : testcase :=
  {| ts_lang := LC; ts_path := $"input.c"; ts_code := [];
     ts_comments := []; ts_conf := [];
     ts_tops := [(toplevel 0 (TOther), (Node 0 [] (OtherDecl []))); (toplevel 1 (TOther), (Node 1 [] (OtherDecl [(Node 2 [] (OtherDecl [])); (Node 3 [] (OtherDecl []))]))); (toplevel 4 (TFunction false), (Node 4 [] (FunctionDecl {| f_name := $"m"; f_method := None; f_isDefinition := true; f_bodyLines := (1)%Z |} [(Node 5 [] (VarDecl {| v_isParm := true; v_name := $"a"; v_used := true; v_referenced := true; v_local := false; v_staticMember := false; v_private := false; v_unusedAttr := false; v_defaultArg := false; v_canonicalType := $"struct A *"; v_inTemplate := false; v_contexts := [CxFunction true true false] |} None)); (Node 6 [] (VarDecl {| v_isParm := true; v_name := $"b"; v_used := false; v_referenced := false; v_local := false; v_staticMember := false; v_private := false; v_unusedAttr := false; v_defaultArg := false; v_canonicalType := $"struct B *"; v_inTemplate := false; v_contexts := [CxFunction true true false] |} None))] (Some (Node 7 [] (CompoundStmt [(Node 8 [] (IfStmt [] (Node 9 [] (BinaryOperator BO_LOr (Node 10 [] (BinaryOperator BO_EQ (Node 11 [] (ImplicitCastExpr CK_LValueToRValue (Node 12 [] (MemberExpr true (Node 13 [] (ImplicitCastExpr CK_LValueToRValue (Node 14 [] (DeclRefExpr 5 $"a" false)))))))) (Node 15 [] (IntegerLiteral (1)%Z)))) (Node 16 [] (UnaryOperator UO_LNot (Node 17 [] (ImplicitCastExpr CK_LValueToRValue (Node 18 [] (DeclRefExpr 5 $"a" false)))))))) (Node 19 [] (CompoundStmt [(Node 20 [] NullStmt)])) None))]))))))];
     ts_locs := [(2,1,2,11); (3,1,6,1); (4,5,4,9); (5,5,5,9); (7,1,7,65); (7,8,7,18); (7,21,7,31); (7,34,7,65); (7,36,7,63); (7,40,7,56); (7,40,7,50); (7,40,7,43); (7,40,7,43); (7,40,7,40); (7,40,7,40); (7,50,7,50); (7,55,7,56); (7,56,7,56); (7,56,7,56); (7,59,7,63); (7,61,7,61)]%Z;
     ts_evals := []; ts_same := []; ts_decls := []; ts_parents := [] |}.
Example MisplacedNullCheck_C_MisplacedEzNullNeCheck_holds : nth_violation (shippedRule sh_MisplacedNullCheck) MisplacedNullCheck_C_MisplacedEzNullNeCheck 0 = Some (7, 40, 7, 56, $"")%Z.
Proof. vm_compute. reflexivity. Qed.

Definition MisplacedNullCheck_Cpp_CorrectExplicitNullEqCheck : testcase :=
  {| ts_lang := LCXX; ts_path := $"input.cpp"; ts_code := [];
     ts_comments := []; ts_conf := [];
     ts_tops := [(toplevel 0 (TOther), (Node 0 [] (CXXRecordDecl {| r_class := (CxxRecord 0 $"B" true false None []); r_fields := 0; r_methods := 0; r_lines := (1)%Z |} []))); (toplevel 1 (TOther), (Node 1 [] (CXXRecordDecl {| r_class := (CxxRecord 1 $"A" true false None []); r_fields := 0; r_methods := 2; r_lines := (5)%Z |} [(Node 2 [] (FunctionDecl {| f_name := $"foo"; f_method := (Some {| cm_virtual := false; cm_static := false; cm_private := false; cm_inRecord := true |}); f_isDefinition := false; f_bodyLines := (0)%Z |} [(Node 3 [] (VarDecl {| v_isParm := true; v_name := $"f"; v_used := false; v_referenced := false; v_local := false; v_staticMember := false; v_private := false; v_unusedAttr := false; v_defaultArg := false; v_canonicalType := $"A *"; v_inTemplate := false; v_contexts := [CxFunction false false false; CxRecord] |} None))] None)); (Node 4 [] (FunctionDecl {| f_name := $"bar"; f_method := (Some {| cm_virtual := false; cm_static := false; cm_private := false; cm_inRecord := true |}); f_isDefinition := false; f_bodyLines := (0)%Z |} [(Node 5 [] (VarDecl {| v_isParm := true; v_name := $"b"; v_used := false; v_referenced := false; v_local := false; v_staticMember := false; v_private := false; v_unusedAttr := false; v_defaultArg := false; v_canonicalType := $"B *"; v_inTemplate := false; v_contexts := [CxFunction false false false; CxRecord] |} None))] None))]))); (toplevel 6 (TFunction false), (Node 6 [] (FunctionDecl {| f_name := $"m"; f_method := None; f_isDefinition := true; f_bodyLines := (1)%Z |} [(Node 7 [] (VarDecl {| v_isParm := true; v_name := $"a"; v_used := true; v_referenced := true; v_local := false; v_staticMember := false; v_private := false; v_unusedAttr := false; v_defaultArg := false; v_canonicalType := $"A *"; v_inTemplate := false; v_contexts := [CxFunction true true false] |} None)); (Node 8 [] (VarDecl {| v_isParm := true; v_name := $"b"; v_used := true; v_referenced := true; v_local := false; v_staticMember := false; v_private := false; v_unusedAttr := false; v_defaultArg := false; v_canonicalType := $"B *"; v_inTemplate := false; v_contexts := [CxFunction true true false] |} None))] (Some (Node 9 [] (CompoundStmt [(Node 10 [] (IfStmt [] (Node 11 [] (BinaryOperator BO_LAnd (Node 12 [] (BinaryOperator BO_NE (Node 13 [] (ImplicitCastExpr CK_LValueToRValue (Node 14 [] (DeclRefExpr 7 $"a" false)))) (Node 15 [] (ImplicitCastExpr CK_NullToPointer (Node 16 [] (IntegerLiteral (0)%Z)))))) (Node 17 [] (CallExpr (Some ($"bar", Decl [] None)) (Node 18 [] (MemberExpr true (Node 19 [] (ImplicitCastExpr CK_LValueToRValue (Node 20 [] (DeclRefExpr 7 $"a" false)))))) [(Node 21 [] (ImplicitCastExpr CK_LValueToRValue (Node 22 [] (DeclRefExpr 8 $"b" false))))])))) (Node 23 [] (CompoundStmt [(Node 24 [] NullStmt)])) None))]))))))];
     ts_locs := [(2,1,2,10); (3,1,7,1); (5,5,5,18); (5,14,5,17); (6,5,6,18); (6,14,6,17); (8,1,8,56); (8,8,8,11); (8,14,8,17); (8,20,8,56); (8,22,8,54); (8,26,8,47); (8,26,8,31); (8,26,8,26); (8,26,8,26); (8,31,8,31); (8,31,8,31); (8,39,8,47); (8,39,8,42); (8,39,8,39); (8,39,8,39); (8,46,8,46); (8,46,8,46); (8,50,8,54); (8,52,8,52)]%Z;
     ts_evals := []; ts_same := []; ts_decls := []; ts_parents := [] |}.
Example MisplacedNullCheck_Cpp_CorrectExplicitNullEqCheck_holds : sorted_violations_of (shippedRule sh_MisplacedNullCheck) MisplacedNullCheck_Cpp_CorrectExplicitNullEqCheck = Some [].
Proof. vm_compute. reflexivity. Qed.

Definition MisplacedNullCheck_Cpp_CorrectEzNullEqCheck : testcase :=
  {| ts_lang := LCXX; ts_path := $"input.cpp"; ts_code := [];
     ts_comments := []; ts_conf := [];
     ts_tops := [(toplevel 0 (TOther), (Node 0 [] (CXXRecordDecl {| r_class := (CxxRecord 0 $"B" true false None []); r_fields := 0; r_methods := 0; r_lines := (1)%Z |} []))); (toplevel 1 (TOther), (Node 1 [] (CXXRecordDecl {| r_class := (CxxRecord 1 $"A" true false None []); r_fields := 0; r_methods := 2; r_lines := (5)%Z |} [(Node 2 [] (FunctionDecl {| f_name := $"foo"; f_method := (Some {| cm_virtual := false; cm_static := false; cm_private := false; cm_inRecord := true |}); f_isDefinition := false; f_bodyLines := (0)%Z |} [(Node 3 [] (VarDecl {| v_isParm := true; v_name := $"f"; v_used := false; v_referenced := false; v_local := false; v_staticMember := false; v_private := false; v_unusedAttr := false; v_defaultArg := false; v_canonicalType := $"A *"; v_inTemplate := false; v_contexts := [CxFunction false false false; CxRecord] |} None))] None)); (Node 4 [] (FunctionDecl {| f_name := $"bar"; f_method := (Some {| cm_virtual := false; cm_static := false; cm_private := false; cm_inRecord := true |}); f_isDefinition := false; f_bodyLines := (0)%Z |} [(Node 5 [] (VarDecl {| v_isParm := true; v_name := $"b"; v_used := false; v_referenced := false; v_local := false; v_staticMember := false; v_private := false; v_unusedAttr := false; v_defaultArg := false; v_canonicalType := $"B *"; v_inTemplate := false; v_contexts := [CxFunction false false false; CxRecord] |} None))] None))]))); (toplevel 6 (TFunction false), (Node 6 [] (FunctionDecl {| f_name := $"m"; f_method := None; f_isDefinition := true; f_bodyLines := (1)%Z |} [(Node 7 [] (VarDecl {| v_isParm := true; v_name := $"a"; v_used := true; v_referenced := true; v_local := false; v_staticMember := false; v_private := false; v_unusedAttr := false; v_defaultArg := false; v_canonicalType := $"A *"; v_inTemplate := false; v_contexts := [CxFunction true true false] |} None)); (Node 8 [] (VarDecl {| v_isParm := true; v_name := $"b"; v_used := true; v_referenced := true; v_local := false; v_staticMember := false; v_private := false; v_unusedAttr := false; v_defaultArg := false; v_canonicalType := $"B *"; v_inTemplate := false; v_contexts := [CxFunction true true false] |} None))] (Some (Node 9 [] (CompoundStmt [(Node 10 [] (IfStmt [] (Node 11 [] (BinaryOperator BO_LAnd (Node 12 [] (ImplicitCastExpr CK_PointerToBoolean (Node 13 [] (ImplicitCastExpr CK_LValueToRValue (Node 14 [] (DeclRefExpr 7 $"a" false)))))) (Node 15 [] (CallExpr (Some ($"bar", Decl [] None)) (Node 16 [] (MemberExpr true (Node 17 [] (ImplicitCastExpr CK_LValueToRValue (Node 18 [] (DeclRefExpr 7 $"a" false)))))) [(Node 19 [] (ImplicitCastExpr CK_LValueToRValue (Node 20 [] (DeclRefExpr 8 $"b" false))))])))) (Node 21 [] (CompoundStmt [(Node 22 [] NullStmt)])) None))]))))))];
     ts_locs := [(2,1,2,10); (3,1,7,1); (5,5,5,18); (5,14,5,17); (6,5,6,18); (6,14,6,17); (8,1,8,48); (8,8,8,11); (8,14,8,17); (8,20,8,48); (8,22,8,46); (8,26,8,39); (8,26,8,26); (8,26,8,26); (8,26,8,26); (8,31,8,39); (8,31,8,34); (8,31,8,31); (8,31,8,31); (8,38,8,38); (8,38,8,38); (8,42,8,46); (8,44,8,44)]%Z;
     ts_evals := []; ts_same := []; ts_decls := []; ts_parents := [] |}.
Example MisplacedNullCheck_Cpp_CorrectEzNullEqCheck_holds : sorted_violations_of (shippedRule sh_MisplacedNullCheck) MisplacedNullCheck_Cpp_CorrectEzNullEqCheck = Some [].
Proof. vm_compute. reflexivity. Qed.

Definition MisplacedNullCheck_Cpp_MisplacedExplicitNullEqCheck : testcase :=
  {| ts_lang := LCXX; ts_path := $"input.cpp"; ts_code := [];
     ts_comments := []; ts_conf := [];
     ts_tops := [(toplevel 0 (TOther), (Node 0 [] (CXXRecordDecl {| r_class := (CxxRecord 0 $"B" true false None []); r_fields := 0; r_methods := 0; r_lines := (1)%Z |} []))); (toplevel 1 (TOther), (Node 1 [] (CXXRecordDecl {| r_class := (CxxRecord 1 $"A" true false None []); r_fields := 0; r_methods := 2; r_lines := (5)%Z |} [(Node 2 [] (FunctionDecl {| f_name := $"foo"; f_method := (Some {| cm_virtual := false; cm_static := false; cm_private := false; cm_inRecord := true |}); f_isDefinition := false; f_bodyLines := (0)%Z |} [(Node 3 [] (VarDecl {| v_isParm := true; v_name := $"f"; v_used := false; v_referenced := false; v_local := false; v_staticMember := false; v_private := false; v_unusedAttr := false; v_defaultArg := false; v_canonicalType := $"A *"; v_inTemplate := false; v_contexts := [CxFunction false false false; CxRecord] |} None))] None)); (Node 4 [] (FunctionDecl {| f_name := $"bar"; f_method := (Some {| cm_virtual := false; cm_static := false; cm_private := false; cm_inRecord := true |}); f_isDefinition := false; f_bodyLines := (0)%Z |} [(Node 5 [] (VarDecl {| v_isParm := true; v_name := $"b"; v_used := false; v_referenced := false; v_local := false; v_staticMember := false; v_private := false; v_unusedAttr := false; v_defaultArg := false; v_canonicalType := $"B *"; v_inTemplate := false; v_contexts := [CxFunction false false false; CxRecord] |} None))] None))]))); (toplevel 6 (TFunction false), (Node 6 [] (FunctionDecl {| f_name := $"m"; f_method := None; f_isDefinition := true; f_bodyLines := (1)%Z |} [(Node 7 [] (VarDecl {| v_isParm := true; v_name := $"a"; v_used := true; v_referenced := true; v_local := false; v_staticMember := false; v_private := false; v_unusedAttr := false; v_defaultArg := false; v_canonicalType := $"A *"; v_inTemplate := false; v_contexts := [CxFunction true true false] |} None)); (Node 8 [] (VarDecl {| v_isParm := true; v_name := $"b"; v_used := true; v_referenced := true; v_local := false; v_staticMember := false; v_private := false; v_unusedAttr := false; v_defaultArg := false; v_canonicalType := $"B *"; v_inTemplate := false; v_contexts := [CxFunction true true false] |} None))] (Some (Node 9 [] (CompoundStmt [(Node 10 [] (IfStmt [] (Node 11 [] (BinaryOperator BO_LAnd (Node 12 [] (CallExpr (Some ($"bar", Decl [] None)) (Node 13 [] (MemberExpr true (Node 14 [] (ImplicitCastExpr CK_LValueToRValue (Node 15 [] (DeclRefExpr 7 $"a" false)))))) [(Node 16 [] (ImplicitCastExpr CK_LValueToRValue (Node 17 [] (DeclRefExpr 8 $"b" false))))])) (Node 18 [] (BinaryOperator BO_NE (Node 19 [] (ImplicitCastExpr CK_LValueToRValue (Node 20 [] (DeclRefExpr 7 $"a" false)))) (Node 21 [] (ImplicitCastExpr CK_NullToPointer (Node 22 [] (IntegerLiteral (0)%Z)))))))) (Node 23 [] (CompoundStmt [(Node 24 [] NullStmt)])) None))]))))))];
     ts_locs := [(2,1,2,10); (3,1,7,1); (5,5,5,18); (5,14,5,17); (6,5,6,18); (6,14,6,17); (8,1,8,56); (8,8,8,11); (8,14,8,17); (8,20,8,56); (8,22,8,54); (8,26,8,44); (8,26,8,34); (8,26,8,29); (8,26,8,26); (8,26,8,26); (8,33,8,33); (8,33,8,33); (8,39,8,44); (8,39,8,39); (8,39,8,39); (8,44,8,44); (8,44,8,44); (8,50,8,54); (8,52,8,52)]%Z;
     ts_evals := []; ts_same := []; ts_decls := []; ts_parents := [] |}.
Example MisplacedNullCheck_Cpp_MisplacedExplicitNullEqCheck_holds : nth_violation (shippedRule sh_MisplacedNullCheck) MisplacedNullCheck_Cpp_MisplacedExplicitNullEqCheck 0 = Some (8, 26, 8, 44, $"")%Z.
Proof. vm_compute. reflexivity. Qed.

Definition MisplacedNullCheck_Cpp_MisplacedEzNullEqCheck : testcase :=
  {| ts_lang := LCXX; ts_path := $"input.cpp"; ts_code := [];
     ts_comments := []; ts_conf := [];
     ts_tops := [(toplevel 0 (TOther), (Node 0 [] (CXXRecordDecl {| r_class := (CxxRecord 0 $"B" true false None []); r_fields := 0; r_methods := 0; r_lines := (1)%Z |} []))); (toplevel 1 (TOther), (Node 1 [] (CXXRecordDecl {| r_class := (CxxRecord 1 $"A" true false None []); r_fields := 0; r_methods := 2; r_lines := (5)%Z |} [(Node 2 [] (FunctionDecl {| f_name := $"foo"; f_method := (Some {| cm_virtual := false; cm_static := false; cm_private := false; cm_inRecord := true |}); f_isDefinition := false; f_bodyLines := (0)%Z |} [(Node 3 [] (VarDecl {| v_isParm := true; v_name := $"f"; v_used := false; v_referenced := false; v_local := false; v_staticMember := false; v_private := false; v_unusedAttr := false; v_defaultArg := false; v_canonicalType := $"A *"; v_inTemplate := false; v_contexts := [CxFunction false false false; CxRecord] |} None))] None)); (Node 4 [] (FunctionDecl {| f_name := $"bar"; f_method := (Some {| cm_virtual := false; cm_static := false; cm_private := false; cm_inRecord := true |}); f_isDefinition := false; f_bodyLines := (0)%Z |} [(Node 5 [] (VarDecl {| v_isParm := true; v_name := $"b"; v_used := false; v_referenced := false; v_local := false; v_staticMember := false; v_private := false; v_unusedAttr := false; v_defaultArg := false; v_canonicalType := $"B *"; v_inTemplate := false; v_contexts := [CxFunction false false false; CxRecord] |} None))] None))]))); (toplevel 6 (TFunction false), (Node 6 [] (FunctionDecl {| f_name := $"m"; f_method := None; f_isDefinition := true; f_bodyLines := (1)%Z |} [(Node 7 [] (VarDecl {| v_isParm := true; v_name := $"a"; v_used := true; v_referenced := true; v_local := false; v_staticMember := false; v_private := false; v_unusedAttr := false; v_defaultArg := false; v_canonicalType := $"A *"; v_inTemplate := false; v_contexts := [CxFunction true true false] |} None)); (Node 8 [] (VarDecl {| v_isParm := true; v_name := $"b"; v_used := true; v_referenced := true; v_local := false; v_staticMember := false; v_private := false; v_unusedAttr := false; v_defaultArg := false; v_canonicalType := $"B *"; v_inTemplate := false; v_contexts := [CxFunction true true false] |} None))] (Some (Node 9 [] (CompoundStmt [(Node 10 [] (IfStmt [] (Node 11 [] (BinaryOperator BO_LAnd (Node 12 [] (CallExpr (Some ($"bar", Decl [] None)) (Node 13 [] (MemberExpr true (Node 14 [] (ImplicitCastExpr CK_LValueToRValue (Node 15 [] (DeclRefExpr 7 $"a" false)))))) [(Node 16 [] (ImplicitCastExpr CK_LValueToRValue (Node 17 [] (DeclRefExpr 8 $"b" false))))])) (Node 18 [] (ImplicitCastExpr CK_PointerToBoolean (Node 19 [] (ImplicitCastExpr CK_LValueToRValue (Node 20 [] (DeclRefExpr 7 $"a" false)))))))) (Node 21 [] (CompoundStmt [(Node 22 [] NullStmt)])) None))]))))))];
     ts_locs := [(2,1,2,10); (3,1,7,1); (5,5,5,18); (5,14,5,17); (6,5,6,18); (6,14,6,17); (8,1,8,48); (8,8,8,11); (8,14,8,17); (8,20,8,48); (8,22,8,46); (8,26,8,39); (8,26,8,34); (8,26,8,29); (8,26,8,26); (8,26,8,26); (8,33,8,33); (8,33,8,33); (8,39,8,39); (8,39,8,39); (8,39,8,39); (8,42,8,46); (8,44,8,44)]%Z;
     ts_evals := []; ts_same := []; ts_decls := []; ts_parents := [] |}.
Example MisplacedNullCheck_Cpp_MisplacedEzNullEqCheck_holds : nth_violation (shippedRule sh_MisplacedNullCheck) MisplacedNullCheck_Cpp_MisplacedEzNullEqCheck 0 = Some (8, 26, 8, 39, $"")%Z.
Proof. vm_compute. reflexivity. Qed.

Definition MisplacedNullCheck_Cpp_CorrectExplicitNullNeCheck : testcase :=
  {| ts_lang := LCXX; ts_path := $"input.cpp"; ts_code := [];
     ts_comments := []; ts_conf := [];
     ts_tops := [(toplevel 0 (TOther), (Node 0 [] (CXXRecordDecl {| r_class := (CxxRecord 0 $"B" true false None []); r_fields := 0; r_methods := 0; r_lines := (1)%Z |} []))); (toplevel 1 (TOther), (Node 1 [] (CXXRecordDecl {| r_class := (CxxRecord 1 $"A" true false None []); r_fields := 0; r_methods := 2; r_lines := (5)%Z |} [(Node 2 [] (FunctionDecl {| f_name := $"foo"; f_method := (Some {| cm_virtual := false; cm_static := false; cm_private := false; cm_inRecord := true |}); f_isDefinition := false; f_bodyLines := (0)%Z |} [(Node 3 [] (VarDecl {| v_isParm := true; v_name := $"f"; v_used := false; v_referenced := false; v_local := false; v_staticMember := false; v_private := false; v_unusedAttr := false; v_defaultArg := false; v_canonicalType := $"A *"; v_inTemplate := false; v_contexts := [CxFunction false false false; CxRecord] |} None))] None)); (Node 4 [] (FunctionDecl {| f_name := $"bar"; f_method := (Some {| cm_virtual := false; cm_static := false; cm_private := false; cm_inRecord := true |}); f_isDefinition := false; f_bodyLines := (0)%Z |} [(Node 5 [] (VarDecl {| v_isParm := true; v_name := $"b"; v_used := false; v_referenced := false; v_local := false; v_staticMember := false; v_private := false; v_unusedAttr := false; v_defaultArg := false; v_canonicalType := $"B *"; v_inTemplate := false; v_contexts := [CxFunction false false false; CxRecord] |} None))] None))]))); (toplevel 6 (TFunction false), (Node 6 [] (FunctionDecl {| f_name := $"m"; f_method := None; f_isDefinition := true; f_bodyLines := (1)%Z |} [(Node 7 [] (VarDecl {| v_isParm := true; v_name := $"a"; v_used := true; v_referenced := true; v_local := false; v_staticMember := false; v_private := false; v_unusedAttr := false; v_defaultArg := false; v_canonicalType := $"A *"; v_inTemplate := false; v_contexts := [CxFunction true true false] |} None)); (Node 8 [] (VarDecl {| v_isParm := true; v_name := $"b"; v_used := true; v_referenced := true; v_local := false; v_staticMember := false; v_private := false; v_unusedAttr := false; v_defaultArg := false; v_canonicalType := $"B *"; v_inTemplate := false; v_contexts := [CxFunction true true false] |} None))] (Some (Node 9 [] (CompoundStmt [(Node 10 [] (IfStmt [] (Node 11 [] (BinaryOperator BO_LOr (Node 12 [] (BinaryOperator BO_EQ (Node 13 [] (ImplicitCastExpr CK_LValueToRValue (Node 14 [] (DeclRefExpr 7 $"a" false)))) (Node 15 [] (ImplicitCastExpr CK_NullToPointer (Node 16 [] (IntegerLiteral (0)%Z)))))) (Node 17 [] (CallExpr (Some ($"bar", Decl [] None)) (Node 18 [] (MemberExpr true (Node 19 [] (ImplicitCastExpr CK_LValueToRValue (Node 20 [] (DeclRefExpr 7 $"a" false)))))) [(Node 21 [] (ImplicitCastExpr CK_LValueToRValue (Node 22 [] (DeclRefExpr 8 $"b" false))))])))) (Node 23 [] (CompoundStmt [(Node 24 [] NullStmt)])) None))]))))))];
     ts_locs := [(2,1,2,10); (3,1,7,1); (5,5,5,18); (5,14,5,17); (6,5,6,18); (6,14,6,17); (8,1,8,56); (8,8,8,11); (8,14,8,17); (8,20,8,56); (8,22,8,54); (8,26,8,47); (8,26,8,31); (8,26,8,26); (8,26,8,26); (8,31,8,31); (8,31,8,31); (8,39,8,47); (8,39,8,42); (8,39,8,39); (8,39,8,39); (8,46,8,46); (8,46,8,46); (8,50,8,54); (8,52,8,52)]%Z;
     ts_evals := []; ts_same := []; ts_decls := []; ts_parents := [] |}.
Example MisplacedNullCheck_Cpp_CorrectExplicitNullNeCheck_holds : sorted_violations_of (shippedRule sh_MisplacedNullCheck) MisplacedNullCheck_Cpp_CorrectExplicitNullNeCheck = Some [].
Proof. vm_compute. reflexivity. Qed.

Definition MisplacedNullCheck_Cpp_CorrectEzNullNeCheck : testcase :=
  {| ts_lang := LCXX; ts_path := $"input.cpp"; ts_code := [];
     ts_comments := []; ts_conf := [];
     ts_tops := [(toplevel 0 (TOther), (Node 0 [] (CXXRecordDecl {| r_class := (CxxRecord 0 $"B" true false None []); r_fields := 0; r_methods := 0; r_lines := (1)%Z |} []))); (toplevel 1 (TOther), (Node 1 [] (CXXRecordDecl {| r_class := (CxxRecord 1 $"A" true false None []); r_fields := 0; r_methods := 2; r_lines := (5)%Z |} [(Node 2 [] (FunctionDecl {| f_name := $"foo"; f_method := (Some {| cm_virtual := false; cm_static := false; cm_private := false; cm_inRecord := true |}); f_isDefinition := false; f_bodyLines := (0)%Z |} [(Node 3 [] (VarDecl {| v_isParm := true; v_name := $"f"; v_used := false; v_referenced := false; v_local := false; v_staticMember := false; v_private := false; v_unusedAttr := false; v_defaultArg := false; v_canonicalType := $"A *"; v_inTemplate := false; v_contexts := [CxFunction false false false; CxRecord] |} None))] None)); (Node 4 [] (FunctionDecl {| f_name := $"bar"; f_method := (Some {| cm_virtual := false; cm_static := false; cm_private := false; cm_inRecord := true |}); f_isDefinition := false; f_bodyLines := (0)%Z |} [(Node 5 [] (VarDecl {| v_isParm := true; v_name := $"b"; v_used := false; v_referenced := false; v_local := false; v_staticMember := false; v_private := false; v_unusedAttr := false; v_defaultArg := false; v_canonicalType := $"B *"; v_inTemplate := false; v_contexts := [CxFunction false false false; CxRecord] |} None))] None))]))); (toplevel 6 (TFunction false), (Node 6 [] (FunctionDecl {| f_name := $"m"; f_method := None; f_isDefinition := true; f_bodyLines := (1)%Z |} [(Node 7 [] (VarDecl {| v_isParm := true; v_name := $"a"; v_used := true; v_referenced := true; v_local := false; v_staticMember := false; v_private := false; v_unusedAttr := false; v_defaultArg := false; v_canonicalType := $"A *"; v_inTemplate := false; v_contexts := [CxFunction true true false] |} None)); (Node 8 [] (VarDecl {| v_isParm := true; v_name := $"b"; v_used := true; v_referenced := true; v_local := false; v_staticMember := false; v_private := false; v_unusedAttr := false; v_defaultArg := false; v_canonicalType := $"B *"; v_inTemplate := false; v_contexts := [CxFunction true true false] |} None))] (Some (Node 9 [] (CompoundStmt [(Node 10 [] (IfStmt [] (Node 11 [] (BinaryOperator BO_LOr (Node 12 [] (UnaryOperator UO_LNot (Node 13 [] (ImplicitCastExpr CK_PointerToBoolean (Node 14 [] (ImplicitCastExpr CK_LValueToRValue (Node 15 [] (DeclRefExpr 7 $"a" false)))))))) (Node 16 [] (CallExpr (Some ($"bar", Decl [] None)) (Node 17 [] (MemberExpr true (Node 18 [] (ImplicitCastExpr CK_LValueToRValue (Node 19 [] (DeclRefExpr 7 $"a" false)))))) [(Node 20 [] (ImplicitCastExpr CK_LValueToRValue (Node 21 [] (DeclRefExpr 8 $"b" false))))])))) (Node 22 [] (CompoundStmt [(Node 23 [] NullStmt)])) None))]))))))];
     ts_locs := [(2,1,2,10); (3,1,7,1); (5,5,5,18); (5,14,5,17); (6,5,6,18); (6,14,6,17); (8,1,8,49); (8,8,8,11); (8,14,8,17); (8,20,8,49); (8,22,8,47); (8,26,8,40); (8,26,8,27); (8,27,8,27); (8,27,8,27); (8,27,8,27); (8,32,8,40); (8,32,8,35); (8,32,8,32); (8,32,8,32); (8,39,8,39); (8,39,8,39); (8,43,8,47); (8,45,8,45)]%Z;
     ts_evals := []; ts_same := []; ts_decls := []; ts_parents := [] |}.
Example MisplacedNullCheck_Cpp_CorrectEzNullNeCheck_holds : sorted_violations_of (shippedRule sh_MisplacedNullCheck) MisplacedNullCheck_Cpp_CorrectEzNullNeCheck = Some [].
Proof. vm_compute. reflexivity. Qed.

Definition MisplacedNullCheck_Cpp_MisplacedExplicitNullNeCheck : testcase :=
  {| ts_lang := LCXX; ts_path := $"input.cpp"; ts_code := [];
     ts_comments := []; ts_conf := [];
     ts_tops := [(toplevel 0 (TOther), (Node 0 [] (CXXRecordDecl {| r_class := (CxxRecord 0 $"B" true false None []); r_fields := 0; r_methods := 0; r_lines := (1)%Z |} []))); (toplevel 1 (TOther), (Node 1 [] (CXXRecordDecl {| r_class := (CxxRecord 1 $"A" true false None []); r_fields := 0; r_methods := 2; r_lines := (5)%Z |} [(Node 2 [] (FunctionDecl {| f_name := $"foo"; f_method := (Some {| cm_virtual := false; cm_static := false; cm_private := false; cm_inRecord := true |}); f_isDefinition := false; f_bodyLines := (0)%Z |} [(Node 3 [] (VarDecl {| v_isParm := true; v_name := $"f"; v_used := false; v_referenced := false; v_local := false; v_staticMember := false; v_private := false; v_unusedAttr := false; v_defaultArg := false; v_canonicalType := $"A *"; v_inTemplate := false; v_contexts := [CxFunction false false false; CxRecord] |} None))] None)); (Node 4 [] (FunctionDecl {| f_name := $"bar"; f_method := (Some {| cm_virtual := false; cm_static := false; cm_private := false; cm_inRecord := true |}); f_isDefinition := false; f_bodyLines := (0)%Z |} [(Node 5 [] (VarDecl {| v_isParm := true; v_name := $"b"; v_used := false; v_referenced := false; v_local := false; v_staticMember := false; v_private := false; v_unusedAttr := false; v_defaultArg := false; v_canonicalType := $"B *"; v_inTemplate := false; v_contexts := [CxFunction false false false; CxRecord] |} None))] None))]))); (toplevel 6 (TFunction false), (Node 6 [] (FunctionDecl {| f_name := $"m"; f_method := None; f_isDefinition := true; f_bodyLines := (1)%Z |} [(Node 7 [] (VarDecl {| v_isParm := true; v_name := $"a"; v_used := true; v_referenced := true; v_local := false; v_staticMember := false; v_private := false; v_unusedAttr := false; v_defaultArg := false; v_canonicalType := $"A *"; v_inTemplate := false; v_contexts := [CxFunction true true false] |} None)); (Node 8 [] (VarDecl {| v_isParm := true; v_name := $"b"; v_used := true; v_referenced := true; v_local := false; v_staticMember := false; v_private := false; v_unusedAttr := false; v_defaultArg := false; v_canonicalType := $"B *"; v_inTemplate := false; v_contexts := [CxFunction true true false] |} None))] (Some (Node 9 [] (CompoundStmt [(Node 10 [] (IfStmt [] (Node 11 [] (BinaryOperator BO_LOr (Node 12 [] (CallExpr (Some ($"bar", Decl [] None)) (Node 13 [] (MemberExpr true (Node 14 [] (ImplicitCastExpr CK_LValueToRValue (Node 15 [] (DeclRefExpr 7 $"a" false)))))) [(Node 16 [] (ImplicitCastExpr CK_LValueToRValue (Node 17 [] (DeclRefExpr 8 $"b" false))))])) (Node 18 [] (BinaryOperator BO_EQ (Node 19 [] (ImplicitCastExpr CK_LValueToRValue (Node 20 [] (DeclRefExpr 7 $"a" false)))) (Node 21 [] (ImplicitCastExpr CK_NullToPointer (Node 22 [] (IntegerLiteral (0)%Z)))))))) (Node 23 [] (CompoundStmt [(Node 24 [] NullStmt)])) None))]))))))];
     ts_locs := [(2,1,2,10); (3,1,7,1); (5,5,5,18); (5,14,5,17); (6,5,6,18); (6,14,6,17); (8,1,8,56); (8,8,8,11); (8,14,8,17); (8,20,8,56); (8,22,8,54); (8,26,8,44); (8,26,8,34); (8,26,8,29); (8,26,8,26); (8,26,8,26); (8,33,8,33); (8,33,8,33); (8,39,8,44); (8,39,8,39); (8,39,8,39); (8,44,8,44); (8,44,8,44); (8,50,8,54); (8,52,8,52)]%Z;
     ts_evals := []; ts_same := []; ts_decls := []; ts_parents := [] |}.
Example MisplacedNullCheck_Cpp_MisplacedExplicitNullNeCheck_holds : nth_violation (shippedRule sh_MisplacedNullCheck) MisplacedNullCheck_Cpp_MisplacedExplicitNullNeCheck 0 = Some (8, 26, 8, 44, $"")%Z.
Proof. vm_compute. reflexivity. Qed.

Definition MisplacedNullCheck_Cpp_MisplacedEzNullNeCheck : testcase :=
  {| ts_lang := LCXX; ts_path := $"input.cpp"; ts_code := [];
     ts_comments := []; ts_conf := [];
     ts_tops := [(toplevel 0 (TOther), (Node 0 [] (CXXRecordDecl {| r_class := (CxxRecord 0 $"B" true false None []); r_fields := 0; r_methods := 0; r_lines := (1)%Z |} []))); (toplevel 1 (TOther), (Node 1 [] (CXXRecordDecl {| r_class := (CxxRecord 1 $"A" true false None []); r_fields := 0; r_methods := 2; r_lines := (5)%Z |} [(Node 2 [] (FunctionDecl {| f_name := $"foo"; f_method := (Some {| cm_virtual := false; cm_static := false; cm_private := false; cm_inRecord := true |}); f_isDefinition := false; f_bodyLines := (0)%Z |} [(Node 3 [] (VarDecl {| v_isParm := true; v_name := $"f"; v_used := false; v_referenced := false; v_local := false; v_staticMember := false; v_private := false; v_unusedAttr := false; v_defaultArg := false; v_canonicalType := $"A *"; v_inTemplate := false; v_contexts := [CxFunction false false false; CxRecord] |} None))] None)); (Node 4 [] (FunctionDecl {| f_name := $"bar"; f_method := (Some {| cm_virtual := false; cm_static := false; cm_private := false; cm_inRecord := true |}); f_isDefinition := false; f_bodyLines := (0)%Z |} [(Node 5 [] (VarDecl {| v_isParm := true; v_name := $"b"; v_used := false; v_referenced := false; v_local := false; v_staticMember := false; v_private := false; v_unusedAttr := false; v_defaultArg := false; v_canonicalType := $"B *"; v_inTemplate := false; v_contexts := [CxFunction false false false; CxRecord] |} None))] None))]))); (toplevel 6 (TFunction false), (Node 6 [] (FunctionDecl {| f_name := $"m"; f_method := None; f_isDefinition := true; f_bodyLines := (1)%Z |} [(Node 7 [] (VarDecl {| v_isParm := true; v_name := $"a"; v_used := true; v_referenced := true; v_local := false; v_staticMember := false; v_private := false; v_unusedAttr := false; v_defaultArg := false; v_canonicalType := $"A *"; v_inTemplate := false; v_contexts := [CxFunction true true false] |} None)); (Node 8 [] (VarDecl {| v_isParm := true; v_name := $"b"; v_used := true; v_referenced := true; v_local := false; v_staticMember := false; v_private := false; v_unusedAttr := false; v_defaultArg := false; v_canonicalType := $"B *"; v_inTemplate := false; v_contexts := [CxFunction true true false] |} None))] (Some (Node 9 [] (CompoundStmt [(Node 10 [] (IfStmt [] (Node 11 [] (BinaryOperator BO_LOr (Node 12 [] (CallExpr (Some ($"bar", Decl [] None)) (Node 13 [] (MemberExpr true (Node 14 [] (ImplicitCastExpr CK_LValueToRValue (Node 15 [] (DeclRefExpr 7 $"a" false)))))) [(Node 16 [] (ImplicitCastExpr CK_LValueToRValue (Node 17 [] (DeclRefExpr 8 $"b" false))))])) (Node 18 [] (UnaryOperator UO_LNot (Node 19 [] (ImplicitCastExpr CK_PointerToBoolean (Node 20 [] (ImplicitCastExpr CK_LValueToRValue (Node 21 [] (DeclRefExpr 7 $"a" false)))))))))) (Node 22 [] (CompoundStmt [(Node 23 [] NullStmt)])) None))]))))))];
     ts_locs := [(2,1,2,10); (3,1,7,1); (5,5,5,18); (5,14,5,17); (6,5,6,18); (6,14,6,17); (8,1,8,49); (8,8,8,11); (8,14,8,17); (8,20,8,49); (8,22,8,47); (8,26,8,40); (8,26,8,34); (8,26,8,29); (8,26,8,26); (8,26,8,26); (8,33,8,33); (8,33,8,33); (8,39,8,40); (8,40,8,40); (8,40,8,40); (8,40,8,40); (8,43,8,47); (8,45,8,45)]%Z;
     ts_evals := []; ts_same := []; ts_decls := []; ts_parents := [] |}.
Example MisplacedNullCheck_Cpp_MisplacedEzNullNeCheck_holds : nth_violation (shippedRule sh_MisplacedNullCheck) MisplacedNullCheck_Cpp_MisplacedEzNullNeCheck 0 = Some (8, 26, 8, 40, $"")%Z.
Proof. vm_compute. reflexivity. Qed.

Definition MisplacedNullCheck_ObjC_CorrectNullEqCheck : testcase :=
  {| ts_lang := LObjC; ts_path := $"input.m"; ts_code := [];
     ts_comments := []; ts_conf := [];
     ts_tops := [(toplevel 0 (TOther), (Node 0 [] (OtherDecl []))); (toplevel 1 (TOther), (Node 1 [] (ObjCContainerDecl {| oc_kind := OKInterface; oc_name := $"NSObject"; oc_lines := (2)%Z; oc_ivars := 0; oc_methods := []; oc_classes := [$"NSObject"]; oc_superMethods := None |} []))); (toplevel 2 (TOther), (Node 2 [] (ObjCContainerDecl {| oc_kind := OKInterface; oc_name := $"A"; oc_lines := (4)%Z; oc_ivars := 0; oc_methods := [($"isEqualTo:", true); ($"compare:withOther:", false)]; oc_classes := [$"A"; $"NSObject"]; oc_superMethods := (Some ($"NSObject", [])) |} [(Node 3 [] (ObjCMethodDecl {| om_selector := $"isEqualTo:"; om_class := (Some $"A"); om_overriding := false; om_overridden := []; om_bodyLines := (0)%Z |} [(Node 4 [] (VarDecl {| v_isParm := true; v_name := $"obj"; v_used := false; v_referenced := false; v_local := false; v_staticMember := false; v_private := false; v_unusedAttr := false; v_defaultArg := false; v_canonicalType := $"struct objc_object *"; v_inTemplate := false; v_contexts := [CxObjCMethod true false false false; CxOther] |} None))] None)); (Node 5 [] (ObjCMethodDecl {| om_selector := $"compare:withOther:"; om_class := (Some $"A"); om_overriding := false; om_overridden := []; om_bodyLines := (0)%Z |} [(Node 6 [] (VarDecl {| v_isParm := true; v_name := $"obj1"; v_used := false; v_referenced := false; v_local := false; v_staticMember := false; v_private := false; v_unusedAttr := false; v_defaultArg := false; v_canonicalType := $"A *"; v_inTemplate := false; v_contexts := [CxObjCMethod true false false false; CxOther] |} None)); (Node 7 [] (VarDecl {| v_isParm := true; v_name := $"obj2"; v_used := false; v_referenced := false; v_local := false; v_staticMember := false; v_private := false; v_unusedAttr := false; v_defaultArg := false; v_canonicalType := $"A *"; v_inTemplate := false; v_contexts := [CxObjCMethod true false false false; CxOther] |} None))] None))]))); (toplevel 8 (TOther), (Node 8 [] (ObjCContainerDecl {| oc_kind := OKImplementation; oc_name := $"A"; oc_lines := (6)%Z; oc_ivars := 0; oc_methods := [($"isEqualTo:", true); ($"compare:withOther:", false)]; oc_classes := [$"A"; $"NSObject"]; oc_superMethods := (Some ($"NSObject", [])) |} [(Node 9 [] (ObjCMethodDecl {| om_selector := $"isEqualTo:"; om_class := (Some $"A"); om_overriding := false; om_overridden := []; om_bodyLines := (1)%Z |} [(Node 10 [] (VarDecl {| v_isParm := true; v_name := $"obj"; v_used := false; v_referenced := false; v_local := false; v_staticMember := false; v_private := false; v_unusedAttr := false; v_defaultArg := false; v_canonicalType := $"struct objc_object *"; v_inTemplate := false; v_contexts := [CxObjCMethod false false false false] |} None))] (Some (Node 11 [] (CompoundStmt [(Node 12 [] (ReturnStmt (Some (Node 13 $"BOOL" (CStyleCastExpr CK_Other (Node 14 $"int" (IntegerLiteral (1)%Z)))))))]))))); (Node 15 [] (ObjCMethodDecl {| om_selector := $"compare:withOther:"; om_class := (Some $"A"); om_overriding := false; om_overridden := []; om_bodyLines := (3)%Z |} [(Node 16 [] (VarDecl {| v_isParm := true; v_name := $"obj1"; v_used := true; v_referenced := true; v_local := false; v_staticMember := false; v_private := false; v_unusedAttr := false; v_defaultArg := false; v_canonicalType := $"A *"; v_inTemplate := false; v_contexts := [CxObjCMethod false false false false] |} None)); (Node 17 [] (VarDecl {| v_isParm := true; v_name := $"obj2"; v_used := true; v_referenced := true; v_local := false; v_staticMember := false; v_private := false; v_unusedAttr := false; v_defaultArg := false; v_canonicalType := $"A *"; v_inTemplate := false; v_contexts := [CxObjCMethod false false false false] |} None))] (Some (Node 18 [] (CompoundStmt [(Node 19 [] (IfStmt [] (Node 20 $"BOOL" (ObjCMessageExpr {| ms_selector := $"isEqualTo:"; ms_receiver := RInstance; ms_implicit := false; ms_interface := (Some $"A"); ms_method := (Some (Decl [] (Some (Method false None (InOther (Some NoCategory)))))); ms_methodClass := (Some $"A") |} (Some (Node 21 $"A *" (ImplicitCastExpr CK_LValueToRValue (Node 22 $"A *" (DeclRefExpr 16 $"obj1" false))))) [(Node 23 $"id" (ImplicitCastExpr CK_BitCast (Node 24 $"A *" (ImplicitCastExpr CK_LValueToRValue (Node 25 $"A *" (DeclRefExpr 17 $"obj2" false))))))])) (Node 26 [] (CompoundStmt [(Node 27 [] NullStmt)])) None))])))))])))];
     ts_locs := [(2,1,2,24); (5,1,6,2); (7,1,10,2); (8,1,8,26); (8,20,8,23); (9,1,9,46); (9,18,9,22); (9,38,9,42); (11,1,16,1); (12,1,12,41); (12,20,12,23); (12,27,12,41); (12,29,12,36); (12,36,12,36); (12,36,12,36); (13,1,15,1); (13,18,13,22); (13,38,13,42); (13,47,15,1); (14,5,14,36); (14,9,14,29); (14,10,14,10); (14,10,14,10); (14,25,14,25); (14,25,14,25); (14,25,14,25); (14,32,14,36); (14,34,14,34)]%Z;
     ts_evals := []; ts_same := []; ts_decls := []; ts_parents := [] |}.
Example MisplacedNullCheck_ObjC_CorrectNullEqCheck_holds : sorted_violations_of (shippedRule sh_MisplacedNilCheck) MisplacedNullCheck_ObjC_CorrectNullEqCheck = Some [].
Proof. vm_compute. reflexivity. Qed.

Definition MisplacedNullCheck_ObjC_EzButRedundantNullEqCheck : testcase :=
  {| ts_lang := LObjC; ts_path := $"input.m"; ts_code := [];
     ts_comments := []; ts_conf := [];
     ts_tops := [(toplevel 0 (TOther), (Node 0 [] (OtherDecl []))); (toplevel 1 (TOther), (Node 1 [] (ObjCContainerDecl {| oc_kind := OKInterface; oc_name := $"NSObject"; oc_lines := (2)%Z; oc_ivars := 0; oc_methods := []; oc_classes := [$"NSObject"]; oc_superMethods := None |} []))); (toplevel 2 (TOther), (Node 2 [] (ObjCContainerDecl {| oc_kind := OKInterface; oc_name := $"A"; oc_lines := (4)%Z; oc_ivars := 0; oc_methods := [($"isEqualTo:", true); ($"compare:withOther:", false)]; oc_classes := [$"A"; $"NSObject"]; oc_superMethods := (Some ($"NSObject", [])) |} [(Node 3 [] (ObjCMethodDecl {| om_selector := $"isEqualTo:"; om_class := (Some $"A"); om_overriding := false; om_overridden := []; om_bodyLines := (0)%Z |} [(Node 4 [] (VarDecl {| v_isParm := true; v_name := $"obj"; v_used := false; v_referenced := false; v_local := false; v_staticMember := false; v_private := false; v_unusedAttr := false; v_defaultArg := false; v_canonicalType := $"struct objc_object *"; v_inTemplate := false; v_contexts := [CxObjCMethod true false false false; CxOther] |} None))] None)); (Node 5 [] (ObjCMethodDecl {| om_selector := $"compare:withOther:"; om_class := (Some $"A"); om_overriding := false; om_overridden := []; om_bodyLines := (0)%Z |} [(Node 6 [] (VarDecl {| v_isParm := true; v_name := $"obj1"; v_used := false; v_referenced := false; v_local := false; v_staticMember := false; v_private := false; v_unusedAttr := false; v_defaultArg := false; v_canonicalType := $"A *"; v_inTemplate := false; v_contexts := [CxObjCMethod true false false false; CxOther] |} None)); (Node 7 [] (VarDecl {| v_isParm := true; v_name := $"obj2"; v_used := false; v_referenced := false; v_local := false; v_staticMember := false; v_private := false; v_unusedAttr := false; v_defaultArg := false; v_canonicalType := $"A *"; v_inTemplate := false; v_contexts := [CxObjCMethod true false false false; CxOther] |} None))] None))]))); (toplevel 8 (TOther), (Node 8 [] (ObjCContainerDecl {| oc_kind := OKImplementation; oc_name := $"A"; oc_lines := (6)%Z; oc_ivars := 0; oc_methods := [($"isEqualTo:", true); ($"compare:withOther:", false)]; oc_classes := [$"A"; $"NSObject"]; oc_superMethods := (Some ($"NSObject", [])) |} [(Node 9 [] (ObjCMethodDecl {| om_selector := $"isEqualTo:"; om_class := (Some $"A"); om_overriding := false; om_overridden := []; om_bodyLines := (1)%Z |} [(Node 10 [] (VarDecl {| v_isParm := true; v_name := $"obj"; v_used := false; v_referenced := false; v_local := false; v_staticMember := false; v_private := false; v_unusedAttr := false; v_defaultArg := false; v_canonicalType := $"struct objc_object *"; v_inTemplate := false; v_contexts := [CxObjCMethod false false false false] |} None))] (Some (Node 11 [] (CompoundStmt [(Node 12 [] (ReturnStmt (Some (Node 13 $"BOOL" (CStyleCastExpr CK_Other (Node 14 $"int" (IntegerLiteral (1)%Z)))))))]))))); (Node 15 [] (ObjCMethodDecl {| om_selector := $"compare:withOther:"; om_class := (Some $"A"); om_overriding := false; om_overridden := []; om_bodyLines := (3)%Z |} [(Node 16 [] (VarDecl {| v_isParm := true; v_name := $"obj1"; v_used := true; v_referenced := true; v_local := false; v_staticMember := false; v_private := false; v_unusedAttr := false; v_defaultArg := false; v_canonicalType := $"A *"; v_inTemplate := false; v_contexts := [CxObjCMethod false false false false] |} None)); (Node 17 [] (VarDecl {| v_isParm := true; v_name := $"obj2"; v_used := true; v_referenced := true; v_local := false; v_staticMember := false; v_private := false; v_unusedAttr := false; v_defaultArg := false; v_canonicalType := $"A *"; v_inTemplate := false; v_contexts := [CxObjCMethod false false false false] |} None))] (Some (Node 18 [] (CompoundStmt [(Node 19 [] (IfStmt [] (Node 20 $"int" (BinaryOperator BO_LAnd (Node 21 $"A *" (ImplicitCastExpr CK_LValueToRValue (Node 22 $"A *" (DeclRefExpr 16 $"obj1" false)))) (Node 23 $"BOOL" (ObjCMessageExpr {| ms_selector := $"isEqualTo:"; ms_receiver := RInstance; ms_implicit := false; ms_interface := (Some $"A"); ms_method := (Some (Decl [] (Some (Method false None (InOther (Some NoCategory)))))); ms_methodClass := (Some $"A") |} (Some (Node 24 $"A *" (ImplicitCastExpr CK_LValueToRValue (Node 25 $"A *" (DeclRefExpr 16 $"obj1" false))))) [(Node 26 $"id" (ImplicitCastExpr CK_BitCast (Node 27 $"A *" (ImplicitCastExpr CK_LValueToRValue (Node 28 $"A *" (DeclRefExpr 17 $"obj2" false))))))])))) (Node 29 [] (CompoundStmt [(Node 30 [] NullStmt)])) None))])))))])))];
     ts_locs := [(2,1,2,24); (5,1,6,2); (7,1,10,2); (8,1,8,26); (8,20,8,23); (9,1,9,46); (9,18,9,22); (9,38,9,42); (11,1,16,1); (12,1,12,41); (12,20,12,23); (12,27,12,41); (12,29,12,36); (12,36,12,36); (12,36,12,36); (13,1,15,1); (13,18,13,22); (13,38,13,42); (13,47,15,1); (14,5,14,44); (14,9,14,37); (14,9,14,9); (14,9,14,9); (14,17,14,37); (14,18,14,18); (14,18,14,18); (14,33,14,33); (14,33,14,33); (14,33,14,33); (14,40,14,44); (14,42,14,42)]%Z;
     ts_evals := []; ts_same := []; ts_decls := []; ts_parents := [] |}.
Example MisplacedNullCheck_ObjC_EzButRedundantNullEqCheck_holds : sorted_violations_of (shippedRule sh_MisplacedNilCheck) MisplacedNullCheck_ObjC_EzButRedundantNullEqCheck = Some [].
Proof. vm_compute. reflexivity. Qed.

Definition MisplacedNullCheck_ObjC_ExplicitButRedundantNullEqCheck : testcase :=
  {| ts_lang := LObjC; ts_path := $"input.m"; ts_code := [];
     ts_comments := []; ts_conf := [];
     ts_tops := [(toplevel 0 (TOther), (Node 0 [] (OtherDecl []))); (toplevel 1 (TOther), (Node 1 [] (ObjCContainerDecl {| oc_kind := OKInterface; oc_name := $"NSObject"; oc_lines := (2)%Z; oc_ivars := 0; oc_methods := []; oc_classes := [$"NSObject"]; oc_superMethods := None |} []))); (toplevel 2 (TOther), (Node 2 [] (ObjCContainerDecl {| oc_kind := OKInterface; oc_name := $"A"; oc_lines := (4)%Z; oc_ivars := 0; oc_methods := [($"isEqualTo:", true); ($"compare:withOther:", false)]; oc_classes := [$"A"; $"NSObject"]; oc_superMethods := (Some ($"NSObject", [])) |} [(Node 3 [] (ObjCMethodDecl {| om_selector := $"isEqualTo:"; om_class := (Some $"A"); om_overriding := false; om_overridden := []; om_bodyLines := (0)%Z |} [(Node 4 [] (VarDecl {| v_isParm := true; v_name := $"obj"; v_used := false; v_referenced := false; v_local := false; v_staticMember := false; v_private := false; v_unusedAttr := false; v_defaultArg := false; v_canonicalType := $"struct objc_object *"; v_inTemplate := false; v_contexts := [CxObjCMethod true false false false; CxOther] |} None))] None)); (Node 5 [] (ObjCMethodDecl {| om_selector := $"compare:withOther:"; om_class := (Some $"A"); om_overriding := false; om_overridden := []; om_bodyLines := (0)%Z |} [(Node 6 [] (VarDecl {| v_isParm := true; v_name := $"obj1"; v_used := false; v_referenced := false; v_local := false; v_staticMember := false; v_private := false; v_unusedAttr := false; v_defaultArg := false; v_canonicalType := $"A *"; v_inTemplate := false; v_contexts := [CxObjCMethod true false false false; CxOther] |} None)); (Node 7 [] (VarDecl {| v_isParm := true; v_name := $"obj2"; v_used := false; v_referenced := false; v_local := false; v_staticMember := false; v_private := false; v_unusedAttr := false; v_defaultArg := false; v_canonicalType := $"A *"; v_inTemplate := false; v_contexts := [CxObjCMethod true false false false; CxOther] |} None))] None))]))); (toplevel 8 (TOther), (Node 8 [] (ObjCContainerDecl {| oc_kind := OKImplementation; oc_name := $"A"; oc_lines := (6)%Z; oc_ivars := 0; oc_methods := [($"isEqualTo:", true); ($"compare:withOther:", false)]; oc_classes := [$"A"; $"NSObject"]; oc_superMethods := (Some ($"NSObject", [])) |} [(Node 9 [] (ObjCMethodDecl {| om_selector := $"isEqualTo:"; om_class := (Some $"A"); om_overriding := false; om_overridden := []; om_bodyLines := (1)%Z |} [(Node 10 [] (VarDecl {| v_isParm := true; v_name := $"obj"; v_used := false; v_referenced := false; v_local := false; v_staticMember := false; v_private := false; v_unusedAttr := false; v_defaultArg := false; v_canonicalType := $"struct objc_object *"; v_inTemplate := false; v_contexts := [CxObjCMethod false false false false] |} None))] (Some (Node 11 [] (CompoundStmt [(Node 12 [] (ReturnStmt (Some (Node 13 $"BOOL" (CStyleCastExpr CK_Other (Node 14 $"int" (IntegerLiteral (1)%Z)))))))]))))); (Node 15 [] (ObjCMethodDecl {| om_selector := $"compare:withOther:"; om_class := (Some $"A"); om_overriding := false; om_overridden := []; om_bodyLines := (3)%Z |} [(Node 16 [] (VarDecl {| v_isParm := true; v_name := $"obj1"; v_used := true; v_referenced := true; v_local := false; v_staticMember := false; v_private := false; v_unusedAttr := false; v_defaultArg := false; v_canonicalType := $"A *"; v_inTemplate := false; v_contexts := [CxObjCMethod false false false false] |} None)); (Node 17 [] (VarDecl {| v_isParm := true; v_name := $"obj2"; v_used := true; v_referenced := true; v_local := false; v_staticMember := false; v_private := false; v_unusedAttr := false; v_defaultArg := false; v_canonicalType := $"A *"; v_inTemplate := false; v_contexts := [CxObjCMethod false false false false] |} None))] (Some (Node 18 [] (CompoundStmt [(Node 19 [] (IfStmt [] (Node 20 $"int" (BinaryOperator BO_LAnd (Node 21 $"int" (BinaryOperator BO_NE (Node 22 $"A *" (ImplicitCastExpr CK_LValueToRValue (Node 23 $"A *" (DeclRefExpr 16 $"obj1" false)))) (Node 24 $"A *" (ImplicitCastExpr CK_BitCast (Node 25 $"id" (CStyleCastExpr CK_NullToPointer (Node 26 $"int" (IntegerLiteral (0)%Z)))))))) (Node 27 $"BOOL" (ObjCMessageExpr {| ms_selector := $"isEqualTo:"; ms_receiver := RInstance; ms_implicit := false; ms_interface := (Some $"A"); ms_method := (Some (Decl [] (Some (Method false None (InOther (Some NoCategory)))))); ms_methodClass := (Some $"A") |} (Some (Node 28 $"A *" (ImplicitCastExpr CK_LValueToRValue (Node 29 $"A *" (DeclRefExpr 16 $"obj1" false))))) [(Node 30 $"id" (ImplicitCastExpr CK_BitCast (Node 31 $"A *" (ImplicitCastExpr CK_LValueToRValue (Node 32 $"A *" (DeclRefExpr 17 $"obj2" false))))))])))) (Node 33 [] (CompoundStmt [(Node 34 [] NullStmt)])) None))])))))])))];
     ts_locs := [(2,1,2,24); (5,1,6,2); (7,1,10,2); (8,1,8,26); (8,20,8,23); (9,1,9,46); (9,18,9,22); (9,38,9,42); (11,1,16,1); (12,1,12,41); (12,20,12,23); (12,27,12,41); (12,29,12,36); (12,36,12,36); (12,36,12,36); (13,1,15,1); (13,18,13,22); (13,38,13,42); (13,47,15,1); (14,5,14,51); (14,9,14,44); (14,9,14,17); (14,9,14,9); (14,9,14,9); (14,17,14,17); (14,17,14,17); (14,17,14,17); (14,24,14,44); (14,25,14,25); (14,25,14,25); (14,40,14,40); (14,40,14,40); (14,40,14,40); (14,47,14,51); (14,49,14,49)]%Z;
     ts_evals := []; ts_same := []; ts_decls := []; ts_parents := [] |}.
Example MisplacedNullCheck_ObjC_ExplicitButRedundantNullEqCheck_holds : sorted_violations_of (shippedRule sh_MisplacedNilCheck) MisplacedNullCheck_ObjC_ExplicitButRedundantNullEqCheck = Some [].
Proof. vm_compute. reflexivity. Qed.

Definition MisplacedNullCheck_ObjC_MisplacedEzButRedundantNullEqCheck : testcase :=
  {| ts_lang := LObjC; ts_path := $"input.m"; ts_code := [];
     ts_comments := []; ts_conf := [];
     ts_tops := [(toplevel 0 (TOther), (Node 0 [] (OtherDecl []))); (toplevel 1 (TOther), (Node 1 [] (ObjCContainerDecl {| oc_kind := OKInterface; oc_name := $"NSObject"; oc_lines := (2)%Z; oc_ivars := 0; oc_methods := []; oc_classes := [$"NSObject"]; oc_superMethods := None |} []))); (toplevel 2 (TOther), (Node 2 [] (ObjCContainerDecl {| oc_kind := OKInterface; oc_name := $"A"; oc_lines := (4)%Z; oc_ivars := 0; oc_methods := [($"isEqualTo:", true); ($"compare:withOther:", false)]; oc_classes := [$"A"; $"NSObject"]; oc_superMethods := (Some ($"NSObject", [])) |} [(Node 3 [] (ObjCMethodDecl {| om_selector := $"isEqualTo:"; om_class := (Some $"A"); om_overriding := false; om_overridden := []; om_bodyLines := (0)%Z |} [(Node 4 [] (VarDecl {| v_isParm := true; v_name := $"obj"; v_used := false; v_referenced := false; v_local := false; v_staticMember := false; v_private := false; v_unusedAttr := false; v_defaultArg := false; v_canonicalType := $"struct objc_object *"; v_inTemplate := false; v_contexts := [CxObjCMethod true false false false; CxOther] |} None))] None)); (Node 5 [] (ObjCMethodDecl {| om_selector := $"compare:withOther:"; om_class := (Some $"A"); om_overriding := false; om_overridden := []; om_bodyLines := (0)%Z |} [(Node 6 [] (VarDecl {| v_isParm := true; v_name := $"obj1"; v_used := false; v_referenced := false; v_local := false; v_staticMember := false; v_private := false; v_unusedAttr := false; v_defaultArg := false; v_canonicalType := $"A *"; v_inTemplate := false; v_contexts := [CxObjCMethod true false false false; CxOther] |} None)); (Node 7 [] (VarDecl {| v_isParm := true; v_name := $"obj2"; v_used := false; v_referenced := false; v_local := false; v_staticMember := false; v_private := false; v_unusedAttr := false; v_defaultArg := false; v_canonicalType := $"A *"; v_inTemplate := false; v_contexts := [CxObjCMethod true false false false; CxOther] |} None))] None))]))); (toplevel 8 (TOther), (Node 8 [] (ObjCContainerDecl {| oc_kind := OKImplementation; oc_name := $"A"; oc_lines := (6)%Z; oc_ivars := 0; oc_methods := [($"isEqualTo:", true); ($"compare:withOther:", false)]; oc_classes := [$"A"; $"NSObject"]; oc_superMethods := (Some ($"NSObject", [])) |} [(Node 9 [] (ObjCMethodDecl {| om_selector := $"isEqualTo:"; om_class := (Some $"A"); om_overriding := false; om_overridden := []; om_bodyLines := (1)%Z |} [(Node 10 [] (VarDecl {| v_isParm := true; v_name := $"obj"; v_used := false; v_referenced := false; v_local := false; v_staticMember := false; v_private := false; v_unusedAttr := false; v_defaultArg := false; v_canonicalType := $"struct objc_object *"; v_inTemplate := false; v_contexts := [CxObjCMethod false false false false] |} None))] (Some (Node 11 [] (CompoundStmt [(Node 12 [] (ReturnStmt (Some (Node 13 $"BOOL" (CStyleCastExpr CK_Other (Node 14 $"int" (IntegerLiteral (1)%Z)))))))]))))); (Node 15 [] (ObjCMethodDecl {| om_selector := $"compare:withOther:"; om_class := (Some $"A"); om_overriding := false; om_overridden := []; om_bodyLines := (3)%Z |} [(Node 16 [] (VarDecl {| v_isParm := true; v_name := $"obj1"; v_used := true; v_referenced := true; v_local := false; v_staticMember := false; v_private := false; v_unusedAttr := false; v_defaultArg := false; v_canonicalType := $"A *"; v_inTemplate := false; v_contexts := [CxObjCMethod false false false false] |} None)); (Node 17 [] (VarDecl {| v_isParm := true; v_name := $"obj2"; v_used := true; v_referenced := true; v_local := false; v_staticMember := false; v_private := false; v_unusedAttr := false; v_defaultArg := false; v_canonicalType := $"A *"; v_inTemplate := false; v_contexts := [CxObjCMethod false false false false] |} None))] (Some (Node 18 [] (CompoundStmt [(Node 19 [] (IfStmt [] (Node 20 $"int" (BinaryOperator BO_LAnd (Node 21 $"BOOL" (ObjCMessageExpr {| ms_selector := $"isEqualTo:"; ms_receiver := RInstance; ms_implicit := false; ms_interface := (Some $"A"); ms_method := (Some (Decl [] (Some (Method false None (InOther (Some NoCategory)))))); ms_methodClass := (Some $"A") |} (Some (Node 22 $"A *" (ImplicitCastExpr CK_LValueToRValue (Node 23 $"A *" (DeclRefExpr 16 $"obj1" false))))) [(Node 24 $"id" (ImplicitCastExpr CK_BitCast (Node 25 $"A *" (ImplicitCastExpr CK_LValueToRValue (Node 26 $"A *" (DeclRefExpr 17 $"obj2" false))))))])) (Node 27 $"A *" (ImplicitCastExpr CK_LValueToRValue (Node 28 $"A *" (DeclRefExpr 16 $"obj1" false)))))) (Node 29 [] (CompoundStmt [(Node 30 [] NullStmt)])) None))])))))])))];
     ts_locs := [(2,1,2,24); (5,1,6,2); (7,1,10,2); (8,1,8,26); (8,20,8,23); (9,1,9,46); (9,18,9,22); (9,38,9,42); (11,1,16,1); (12,1,12,41); (12,20,12,23); (12,27,12,41); (12,29,12,36); (12,36,12,36); (12,36,12,36); (13,1,15,1); (13,18,13,22); (13,38,13,42); (13,47,15,1); (14,5,14,44); (14,9,14,34); (14,9,14,29); (14,10,14,10); (14,10,14,10); (14,25,14,25); (14,25,14,25); (14,25,14,25); (14,34,14,34); (14,34,14,34); (14,40,14,44); (14,42,14,42)]%Z;
     ts_evals := []; ts_same := []; ts_decls := []; ts_parents := [] |}.
Example MisplacedNullCheck_ObjC_MisplacedEzButRedundantNullEqCheck_holds : nth_violation (shippedRule sh_MisplacedNilCheck) MisplacedNullCheck_ObjC_MisplacedEzButRedundantNullEqCheck 0 = Some (14, 9, 14, 34, $"")%Z.
Proof. vm_compute. reflexivity. Qed.

Definition MisplacedNullCheck_ObjC_MisplacedExplicitButRedundantNullEqCheck : testcase :=
  {| ts_lang := LObjC; ts_path := $"input.m"; ts_code := [];
     ts_comments := []; ts_conf := [];
     ts_tops := [(toplevel 0 (TOther), (Node 0 [] (OtherDecl []))); (toplevel 1 (TOther), (Node 1 [] (ObjCContainerDecl {| oc_kind := OKInterface; oc_name := $"NSObject"; oc_lines := (2)%Z; oc_ivars := 0; oc_methods := []; oc_classes := [$"NSObject"]; oc_superMethods := None |} []))); (toplevel 2 (TOther), (Node 2 [] (ObjCContainerDecl {| oc_kind := OKInterface; oc_name := $"A"; oc_lines := (4)%Z; oc_ivars := 0; oc_methods := [($"isEqualTo:", true); ($"compare:withOther:", false)]; oc_classes := [$"A"; $"NSObject"]; oc_superMethods := (Some ($"NSObject", [])) |} [(Node 3 [] (ObjCMethodDecl {| om_selector := $"isEqualTo:"; om_class := (Some $"A"); om_overriding := false; om_overridden := []; om_bodyLines := (0)%Z |} [(Node 4 [] (VarDecl {| v_isParm := true; v_name := $"obj"; v_used := false; v_referenced := false; v_local := false; v_staticMember := false; v_private := false; v_unusedAttr := false; v_defaultArg := false; v_canonicalType := $"struct objc_object *"; v_inTemplate := false; v_contexts := [CxObjCMethod true false false false; CxOther] |} None))] None)); (Node 5 [] (ObjCMethodDecl {| om_selector := $"compare:withOther:"; om_class := (Some $"A"); om_overriding := false; om_overridden := []; om_bodyLines := (0)%Z |} [(Node 6 [] (VarDecl {| v_isParm := true; v_name := $"obj1"; v_used := false; v_referenced := false; v_local := false; v_staticMember := false; v_private := false; v_unusedAttr := false; v_defaultArg := false; v_canonicalType := $"A *"; v_inTemplate := false; v_contexts := [CxObjCMethod true false false false; CxOther] |} None)); (Node 7 [] (VarDecl {| v_isParm := true; v_name := $"obj2"; v_used := false; v_referenced := false; v_local := false; v_staticMember := false; v_private := false; v_unusedAttr := false; v_defaultArg := false; v_canonicalType := $"A *"; v_inTemplate := false; v_contexts := [CxObjCMethod true false false false; CxOther] |} None))] None))]))); (toplevel 8 (TOther), (Node 8 [] (ObjCContainerDecl {| oc_kind := OKImplementation; oc_name := $"A"; oc_lines := (6)%Z; oc_ivars := 0; oc_methods := [($"isEqualTo:", true); ($"compare:withOther:", false)]; oc_classes := [$"A"; $"NSObject"]; oc_superMethods := (Some ($"NSObject", [])) |} [(Node 9 [] (ObjCMethodDecl {| om_selector := $"isEqualTo:"; om_class := (Some $"A"); om_overriding := false; om_overridden := []; om_bodyLines := (1)%Z |} [(Node 10 [] (VarDecl {| v_isParm := true; v_name := $"obj"; v_used := false; v_referenced := false; v_local := false; v_staticMember := false; v_private := false; v_unusedAttr := false; v_defaultArg := false; v_canonicalType := $"struct objc_object *"; v_inTemplate := false; v_contexts := [CxObjCMethod false false false false] |} None))] (Some (Node 11 [] (CompoundStmt [(Node 12 [] (ReturnStmt (Some (Node 13 $"BOOL" (CStyleCastExpr CK_Other (Node 14 $"int" (IntegerLiteral (1)%Z)))))))]))))); (Node 15 [] (ObjCMethodDecl {| om_selector := $"compare:withOther:"; om_class := (Some $"A"); om_overriding := false; om_overridden := []; om_bodyLines := (3)%Z |} [(Node 16 [] (VarDecl {| v_isParm := true; v_name := $"obj1"; v_used := true; v_referenced := true; v_local := false; v_staticMember := false; v_private := false; v_unusedAttr := false; v_defaultArg := false; v_canonicalType := $"A *"; v_inTemplate := false; v_contexts := [CxObjCMethod false false false false] |} None)); (Node 17 [] (VarDecl {| v_isParm := true; v_name := $"obj2"; v_used := true; v_referenced := true; v_local := false; v_staticMember := false; v_private := false; v_unusedAttr := false; v_defaultArg := false; v_canonicalType := $"A *"; v_inTemplate := false; v_contexts := [CxObjCMethod false false false false] |} None))] (Some (Node 18 [] (CompoundStmt [(Node 19 [] (IfStmt [] (Node 20 $"int" (BinaryOperator BO_LAnd (Node 21 $"BOOL" (ObjCMessageExpr {| ms_selector := $"isEqualTo:"; ms_receiver := RInstance; ms_implicit := false; ms_interface := (Some $"A"); ms_method := (Some (Decl [] (Some (Method false None (InOther (Some NoCategory)))))); ms_methodClass := (Some $"A") |} (Some (Node 22 $"A *" (ImplicitCastExpr CK_LValueToRValue (Node 23 $"A *" (DeclRefExpr 16 $"obj1" false))))) [(Node 24 $"id" (ImplicitCastExpr CK_BitCast (Node 25 $"A *" (ImplicitCastExpr CK_LValueToRValue (Node 26 $"A *" (DeclRefExpr 17 $"obj2" false))))))])) (Node 27 $"int" (BinaryOperator BO_NE (Node 28 $"A *" (ImplicitCastExpr CK_LValueToRValue (Node 29 $"A *" (DeclRefExpr 16 $"obj1" false)))) (Node 30 $"A *" (ImplicitCastExpr CK_BitCast (Node 31 $"id" (CStyleCastExpr CK_NullToPointer (Node 32 $"int" (IntegerLiteral (0)%Z)))))))))) (Node 33 [] (CompoundStmt [(Node 34 [] NullStmt)])) None))])))))])))];
     ts_locs := [(2,1,2,24); (5,1,6,2); (7,1,10,2); (8,1,8,26); (8,20,8,23); (9,1,9,46); (9,18,9,22); (9,38,9,42); (11,1,16,1); (12,1,12,41); (12,20,12,23); (12,27,12,41); (12,29,12,36); (12,36,12,36); (12,36,12,36); (13,1,15,1); (13,18,13,22); (13,38,13,42); (13,47,15,1); (14,5,14,51); (14,9,14,42); (14,9,14,29); (14,10,14,10); (14,10,14,10); (14,25,14,25); (14,25,14,25); (14,25,14,25); (14,34,14,42); (14,34,14,34); (14,34,14,34); (14,42,14,42); (14,42,14,42); (14,42,14,42); (14,47,14,51); (14,49,14,49)]%Z;
     ts_evals := []; ts_same := []; ts_decls := []; ts_parents := [] |}.
Example MisplacedNullCheck_ObjC_MisplacedExplicitButRedundantNullEqCheck_holds : nth_violation (shippedRule sh_MisplacedNilCheck) MisplacedNullCheck_ObjC_MisplacedExplicitButRedundantNullEqCheck 0 = Some (14, 9, 14, 42, $"")%Z.
Proof. vm_compute. reflexivity. Qed.

Definition MisplacedNullCheck_ObjC_EzButRedundantNullNeCheck : testcase :=
  {| ts_lang := LObjC; ts_path := $"input.m"; ts_code := [];
     ts_comments := []; ts_conf := [];
     ts_tops := [(toplevel 0 (TOther), (Node 0 [] (OtherDecl []))); (toplevel 1 (TOther), (Node 1 [] (ObjCContainerDecl {| oc_kind := OKInterface; oc_name := $"NSObject"; oc_lines := (2)%Z; oc_ivars := 0; oc_methods := []; oc_classes := [$"NSObject"]; oc_superMethods := None |} []))); (toplevel 2 (TOther), (Node 2 [] (ObjCContainerDecl {| oc_kind := OKInterface; oc_name := $"A"; oc_lines := (4)%Z; oc_ivars := 0; oc_methods := [($"isEqualTo:", true); ($"compare:withOther:", false)]; oc_classes := [$"A"; $"NSObject"]; oc_superMethods := (Some ($"NSObject", [])) |} [(Node 3 [] (ObjCMethodDecl {| om_selector := $"isEqualTo:"; om_class := (Some $"A"); om_overriding := false; om_overridden := []; om_bodyLines := (0)%Z |} [(Node 4 [] (VarDecl {| v_isParm := true; v_name := $"obj"; v_used := false; v_referenced := false; v_local := false; v_staticMember := false; v_private := false; v_unusedAttr := false; v_defaultArg := false; v_canonicalType := $"struct objc_object *"; v_inTemplate := false; v_contexts := [CxObjCMethod true false false false; CxOther] |} None))] None)); (Node 5 [] (ObjCMethodDecl {| om_selector := $"compare:withOther:"; om_class := (Some $"A"); om_overriding := false; om_overridden := []; om_bodyLines := (0)%Z |} [(Node 6 [] (VarDecl {| v_isParm := true; v_name := $"obj1"; v_used := false; v_referenced := false; v_local := false; v_staticMember := false; v_private := false; v_unusedAttr := false; v_defaultArg := false; v_canonicalType := $"A *"; v_inTemplate := false; v_contexts := [CxObjCMethod true false false false; CxOther] |} None)); (Node 7 [] (VarDecl {| v_isParm := true; v_name := $"obj2"; v_used := false; v_referenced := false; v_local := false; v_staticMember := false; v_private := false; v_unusedAttr := false; v_defaultArg := false; v_canonicalType := $"A *"; v_inTemplate := false; v_contexts := [CxObjCMethod true false false false; CxOther] |} None))] None))]))); (toplevel 8 (TOther), (Node 8 [] (ObjCContainerDecl {| oc_kind := OKImplementation; oc_name := $"A"; oc_lines := (6)%Z; oc_ivars := 0; oc_methods := [($"isEqualTo:", true); ($"compare:withOther:", false)]; oc_classes := [$"A"; $"NSObject"]; oc_superMethods := (Some ($"NSObject", [])) |} [(Node 9 [] (ObjCMethodDecl {| om_selector := $"isEqualTo:"; om_class := (Some $"A"); om_overriding := false; om_overridden := []; om_bodyLines := (1)%Z |} [(Node 10 [] (VarDecl {| v_isParm := true; v_name := $"obj"; v_used := false; v_referenced := false; v_local := false; v_staticMember := false; v_private := false; v_unusedAttr := false; v_defaultArg := false; v_canonicalType := $"struct objc_object *"; v_inTemplate := false; v_contexts := [CxObjCMethod false false false false] |} None))] (Some (Node 11 [] (CompoundStmt [(Node 12 [] (ReturnStmt (Some (Node 13 $"BOOL" (CStyleCastExpr CK_Other (Node 14 $"int" (IntegerLiteral (1)%Z)))))))]))))); (Node 15 [] (ObjCMethodDecl {| om_selector := $"compare:withOther:"; om_class := (Some $"A"); om_overriding := false; om_overridden := []; om_bodyLines := (3)%Z |} [(Node 16 [] (VarDecl {| v_isParm := true; v_name := $"obj1"; v_used := true; v_referenced := true; v_local := false; v_staticMember := false; v_private := false; v_unusedAttr := false; v_defaultArg := false; v_canonicalType := $"A *"; v_inTemplate := false; v_contexts := [CxObjCMethod false false false false] |} None)); (Node 17 [] (VarDecl {| v_isParm := true; v_name := $"obj2"; v_used := true; v_referenced := true; v_local := false; v_staticMember := false; v_private := false; v_unusedAttr := false; v_defaultArg := false; v_canonicalType := $"A *"; v_inTemplate := false; v_contexts := [CxObjCMethod false false false false] |} None))] (Some (Node 18 [] (CompoundStmt [(Node 19 [] (IfStmt [] (Node 20 $"int" (BinaryOperator BO_LOr (Node 21 $"int" (UnaryOperator UO_LNot (Node 22 $"A *" (ImplicitCastExpr CK_LValueToRValue (Node 23 $"A *" (DeclRefExpr 16 $"obj1" false)))))) (Node 24 $"int" (UnaryOperator UO_LNot (Node 25 $"BOOL" (ObjCMessageExpr {| ms_selector := $"isEqualTo:"; ms_receiver := RInstance; ms_implicit := false; ms_interface := (Some $"A"); ms_method := (Some (Decl [] (Some (Method false None (InOther (Some NoCategory)))))); ms_methodClass := (Some $"A") |} (Some (Node 26 $"A *" (ImplicitCastExpr CK_LValueToRValue (Node 27 $"A *" (DeclRefExpr 16 $"obj1" false))))) [(Node 28 $"id" (ImplicitCastExpr CK_BitCast (Node 29 $"A *" (ImplicitCastExpr CK_LValueToRValue (Node 30 $"A *" (DeclRefExpr 17 $"obj2" false))))))])))))) (Node 31 [] (CompoundStmt [(Node 32 [] NullStmt)])) None))])))))])))];
     ts_locs := [(2,1,2,24); (5,1,6,2); (7,1,10,2); (8,1,8,26); (8,20,8,23); (9,1,9,46); (9,18,9,22); (9,38,9,42); (11,1,16,1); (12,1,12,41); (12,20,12,23); (12,27,12,41); (12,29,12,36); (12,36,12,36); (12,36,12,36); (13,1,15,1); (13,18,13,22); (13,38,13,42); (13,47,15,1); (14,5,14,46); (14,9,14,39); (14,9,14,10); (14,10,14,10); (14,10,14,10); (14,18,14,39); (14,19,14,39); (14,20,14,20); (14,20,14,20); (14,35,14,35); (14,35,14,35); (14,35,14,35); (14,42,14,46); (14,44,14,44)]%Z;
     ts_evals := []; ts_same := []; ts_decls := []; ts_parents := [] |}.
Example MisplacedNullCheck_ObjC_EzButRedundantNullNeCheck_holds : sorted_violations_of (shippedRule sh_MisplacedNilCheck) MisplacedNullCheck_ObjC_EzButRedundantNullNeCheck = Some [].
Proof. vm_compute. reflexivity. Qed.

Definition MisplacedNullCheck_ObjC_ExplicitButRedundantNullNeCheck : testcase :=
  {| ts_lang := LObjC; ts_path := $"input.m"; ts_code := [];
     ts_comments := []; ts_conf := [];
     ts_tops := [(toplevel 0 (TOther), (Node 0 [] (OtherDecl []))); (toplevel 1 (TOther), (Node 1 [] (ObjCContainerDecl {| oc_kind := OKInterface; oc_name := $"NSObject"; oc_lines := (2)%Z; oc_ivars := 0; oc_methods := []; oc_classes := [$"NSObject"]; oc_superMethods := None |} []))); (toplevel 2 (TOther), (Node 2 [] (ObjCContainerDecl {| oc_kind := OKInterface; oc_name := $"A"; oc_lines := (4)%Z; oc_ivars := 0; oc_methods := [($"isEqualTo:", true); ($"compare:withOther:", false)]; oc_classes := [$"A"; $"NSObject"]; oc_superMethods := (Some ($"NSObject", [])) |} [(Node 3 [] (ObjCMethodDecl {| om_selector := $"isEqualTo:"; om_class := (Some $"A"); om_overriding := false; om_overridden := []; om_bodyLines := (0)%Z |} [(Node 4 [] (VarDecl {| v_isParm := true; v_name := $"obj"; v_used := false; v_referenced := false; v_local := false; v_staticMember := false; v_private := false; v_unusedAttr := false; v_defaultArg := false; v_canonicalType := $"struct objc_object *"; v_inTemplate := false; v_contexts := [CxObjCMethod true false false false; CxOther] |} None))] None)); (Node 5 [] (ObjCMethodDecl {| om_selector := $"compare:withOther:"; om_class := (Some $"A"); om_overriding := false; om_overridden := []; om_bodyLines := (0)%Z |} [(Node 6 [] (VarDecl {| v_isParm := true; v_name := $"obj1"; v_used := false; v_referenced := false; v_local := false; v_staticMember := false; v_private := false; v_unusedAttr := false; v_defaultArg := false; v_canonicalType := $"A *"; v_inTemplate := false; v_contexts := [CxObjCMethod true false false false; CxOther] |} None)); (Node 7 [] (VarDecl {| v_isParm := true; v_name := $"obj2"; v_used := false; v_referenced := false; v_local := false; v_staticMember := false; v_private := false; v_unusedAttr := false; v_defaultArg := false; v_canonicalType := $"A *"; v_inTemplate := false; v_contexts := [CxObjCMethod true false false false; CxOther] |} None))] None))]))); (toplevel 8 (TOther), (Node 8 [] (ObjCContainerDecl {| oc_kind := OKImplementation; oc_name := $"A"; oc_lines := (6)%Z; oc_ivars := 0; oc_methods := [($"isEqualTo:", true); ($"compare:withOther:", false)]; oc_classes := [$"A"; $"NSObject"]; oc_superMethods := (Some ($"NSObject", [])) |} [(Node 9 [] (ObjCMethodDecl {| om_selector := $"isEqualTo:"; om_class := (Some $"A"); om_overriding := false; om_overridden := []; om_bodyLines := (1)%Z |} [(Node 10 [] (VarDecl {| v_isParm := true; v_name := $"obj"; v_used := false; v_referenced := false; v_local := false; v_staticMember := false; v_private := false; v_unusedAttr := false; v_defaultArg := false; v_canonicalType := $"struct objc_object *"; v_inTemplate := false; v_contexts := [CxObjCMethod false false false false] |} None))] (Some (Node 11 [] (CompoundStmt [(Node 12 [] (ReturnStmt (Some (Node 13 $"BOOL" (CStyleCastExpr CK_Other (Node 14 $"int" (IntegerLiteral (1)%Z)))))))]))))); (Node 15 [] (ObjCMethodDecl {| om_selector := $"compare:withOther:"; om_class := (Some $"A"); om_overriding := false; om_overridden := []; om_bodyLines := (3)%Z |} [(Node 16 [] (VarDecl {| v_isParm := true; v_name := $"obj1"; v_used := true; v_referenced := true; v_local := false; v_staticMember := false; v_private := false; v_unusedAttr := false; v_defaultArg := false; v_canonicalType := $"A *"; v_inTemplate := false; v_contexts := [CxObjCMethod false false false false] |} None)); (Node 17 [] (VarDecl {| v_isParm := true; v_name := $"obj2"; v_used := true; v_referenced := true; v_local := false; v_staticMember := false; v_private := false; v_unusedAttr := false; v_defaultArg := false; v_canonicalType := $"A *"; v_inTemplate := false; v_contexts := [CxObjCMethod false false false false] |} None))] (Some (Node 18 [] (CompoundStmt [(Node 19 [] (IfStmt [] (Node 20 $"int" (BinaryOperator BO_LOr (Node 21 $"int" (BinaryOperator BO_EQ (Node 22 $"A *" (ImplicitCastExpr CK_LValueToRValue (Node 23 $"A *" (DeclRefExpr 16 $"obj1" false)))) (Node 24 $"A *" (ImplicitCastExpr CK_BitCast (Node 25 $"id" (CStyleCastExpr CK_NullToPointer (Node 26 $"int" (IntegerLiteral (0)%Z)))))))) (Node 27 $"int" (UnaryOperator UO_LNot (Node 28 $"BOOL" (ObjCMessageExpr {| ms_selector := $"isEqualTo:"; ms_receiver := RInstance; ms_implicit := false; ms_interface := (Some $"A"); ms_method := (Some (Decl [] (Some (Method false None (InOther (Some NoCategory)))))); ms_methodClass := (Some $"A") |} (Some (Node 29 $"A *" (ImplicitCastExpr CK_LValueToRValue (Node 30 $"A *" (DeclRefExpr 16 $"obj1" false))))) [(Node 31 $"id" (ImplicitCastExpr CK_BitCast (Node 32 $"A *" (ImplicitCastExpr CK_LValueToRValue (Node 33 $"A *" (DeclRefExpr 17 $"obj2" false))))))])))))) (Node 34 [] (CompoundStmt [(Node 35 [] NullStmt)])) None))])))))])))];
     ts_locs := [(2,1,2,24); (5,1,6,2); (7,1,10,2); (8,1,8,26); (8,20,8,23); (9,1,9,46); (9,18,9,22); (9,38,9,42); (11,1,16,1); (12,1,12,41); (12,20,12,23); (12,27,12,41); (12,29,12,36); (12,36,12,36); (12,36,12,36); (13,1,15,1); (13,18,13,22); (13,38,13,42); (13,47,15,1); (14,5,14,52); (14,9,14,45); (14,9,14,17); (14,9,14,9); (14,9,14,9); (14,17,14,17); (14,17,14,17); (14,17,14,17); (14,24,14,45); (14,25,14,45); (14,26,14,26); (14,26,14,26); (14,41,14,41); (14,41,14,41); (14,41,14,41); (14,48,14,52); (14,50,14,50)]%Z;
     ts_evals := []; ts_same := []; ts_decls := []; ts_parents := [] |}.
Example MisplacedNullCheck_ObjC_ExplicitButRedundantNullNeCheck_holds : sorted_violations_of (shippedRule sh_MisplacedNilCheck) MisplacedNullCheck_ObjC_ExplicitButRedundantNullNeCheck = Some [].
Proof. vm_compute. reflexivity. Qed.

Definition MisplacedNullCheck_ObjC_MisplacedEzButRedundantNullNeCheck : testcase :=
  {| ts_lang := LObjC; ts_path := $"input.m"; ts_code := [];
     ts_comments := []; ts_conf := [];
     ts_tops := [(toplevel 0 (TOther), (Node 0 [] (OtherDecl []))); (toplevel 1 (TOther), (Node 1 [] (ObjCContainerDecl {| oc_kind := OKInterface; oc_name := $"NSObject"; oc_lines := (2)%Z; oc_ivars := 0; oc_methods := []; oc_classes := [$"NSObject"]; oc_superMethods := None |} []))); (toplevel 2 (TOther), (Node 2 [] (ObjCContainerDecl {| oc_kind := OKInterface; oc_name := $"A"; oc_lines := (4)%Z; oc_ivars := 0; oc_methods := [($"isEqualTo:", true); ($"compare:withOther:", false)]; oc_classes := [$"A"; $"NSObject"]; oc_superMethods := (Some ($"NSObject", [])) |} [(Node 3 [] (ObjCMethodDecl {| om_selector := $"isEqualTo:"; om_class := (Some $"A"); om_overriding := false; om_overridden := []; om_bodyLines := (0)%Z |} [(Node 4 [] (VarDecl {| v_isParm := true; v_name := $"obj"; v_used := false; v_referenced := false; v_local := false; v_staticMember := false; v_private := false; v_unusedAttr := false; v_defaultArg := false; v_canonicalType := $"struct objc_object *"; v_inTemplate := false; v_contexts := [CxObjCMethod true false false false; CxOther] |} None))] None)); (Node 5 [] (ObjCMethodDecl {| om_selector := $"compare:withOther:"; om_class := (Some $"A"); om_overriding := false; om_overridden := []; om_bodyLines := (0)%Z |} [(Node 6 [] (VarDecl {| v_isParm := true; v_name := $"obj1"; v_used := false; v_referenced := false; v_local := false; v_staticMember := false; v_private := false; v_unusedAttr := false; v_defaultArg := false; v_canonicalType := $"A *"; v_inTemplate := false; v_contexts := [CxObjCMethod true false false false; CxOther] |} None)); (Node 7 [] (VarDecl {| v_isParm := true; v_name := $"obj2"; v_used := false; v_referenced := false; v_local := false; v_staticMember := false; v_private := false; v_unusedAttr := false; v_defaultArg := false; v_canonicalType := $"A *"; v_inTemplate := false; v_contexts := [CxObjCMethod true false false false; CxOther] |} None))] None))]))); (toplevel 8 (TOther), (Node 8 [] (ObjCContainerDecl {| oc_kind := OKImplementation; oc_name := $"A"; oc_lines := (6)%Z; oc_ivars := 0; oc_methods := [($"isEqualTo:", true); ($"compare:withOther:", false)]; oc_classes := [$"A"; $"NSObject"]; oc_superMethods := (Some ($"NSObject", [])) |} [(Node 9 [] (ObjCMethodDecl {| om_selector := $"isEqualTo:"; om_class := (Some $"A"); om_overriding := false; om_overridden := []; om_bodyLines := (1)%Z |} [(Node 10 [] (VarDecl {| v_isParm := true; v_name := $"obj"; v_used := false; v_referenced := false; v_local := false; v_staticMember := false; v_private := false; v_unusedAttr := false; v_defaultArg := false; v_canonicalType := $"struct objc_object *"; v_inTemplate := false; v_contexts := [CxObjCMethod false false false false] |} None))] (Some (Node 11 [] (CompoundStmt [(Node 12 [] (ReturnStmt (Some (Node 13 $"BOOL" (CStyleCastExpr CK_Other (Node 14 $"int" (IntegerLiteral (1)%Z)))))))]))))); (Node 15 [] (ObjCMethodDecl {| om_selector := $"compare:withOther:"; om_class := (Some $"A"); om_overriding := false; om_overridden := []; om_bodyLines := (3)%Z |} [(Node 16 [] (VarDecl {| v_isParm := true; v_name := $"obj1"; v_used := true; v_referenced := true; v_local := false; v_staticMember := false; v_private := false; v_unusedAttr := false; v_defaultArg := false; v_canonicalType := $"A *"; v_inTemplate := false; v_contexts := [CxObjCMethod false false false false] |} None)); (Node 17 [] (VarDecl {| v_isParm := true; v_name := $"obj2"; v_used := true; v_referenced := true; v_local := false; v_staticMember := false; v_private := false; v_unusedAttr := false; v_defaultArg := false; v_canonicalType := $"A *"; v_inTemplate := false; v_contexts := [CxObjCMethod false false false false] |} None))] (Some (Node 18 [] (CompoundStmt [(Node 19 [] (IfStmt [] (Node 20 $"int" (BinaryOperator BO_LOr (Node 21 $"int" (UnaryOperator UO_LNot (Node 22 $"BOOL" (ObjCMessageExpr {| ms_selector := $"isEqualTo:"; ms_receiver := RInstance; ms_implicit := false; ms_interface := (Some $"A"); ms_method := (Some (Decl [] (Some (Method false None (InOther (Some NoCategory)))))); ms_methodClass := (Some $"A") |} (Some (Node 23 $"A *" (ImplicitCastExpr CK_LValueToRValue (Node 24 $"A *" (DeclRefExpr 16 $"obj1" false))))) [(Node 25 $"id" (ImplicitCastExpr CK_BitCast (Node 26 $"A *" (ImplicitCastExpr CK_LValueToRValue (Node 27 $"A *" (DeclRefExpr 17 $"obj2" false))))))])))) (Node 28 $"int" (UnaryOperator UO_LNot (Node 29 $"A *" (ImplicitCastExpr CK_LValueToRValue (Node 30 $"A *" (DeclRefExpr 16 $"obj1" false)))))))) (Node 31 [] (CompoundStmt [(Node 32 [] NullStmt)])) None))])))))])))];
     ts_locs := [(2,1,2,24); (5,1,6,2); (7,1,10,2); (8,1,8,26); (8,20,8,23); (9,1,9,46); (9,18,9,22); (9,38,9,42); (11,1,16,1); (12,1,12,41); (12,20,12,23); (12,27,12,41); (12,29,12,36); (12,36,12,36); (12,36,12,36); (13,1,15,1); (13,18,13,22); (13,38,13,42); (13,47,15,1); (14,5,14,46); (14,9,14,36); (14,9,14,30); (14,10,14,30); (14,11,14,11); (14,11,14,11); (14,26,14,26); (14,26,14,26); (14,26,14,26); (14,35,14,36); (14,36,14,36); (14,36,14,36); (14,42,14,46); (14,44,14,44)]%Z;
     ts_evals := []; ts_same := []; ts_decls := []; ts_parents := [] |}.
Example MisplacedNullCheck_ObjC_MisplacedEzButRedundantNullNeCheck_holds : nth_violation (shippedRule sh_MisplacedNilCheck) MisplacedNullCheck_ObjC_MisplacedEzButRedundantNullNeCheck 0 = Some (14, 9, 14, 36, $"")%Z.
Proof. vm_compute. reflexivity. Qed.

Definition MisplacedNullCheck_ObjC_MisplacedExplicitButRedundantNullNeCheck : testcase :=
  {| ts_lang := LObjC; ts_path := $"input.m"; ts_code := [];
     ts_comments := []; ts_conf := [];
     ts_tops := [(toplevel 0 (TOther), (Node 0 [] (OtherDecl []))); (toplevel 1 (TOther), (Node 1 [] (ObjCContainerDecl {| oc_kind := OKInterface; oc_name := $"NSObject"; oc_lines := (2)%Z; oc_ivars := 0; oc_methods := []; oc_classes := [$"NSObject"]; oc_superMethods := None |} []))); (toplevel 2 (TOther), (Node 2 [] (ObjCContainerDecl {| oc_kind := OKInterface; oc_name := $"A"; oc_lines := (4)%Z; oc_ivars := 0; oc_methods := [($"isEqualTo:", true); ($"compare:withOther:", false)]; oc_classes := [$"A"; $"NSObject"]; oc_superMethods := (Some ($"NSObject", [])) |} [(Node 3 [] (ObjCMethodDecl {| om_selector := $"isEqualTo:"; om_class := (Some $"A"); om_overriding := false; om_overridden := []; om_bodyLines := (0)%Z |} [(Node 4 [] (VarDecl {| v_isParm := true; v_name := $"obj"; v_used := false; v_referenced := false; v_local := false; v_staticMember := false; v_private := false; v_unusedAttr := false; v_defaultArg := false; v_canonicalType := $"struct objc_object *"; v_inTemplate := false; v_contexts := [CxObjCMethod true false false false; CxOther] |} None))] None)); (Node 5 [] (ObjCMethodDecl {| om_selector := $"compare:withOther:"; om_class := (Some $"A"); om_overriding := false; om_overridden := []; om_bodyLines := (0)%Z |} [(Node 6 [] (VarDecl {| v_isParm := true; v_name := $"obj1"; v_used := false; v_referenced := false; v_local := false; v_staticMember := false; v_private := false; v_unusedAttr := false; v_defaultArg := false; v_canonicalType := $"A *"; v_inTemplate := false; v_contexts := [CxObjCMethod true false false false; CxOther] |} None)); (Node 7 [] (VarDecl {| v_isParm := true; v_name := $"obj2"; v_used := false; v_referenced := false; v_local := false; v_staticMember := false; v_private := false; v_unusedAttr := false; v_defaultArg := false; v_canonicalType := $"A *"; v_inTemplate := false; v_contexts := [CxObjCMethod true false false false; CxOther] |} None))] None))]))); (toplevel 8 (TOther), (Node 8 [] (ObjCContainerDecl {| oc_kind := OKImplementation; oc_name := $"A"; oc_lines := (6)%Z; oc_ivars := 0; oc_methods := [($"isEqualTo:", true); ($"compare:withOther:", false)]; oc_classes := [$"A"; $"NSObject"]; oc_superMethods := (Some ($"NSObject", [])) |} [(Node 9 [] (ObjCMethodDecl {| om_selector := $"isEqualTo:"; om_class := (Some $"A"); om_overriding := false; om_overridden := []; om_bodyLines := (1)%Z |} [(Node 10 [] (VarDecl {| v_isParm := true; v_name := $"obj"; v_used := false; v_referenced := false; v_local := false; v_staticMember := false; v_private := false; v_unusedAttr := false; v_defaultArg := false; v_canonicalType := $"struct objc_object *"; v_inTemplate := false; v_contexts := [CxObjCMethod false false false false] |} None))] (Some (Node 11 [] (CompoundStmt [(Node 12 [] (ReturnStmt (Some (Node 13 $"BOOL" (CStyleCastExpr CK_Other (Node 14 $"int" (IntegerLiteral (1)%Z)))))))]))))); (Node 15 [] (ObjCMethodDecl {| om_selector := $"compare:withOther:"; om_class := (Some $"A"); om_overriding := false; om_overridden := []; om_bodyLines := (3)%Z |} [(Node 16 [] (VarDecl {| v_isParm := true; v_name := $"obj1"; v_used := true; v_referenced := true; v_local := false; v_staticMember := false; v_private := false; v_unusedAttr := false; v_defaultArg := false; v_canonicalType := $"A *"; v_inTemplate := false; v_contexts := [CxObjCMethod false false false false] |} None)); (Node 17 [] (VarDecl {| v_isParm := true; v_name := $"obj2"; v_used := true; v_referenced := true; v_local := false; v_staticMember := false; v_private := false; v_unusedAttr := false; v_defaultArg := false; v_canonicalType := $"A *"; v_inTemplate := false; v_contexts := [CxObjCMethod false false false false] |} None))] (Some (Node 18 [] (CompoundStmt [(Node 19 [] (IfStmt [] (Node 20 $"int" (BinaryOperator BO_LOr (Node 21 $"int" (UnaryOperator UO_LNot (Node 22 $"BOOL" (ObjCMessageExpr {| ms_selector := $"isEqualTo:"; ms_receiver := RInstance; ms_implicit := false; ms_interface := (Some $"A"); ms_method := (Some (Decl [] (Some (Method false None (InOther (Some NoCategory)))))); ms_methodClass := (Some $"A") |} (Some (Node 23 $"A *" (ImplicitCastExpr CK_LValueToRValue (Node 24 $"A *" (DeclRefExpr 16 $"obj1" false))))) [(Node 25 $"id" (ImplicitCastExpr CK_BitCast (Node 26 $"A *" (ImplicitCastExpr CK_LValueToRValue (Node 27 $"A *" (DeclRefExpr 17 $"obj2" false))))))])))) (Node 28 $"int" (BinaryOperator BO_EQ (Node 29 $"A *" (ImplicitCastExpr CK_LValueToRValue (Node 30 $"A *" (DeclRefExpr 16 $"obj1" false)))) (Node 31 $"A *" (ImplicitCastExpr CK_BitCast (Node 32 $"id" (CStyleCastExpr CK_NullToPointer (Node 33 $"int" (IntegerLiteral (0)%Z)))))))))) (Node 34 [] (CompoundStmt [(Node 35 [] NullStmt)])) None))])))))])))];
     ts_locs := [(2,1,2,24); (5,1,6,2); (7,1,10,2); (8,1,8,26); (8,20,8,23); (9,1,9,46); (9,18,9,22); (9,38,9,42); (11,1,16,1); (12,1,12,41); (12,20,12,23); (12,27,12,41); (12,29,12,36); (12,36,12,36); (12,36,12,36); (13,1,15,1); (13,18,13,22); (13,38,13,42); (13,47,15,1); (14,5,14,52); (14,9,14,43); (14,9,14,30); (14,10,14,30); (14,11,14,11); (14,11,14,11); (14,26,14,26); (14,26,14,26); (14,26,14,26); (14,35,14,43); (14,35,14,35); (14,35,14,35); (14,43,14,43); (14,43,14,43); (14,43,14,43); (14,48,14,52); (14,50,14,50)]%Z;
     ts_evals := []; ts_same := []; ts_decls := []; ts_parents := [] |}.
Example MisplacedNullCheck_ObjC_MisplacedExplicitButRedundantNullNeCheck_holds : nth_violation (shippedRule sh_MisplacedNilCheck) MisplacedNullCheck_ObjC_MisplacedExplicitButRedundantNullNeCheck 0 = Some (14, 9, 14, 43, $"")%Z.
Proof. vm_compute. reflexivity. Qed.

Definition MisplacedNullCheck_C_ShouldIgnoreDifferentIdentifers : testcase :=
  {| ts_lang := LC; ts_path := $"input.c"; ts_code := [];
     ts_comments := []; ts_conf := [];
     ts_tops := [(toplevel 0 (TOther), (Node 0 [] (OtherDecl []))); (toplevel 1 (TOther), (Node 1 [] (OtherDecl [(Node 2 [] (OtherDecl [])); (Node 3 [] (OtherDecl []))]))); (toplevel 4 (TFunction false), (Node 4 [] (FunctionDecl {| f_name := $"m"; f_method := None; f_isDefinition := true; f_bodyLines := (1)%Z |} [(Node 5 [] (VarDecl {| v_isParm := true; v_name := $"a"; v_used := true; v_referenced := true; v_local := false; v_staticMember := false; v_private := false; v_unusedAttr := false; v_defaultArg := false; v_canonicalType := $"struct A *"; v_inTemplate := false; v_contexts := [CxFunction true true false] |} None)); (Node 6 [] (VarDecl {| v_isParm := true; v_name := $"b"; v_used := true; v_referenced := true; v_local := false; v_staticMember := false; v_private := false; v_unusedAttr := false; v_defaultArg := false; v_canonicalType := $"struct B *"; v_inTemplate := false; v_contexts := [CxFunction true true false] |} None))] (Some (Node 7 [] (CompoundStmt [(Node 8 [] (IfStmt [] (Node 9 [] (BinaryOperator BO_LOr (Node 10 [] (BinaryOperator BO_EQ (Node 11 [] (ImplicitCastExpr CK_LValueToRValue (Node 12 [] (MemberExpr true (Node 13 [] (ImplicitCastExpr CK_LValueToRValue (Node 14 [] (DeclRefExpr 5 $"a" false)))))))) (Node 15 [] (IntegerLiteral (1)%Z)))) (Node 16 [] (UnaryOperator UO_LNot (Node 17 [] (ImplicitCastExpr CK_LValueToRValue (Node 18 [] (DeclRefExpr 6 $"b" false)))))))) (Node 19 [] (CompoundStmt [(Node 20 [] NullStmt)])) None))]))))))];
     ts_locs := [(2,1,2,11); (3,1,6,1); (4,5,4,9); (5,5,5,9); (7,1,7,65); (7,8,7,18); (7,21,7,31); (7,34,7,65); (7,36,7,63); (7,40,7,56); (7,40,7,50); (7,40,7,43); (7,40,7,43); (7,40,7,40); (7,40,7,40); (7,50,7,50); (7,55,7,56); (7,56,7,56); (7,56,7,56); (7,59,7,63); (7,61,7,61)]%Z;
     ts_evals := []; ts_same := []; ts_decls := []; ts_parents := [] |}.
Example MisplacedNullCheck_C_ShouldIgnoreDifferentIdentifers_holds : sorted_violations_of (shippedRule sh_MisplacedNullCheck) MisplacedNullCheck_C_ShouldIgnoreDifferentIdentifers = Some [].
Proof. vm_compute. reflexivity. Qed.

Definition MisplacedNullCheck_ObjC_ShouldIgnoreDifferentIdentifers : testcase :=
  {| ts_lang := LObjC; ts_path := $"input.m"; ts_code := [];
     ts_comments := []; ts_conf := [];
     ts_tops := [(toplevel 0 (TOther), (Node 0 [] (OtherDecl []))); (toplevel 1 (TOther), (Node 1 [] (ObjCContainerDecl {| oc_kind := OKInterface; oc_name := $"NSObject"; oc_lines := (2)%Z; oc_ivars := 0; oc_methods := []; oc_classes := [$"NSObject"]; oc_superMethods := None |} []))); (toplevel 2 (TOther), (Node 2 [] (ObjCContainerDecl {| oc_kind := OKInterface; oc_name := $"A"; oc_lines := (4)%Z; oc_ivars := 0; oc_methods := [($"isEqualTo:", true); ($"compare:withOther:", false)]; oc_classes := [$"A"; $"NSObject"]; oc_superMethods := (Some ($"NSObject", [])) |} [(Node 3 [] (ObjCMethodDecl {| om_selector := $"isEqualTo:"; om_class := (Some $"A"); om_overriding := false; om_overridden := []; om_bodyLines := (0)%Z |} [(Node 4 [] (VarDecl {| v_isParm := true; v_name := $"obj"; v_used := false; v_referenced := false; v_local := false; v_staticMember := false; v_private := false; v_unusedAttr := false; v_defaultArg := false; v_canonicalType := $"struct objc_object *"; v_inTemplate := false; v_contexts := [CxObjCMethod true false false false; CxOther] |} None))] None)); (Node 5 [] (ObjCMethodDecl {| om_selector := $"compare:withOther:"; om_class := (Some $"A"); om_overriding := false; om_overridden := []; om_bodyLines := (0)%Z |} [(Node 6 [] (VarDecl {| v_isParm := true; v_name := $"obj1"; v_used := false; v_referenced := false; v_local := false; v_staticMember := false; v_private := false; v_unusedAttr := false; v_defaultArg := false; v_canonicalType := $"A *"; v_inTemplate := false; v_contexts := [CxObjCMethod true false false false; CxOther] |} None)); (Node 7 [] (VarDecl {| v_isParm := true; v_name := $"obj2"; v_used := false; v_referenced := false; v_local := false; v_staticMember := false; v_private := false; v_unusedAttr := false; v_defaultArg := false; v_canonicalType := $"A *"; v_inTemplate := false; v_contexts := [CxObjCMethod true false false false; CxOther] |} None))] None))]))); (toplevel 8 (TOther), (Node 8 [] (ObjCContainerDecl {| oc_kind := OKImplementation; oc_name := $"A"; oc_lines := (6)%Z; oc_ivars := 0; oc_methods := [($"isEqualTo:", true); ($"compare:withOther:", false)]; oc_classes := [$"A"; $"NSObject"]; oc_superMethods := (Some ($"NSObject", [])) |} [(Node 9 [] (ObjCMethodDecl {| om_selector := $"isEqualTo:"; om_class := (Some $"A"); om_overriding := false; om_overridden := []; om_bodyLines := (1)%Z |} [(Node 10 [] (VarDecl {| v_isParm := true; v_name := $"obj"; v_used := false; v_referenced := false; v_local := false; v_staticMember := false; v_private := false; v_unusedAttr := false; v_defaultArg := false; v_canonicalType := $"struct objc_object *"; v_inTemplate := false; v_contexts := [CxObjCMethod false false false false] |} None))] (Some (Node 11 [] (CompoundStmt [(Node 12 [] (ReturnStmt (Some (Node 13 $"BOOL" (CStyleCastExpr CK_Other (Node 14 $"int" (IntegerLiteral (1)%Z)))))))]))))); (Node 15 [] (ObjCMethodDecl {| om_selector := $"compare:withOther:"; om_class := (Some $"A"); om_overriding := false; om_overridden := []; om_bodyLines := (3)%Z |} [(Node 16 [] (VarDecl {| v_isParm := true; v_name := $"obj1"; v_used := true; v_referenced := true; v_local := false; v_staticMember := false; v_private := false; v_unusedAttr := false; v_defaultArg := false; v_canonicalType := $"A *"; v_inTemplate := false; v_contexts := [CxObjCMethod false false false false] |} None)); (Node 17 [] (VarDecl {| v_isParm := true; v_name := $"obj2"; v_used := true; v_referenced := true; v_local := false; v_staticMember := false; v_private := false; v_unusedAttr := false; v_defaultArg := false; v_canonicalType := $"A *"; v_inTemplate := false; v_contexts := [CxObjCMethod false false false false] |} None))] (Some (Node 18 [] (CompoundStmt [(Node 19 [] (IfStmt [] (Node 20 $"int" (BinaryOperator BO_LOr (Node 21 $"int" (UnaryOperator UO_LNot (Node 22 $"BOOL" (ObjCMessageExpr {| ms_selector := $"isEqualTo:"; ms_receiver := RInstance; ms_implicit := false; ms_interface := (Some $"A"); ms_method := (Some (Decl [] (Some (Method false None (InOther (Some NoCategory)))))); ms_methodClass := (Some $"A") |} (Some (Node 23 $"A *" (ImplicitCastExpr CK_LValueToRValue (Node 24 $"A *" (DeclRefExpr 17 $"obj2" false))))) [(Node 25 $"id" (ImplicitCastExpr CK_BitCast (Node 26 $"A *" (ImplicitCastExpr CK_LValueToRValue (Node 27 $"A *" (DeclRefExpr 16 $"obj1" false))))))])))) (Node 28 $"int" (BinaryOperator BO_EQ (Node 29 $"A *" (ImplicitCastExpr CK_LValueToRValue (Node 30 $"A *" (DeclRefExpr 16 $"obj1" false)))) (Node 31 $"A *" (ImplicitCastExpr CK_BitCast (Node 32 $"id" (CStyleCastExpr CK_NullToPointer (Node 33 $"int" (IntegerLiteral (0)%Z)))))))))) (Node 34 [] (CompoundStmt [(Node 35 [] NullStmt)])) None))])))))])))];
     ts_locs := [(2,1,2,24); (5,1,6,2); (7,1,10,2); (8,1,8,26); (8,20,8,23); (9,1,9,46); (9,18,9,22); (9,38,9,42); (11,1,16,1); (12,1,12,41); (12,20,12,23); (12,27,12,41); (12,29,12,36); (12,36,12,36); (12,36,12,36); (13,1,15,1); (13,18,13,22); (13,38,13,42); (13,47,15,1); (14,5,14,52); (14,9,14,43); (14,9,14,30); (14,10,14,30); (14,11,14,11); (14,11,14,11); (14,26,14,26); (14,26,14,26); (14,26,14,26); (14,35,14,43); (14,35,14,35); (14,35,14,35); (14,43,14,43); (14,43,14,43); (14,43,14,43); (14,48,14,52); (14,50,14,50)]%Z;
     ts_evals := []; ts_same := []; ts_decls := []; ts_parents := [] |}.
Example MisplacedNullCheck_ObjC_ShouldIgnoreDifferentIdentifers_holds : sorted_violations_of (shippedRule sh_MisplacedNilCheck) MisplacedNullCheck_ObjC_ShouldIgnoreDifferentIdentifers = Some [].
Proof. vm_compute. reflexivity. Qed.

Definition MisplacedNullCheck_C_NullEqualsNull : testcase :=
  {| ts_lang := LC; ts_path := $"input.c"; ts_code := [];
     ts_comments := []; ts_conf := [];
     ts_tops := [(toplevel 0 (TOther), (Node 0 [] (OtherDecl []))); (toplevel 1 (TOther), (Node 1 [] (OtherDecl [(Node 2 [] (OtherDecl [])); (Node 3 [] (OtherDecl []))]))); (toplevel 4 (TFunction false), (Node 4 [] (FunctionDecl {| f_name := $"m"; f_method := None; f_isDefinition := true; f_bodyLines := (1)%Z |} [(Node 5 [] (VarDecl {| v_isParm := true; v_name := $"a"; v_used := true; v_referenced := true; v_local := false; v_staticMember := false; v_private := false; v_unusedAttr := false; v_defaultArg := false; v_canonicalType := $"struct A *"; v_inTemplate := false; v_contexts := [CxFunction true true false] |} None)); (Node 6 [] (VarDecl {| v_isParm := true; v_name := $"b"; v_used := false; v_referenced := false; v_local := false; v_staticMember := false; v_private := false; v_unusedAttr := false; v_defaultArg := false; v_canonicalType := $"struct B *"; v_inTemplate := false; v_contexts := [CxFunction true true false] |} None))] (Some (Node 7 [] (CompoundStmt [(Node 8 [] (IfStmt [] (Node 9 [] (BinaryOperator BO_LOr (Node 10 [] (BinaryOperator BO_EQ (Node 11 [] (ImplicitCastExpr CK_LValueToRValue (Node 12 [] (MemberExpr true (Node 13 [] (ImplicitCastExpr CK_LValueToRValue (Node 14 [] (DeclRefExpr 5 $"a" false)))))))) (Node 15 [] (IntegerLiteral (1)%Z)))) (Node 16 [] (BinaryOperator BO_EQ (Node 17 [] (ParenExpr (Node 18 [] (CStyleCastExpr CK_NullToPointer (Node 19 [] (IntegerLiteral (0)%Z)))))) (Node 20 [] (ParenExpr (Node 21 [] (CStyleCastExpr CK_NullToPointer (Node 22 [] (IntegerLiteral (0)%Z)))))))))) (Node 23 [] (CompoundStmt [(Node 24 [] NullStmt)])) None))]))))))];
     ts_locs := [(2,1,2,11); (3,1,6,1); (4,5,4,9); (5,5,5,9); (7,1,7,75); (7,8,7,18); (7,21,7,31); (7,34,7,75); (7,36,7,73); (7,40,7,63); (7,40,7,50); (7,40,7,43); (7,40,7,43); (7,40,7,40); (7,40,7,40); (7,50,7,50); (7,55,7,63); (7,55,7,55); (7,55,7,55); (7,55,7,55); (7,63,7,63); (7,63,7,63); (7,63,7,63); (7,69,7,73); (7,71,7,71)]%Z;
     ts_evals := []; ts_same := []; ts_decls := []; ts_parents := [] |}.
Example MisplacedNullCheck_C_NullEqualsNull_holds : sorted_violations_of (shippedRule sh_MisplacedNullCheck) MisplacedNullCheck_C_NullEqualsNull = Some [].
Proof. vm_compute. reflexivity. Qed.

Definition MisplacedNullCheck_C_NullOnTheLeftHandSide : testcase :=
  {| ts_lang := LC; ts_path := $"input.c"; ts_code := [];
     ts_comments := []; ts_conf := [];
     ts_tops := [(toplevel 0 (TOther), (Node 0 [] (OtherDecl []))); (toplevel 1 (TOther), (Node 1 [] (OtherDecl [(Node 2 [] (OtherDecl [])); (Node 3 [] (OtherDecl []))]))); (toplevel 4 (TFunction false), (Node 4 [] (FunctionDecl {| f_name := $"m"; f_method := None; f_isDefinition := true; f_bodyLines := (1)%Z |} [(Node 5 [] (VarDecl {| v_isParm := true; v_name := $"a"; v_used := true; v_referenced := true; v_local := false; v_staticMember := false; v_private := false; v_unusedAttr := false; v_defaultArg := false; v_canonicalType := $"struct A *"; v_inTemplate := false; v_contexts := [CxFunction true true false] |} None)); (Node 6 [] (VarDecl {| v_isParm := true; v_name := $"b"; v_used := false; v_referenced := false; v_local := false; v_staticMember := false; v_private := false; v_unusedAttr := false; v_defaultArg := false; v_canonicalType := $"struct B *"; v_inTemplate := false; v_contexts := [CxFunction true true false] |} None))] (Some (Node 7 [] (CompoundStmt [(Node 8 [] (IfStmt [] (Node 9 [] (BinaryOperator BO_LOr (Node 10 [] (BinaryOperator BO_EQ (Node 11 [] (ImplicitCastExpr CK_LValueToRValue (Node 12 [] (MemberExpr true (Node 13 [] (ImplicitCastExpr CK_LValueToRValue (Node 14 [] (DeclRefExpr 5 $"a" false)))))))) (Node 15 [] (IntegerLiteral (1)%Z)))) (Node 16 [] (BinaryOperator BO_EQ (Node 17 [] (ImplicitCastExpr CK_NullToPointer (Node 18 [] (ParenExpr (Node 19 [] (CStyleCastExpr CK_NullToPointer (Node 20 [] (IntegerLiteral (0)%Z)))))))) (Node 21 [] (ImplicitCastExpr CK_LValueToRValue (Node 22 [] (DeclRefExpr 5 $"a" false)))))))) (Node 23 [] (CompoundStmt [(Node 24 [] NullStmt)])) None))]))))))];
     ts_locs := [(2,1,2,11); (3,1,6,1); (4,5,4,9); (5,5,5,9); (7,1,7,72); (7,8,7,18); (7,21,7,31); (7,34,7,72); (7,36,7,70); (7,40,7,63); (7,40,7,50); (7,40,7,43); (7,40,7,43); (7,40,7,40); (7,40,7,40); (7,50,7,50); (7,55,7,63); (7,55,7,55); (7,55,7,55); (7,55,7,55); (7,55,7,55); (7,63,7,63); (7,63,7,63); (7,66,7,70); (7,68,7,68)]%Z;
     ts_evals := []; ts_same := []; ts_decls := []; ts_parents := [] |}.
Example MisplacedNullCheck_C_NullOnTheLeftHandSide_holds : nth_violation (shippedRule sh_MisplacedNullCheck) MisplacedNullCheck_C_NullOnTheLeftHandSide 0 = Some (7, 40, 7, 63, $"")%Z.
Proof. vm_compute. reflexivity. Qed.

Definition MisplacedNullCheck_C_MultipleMemberExpr : testcase :=
  {| ts_lang := LC; ts_path := $"input.c"; ts_code := [];
     ts_comments := []; ts_conf := [];
     ts_tops := [(toplevel 0 (TOther), (Node 0 [] (OtherDecl []))); (toplevel 1 (TOther), (Node 1 [] (OtherDecl [(Node 2 [] (OtherDecl [])); (Node 3 [] (OtherDecl []))]))); (toplevel 4 (TOther), (Node 4 [] (OtherDecl [(Node 5 [] (OtherDecl []))]))); (toplevel 6 (TFunction false), (Node 6 [] (FunctionDecl {| f_name := $"m"; f_method := None; f_isDefinition := true; f_bodyLines := (1)%Z |} [(Node 7 [] (VarDecl {| v_isParm := true; v_name := $"a"; v_used := true; v_referenced := true; v_local := false; v_staticMember := false; v_private := false; v_unusedAttr := false; v_defaultArg := false; v_canonicalType := $"struct A *"; v_inTemplate := false; v_contexts := [CxFunction true true false] |} None)); (Node 8 [] (VarDecl {| v_isParm := true; v_name := $"c"; v_used := true; v_referenced := true; v_local := false; v_staticMember := false; v_private := false; v_unusedAttr := false; v_defaultArg := false; v_canonicalType := $"struct C *"; v_inTemplate := false; v_contexts := [CxFunction true true false] |} None))] (Some (Node 9 [] (CompoundStmt [(Node 10 [] (IfStmt [] (Node 11 [] (BinaryOperator BO_LAnd (Node 12 [] (ParenExpr (Node 13 [] (BinaryOperator BO_LAnd (Node 14 [] (BinaryOperator BO_EQ (Node 15 [] (ImplicitCastExpr CK_LValueToRValue (Node 16 [] (MemberExpr true (Node 17 [] (ImplicitCastExpr CK_LValueToRValue (Node 18 [] (DeclRefExpr 8 $"c" false)))))))) (Node 19 [] (IntegerLiteral (0)%Z)))) (Node 20 [] (BinaryOperator BO_EQ (Node 21 [] (ImplicitCastExpr CK_LValueToRValue (Node 22 [] (MemberExpr true (Node 23 [] (ImplicitCastExpr CK_LValueToRValue (Node 24 [] (DeclRefExpr 7 $"a" false)))))))) (Node 25 [] (IntegerLiteral (1)%Z)))))))) (Node 26 [] (BinaryOperator BO_NE (Node 27 [] (ImplicitCastExpr CK_LValueToRValue (Node 28 [] (DeclRefExpr 7 $"a" false)))) (Node 29 [] (ImplicitCastExpr CK_NullToPointer (Node 30 [] (ParenExpr (Node 31 [] (CStyleCastExpr CK_NullToPointer (Node 32 [] (IntegerLiteral (0)%Z)))))))))))) (Node 33 [] (CompoundStmt [(Node 34 [] NullStmt)])) None))]))))))];
     ts_locs := [(2,1,2,11); (3,1,6,1); (4,5,4,9); (5,5,5,9); (7,1,7,21); (7,12,7,16); (7,24,7,112); (7,31,7,41); (7,44,7,54); (7,57,7,112); (7,59,7,110); (7,63,7,100); (7,63,7,90); (7,64,7,89); (7,64,7,74); (7,64,7,67); (7,64,7,67); (7,64,7,64); (7,64,7,64); (7,74,7,74); (7,79,7,89); (7,79,7,82); (7,79,7,82); (7,79,7,79); (7,79,7,79); (7,89,7,89); (7,95,7,100); (7,95,7,95); (7,95,7,95); (7,100,7,100); (7,100,7,100); (7,100,7,100); (7,100,7,100); (7,106,7,110); (7,108,7,108)]%Z;
     ts_evals := []; ts_same := []; ts_decls := []; ts_parents := [] |}.
Example MisplacedNullCheck_C_MultipleMemberExpr_holds : nth_violation (shippedRule sh_MisplacedNullCheck) MisplacedNullCheck_C_MultipleMemberExpr 0 = Some (7, 63, 7, 100, $"")%Z.
Proof. vm_compute. reflexivity. Qed.

Definition MisplacedNullCheck_ObjC_MultipleMessageExpr : testcase :=
  {| ts_lang := LObjC; ts_path := $"input.m"; ts_code := [];
     ts_comments := []; ts_conf := [];
     ts_tops := [(toplevel 0 (TOther), (Node 0 [] (OtherDecl []))); (toplevel 1 (TOther), (Node 1 [] (ObjCContainerDecl {| oc_kind := OKInterface; oc_name := $"NSObject"; oc_lines := (2)%Z; oc_ivars := 0; oc_methods := []; oc_classes := [$"NSObject"]; oc_superMethods := None |} []))); (toplevel 2 (TOther), (Node 2 [] (ObjCContainerDecl {| oc_kind := OKInterface; oc_name := $"A"; oc_lines := (4)%Z; oc_ivars := 0; oc_methods := [($"isEqualTo:", true); ($"compare:withOther:", false)]; oc_classes := [$"A"; $"NSObject"]; oc_superMethods := (Some ($"NSObject", [])) |} [(Node 3 [] (ObjCMethodDecl {| om_selector := $"isEqualTo:"; om_class := (Some $"A"); om_overriding := false; om_overridden := []; om_bodyLines := (0)%Z |} [(Node 4 [] (VarDecl {| v_isParm := true; v_name := $"obj"; v_used := false; v_referenced := false; v_local := false; v_staticMember := false; v_private := false; v_unusedAttr := false; v_defaultArg := false; v_canonicalType := $"struct objc_object *"; v_inTemplate := false; v_contexts := [CxObjCMethod true false false false; CxOther] |} None))] None)); (Node 5 [] (ObjCMethodDecl {| om_selector := $"compare:withOther:"; om_class := (Some $"A"); om_overriding := false; om_overridden := []; om_bodyLines := (0)%Z |} [(Node 6 [] (VarDecl {| v_isParm := true; v_name := $"obj1"; v_used := false; v_referenced := false; v_local := false; v_staticMember := false; v_private := false; v_unusedAttr := false; v_defaultArg := false; v_canonicalType := $"A *"; v_inTemplate := false; v_contexts := [CxObjCMethod true false false false; CxOther] |} None)); (Node 7 [] (VarDecl {| v_isParm := true; v_name := $"obj2"; v_used := false; v_referenced := false; v_local := false; v_staticMember := false; v_private := false; v_unusedAttr := false; v_defaultArg := false; v_canonicalType := $"A *"; v_inTemplate := false; v_contexts := [CxObjCMethod true false false false; CxOther] |} None))] None))]))); (toplevel 8 (TOther), (Node 8 [] (ObjCContainerDecl {| oc_kind := OKImplementation; oc_name := $"A"; oc_lines := (6)%Z; oc_ivars := 0; oc_methods := [($"isEqualTo:", true); ($"compare:withOther:", false)]; oc_classes := [$"A"; $"NSObject"]; oc_superMethods := (Some ($"NSObject", [])) |} [(Node 9 [] (ObjCMethodDecl {| om_selector := $"isEqualTo:"; om_class := (Some $"A"); om_overriding := false; om_overridden := []; om_bodyLines := (1)%Z |} [(Node 10 [] (VarDecl {| v_isParm := true; v_name := $"obj"; v_used := false; v_referenced := false; v_local := false; v_staticMember := false; v_private := false; v_unusedAttr := false; v_defaultArg := false; v_canonicalType := $"struct objc_object *"; v_inTemplate := false; v_contexts := [CxObjCMethod false false false false] |} None))] (Some (Node 11 [] (CompoundStmt [(Node 12 [] (ReturnStmt (Some (Node 13 $"BOOL" (CStyleCastExpr CK_Other (Node 14 $"int" (IntegerLiteral (1)%Z)))))))]))))); (Node 15 [] (ObjCMethodDecl {| om_selector := $"compare:withOther:"; om_class := (Some $"A"); om_overriding := false; om_overridden := []; om_bodyLines := (3)%Z |} [(Node 16 [] (VarDecl {| v_isParm := true; v_name := $"obj1"; v_used := true; v_referenced := true; v_local := false; v_staticMember := false; v_private := false; v_unusedAttr := false; v_defaultArg := false; v_canonicalType := $"A *"; v_inTemplate := false; v_contexts := [CxObjCMethod false false false false] |} None)); (Node 17 [] (VarDecl {| v_isParm := true; v_name := $"obj2"; v_used := true; v_referenced := true; v_local := false; v_staticMember := false; v_private := false; v_unusedAttr := false; v_defaultArg := false; v_canonicalType := $"A *"; v_inTemplate := false; v_contexts := [CxObjCMethod false false false false] |} None))] (Some (Node 18 [] (CompoundStmt [(Node 19 [] (IfStmt [] (Node 20 $"int" (BinaryOperator BO_LAnd (Node 21 $"int" (ParenExpr (Node 22 $"int" (BinaryOperator BO_LAnd (Node 23 $"BOOL" (ObjCMessageExpr {| ms_selector := $"isEqualTo:"; ms_receiver := RInstance; ms_implicit := false; ms_interface := (Some $"A"); ms_method := (Some (Decl [] (Some (Method false None (InOther (Some NoCategory)))))); ms_methodClass := (Some $"A") |} (Some (Node 24 $"A *" (ImplicitCastExpr CK_LValueToRValue (Node 25 $"A *" (DeclRefExpr 17 $"obj2" false))))) [(Node 26 $"id" (ImplicitCastExpr CK_BitCast (Node 27 $"A *" (ImplicitCastExpr CK_LValueToRValue (Node 28 $"A *" (DeclRefExpr 16 $"obj1" false))))))])) (Node 29 $"BOOL" (ObjCMessageExpr {| ms_selector := $"isEqualTo:"; ms_receiver := RInstance; ms_implicit := false; ms_interface := (Some $"A"); ms_method := (Some (Decl [] (Some (Method false None (InOther (Some NoCategory)))))); ms_methodClass := (Some $"A") |} (Some (Node 30 $"A *" (ImplicitCastExpr CK_LValueToRValue (Node 31 $"A *" (DeclRefExpr 16 $"obj1" false))))) [(Node 32 $"id" (ImplicitCastExpr CK_BitCast (Node 33 $"A *" (ImplicitCastExpr CK_LValueToRValue (Node 34 $"A *" (DeclRefExpr 17 $"obj2" false))))))])))))) (Node 35 $"int" (BinaryOperator BO_NE (Node 36 $"A *" (ImplicitCastExpr CK_LValueToRValue (Node 37 $"A *" (DeclRefExpr 16 $"obj1" false)))) (Node 38 $"A *" (ImplicitCastExpr CK_BitCast (Node 39 $"id" (CStyleCastExpr CK_NullToPointer (Node 40 $"int" (IntegerLiteral (0)%Z)))))))))) (Node 41 [] (CompoundStmt [(Node 42 [] NullStmt)])) None))])))))])))];
     ts_locs := [(2,1,2,24); (5,1,6,2); (7,1,10,2); (8,1,8,26); (8,20,8,23); (9,1,9,46); (9,18,9,22); (9,38,9,42); (11,1,16,1); (12,1,12,41); (12,20,12,23); (12,27,12,41); (12,29,12,36); (12,36,12,36); (12,36,12,36); (13,1,15,1); (13,18,13,22); (13,38,13,42); (13,47,15,1); (14,5,14,78); (14,9,14,69); (14,9,14,56); (14,10,14,55); (14,10,14,30); (14,11,14,11); (14,11,14,11); (14,26,14,26); (14,26,14,26); (14,26,14,26); (14,35,14,55); (14,36,14,36); (14,36,14,36); (14,51,14,51); (14,51,14,51); (14,51,14,51); (14,61,14,69); (14,61,14,61); (14,61,14,61); (14,69,14,69); (14,69,14,69); (14,69,14,69); (14,74,14,78); (14,76,14,76)]%Z;
     ts_evals := []; ts_same := []; ts_decls := []; ts_parents := [] |}.
Example MisplacedNullCheck_ObjC_MultipleMessageExpr_holds : nth_violation (shippedRule sh_MisplacedNilCheck) MisplacedNullCheck_ObjC_MultipleMessageExpr 0 = Some (14, 9, 14, 69, $"")%Z.
Proof. vm_compute. reflexivity. Qed.

Definition MisplacedNullCheck_C_NullUnderTheHook : testcase :=
  {| ts_lang := LC; ts_path := $"input.c"; ts_code := [];
     ts_comments := []; ts_conf := [];
     ts_tops := [(toplevel 0 (TOther), (Node 0 [] (OtherDecl []))); (toplevel 1 (TOther), (Node 1 [] (OtherDecl [(Node 2 [] (OtherDecl [])); (Node 3 [] (OtherDecl []))]))); (toplevel 4 (TFunction false), (Node 4 [] (FunctionDecl {| f_name := $"m"; f_method := None; f_isDefinition := true; f_bodyLines := (1)%Z |} [(Node 5 [] (VarDecl {| v_isParm := true; v_name := $"a"; v_used := true; v_referenced := true; v_local := false; v_staticMember := false; v_private := false; v_unusedAttr := false; v_defaultArg := false; v_canonicalType := $"struct A *"; v_inTemplate := false; v_contexts := [CxFunction true true false] |} None)); (Node 6 [] (VarDecl {| v_isParm := true; v_name := $"b"; v_used := false; v_referenced := false; v_local := false; v_staticMember := false; v_private := false; v_unusedAttr := false; v_defaultArg := false; v_canonicalType := $"struct B *"; v_inTemplate := false; v_contexts := [CxFunction true true false] |} None))] (Some (Node 7 [] (CompoundStmt [(Node 8 [] (IfStmt [] (Node 9 [] (BinaryOperator BO_LAnd (Node 10 [] (BinaryOperator BO_EQ (Node 11 [] (ImplicitCastExpr CK_LValueToRValue (Node 12 [] (MemberExpr true (Node 13 [] (ImplicitCastExpr CK_LValueToRValue (Node 14 [] (DeclRefExpr 5 $"a" false)))))))) (Node 15 [] (IntegerLiteral (1)%Z)))) (Node 16 [] (BinaryOperator BO_NE (Node 17 [] (ImplicitCastExpr CK_LValueToRValue (Node 18 [] (DeclRefExpr 5 $"a" false)))) (Node 19 [] (ImplicitCastExpr CK_NullToPointer (Node 20 [] (ParenExpr (Node 21 [] (CStyleCastExpr CK_NullToPointer (Node 22 [] (IntegerLiteral (0)%Z)))))))))))) (Node 23 [] (CompoundStmt [(Node 24 [] NullStmt)])) None))]))))))];
     ts_locs := [(2,1,2,11); (3,1,6,1); (4,5,4,9); (5,5,5,9); (8,1,8,72); (8,8,8,18); (8,21,8,31); (8,34,8,72); (8,36,8,70); (8,40,8,60); (8,40,8,50); (8,40,8,43); (8,40,8,43); (8,40,8,40); (8,40,8,40); (8,50,8,50); (8,55,8,60); (8,55,8,55); (8,55,8,55); (8,60,8,60); (8,60,8,60); (8,60,8,60); (8,60,8,60); (8,66,8,70); (8,68,8,68)]%Z;
     ts_evals := []; ts_same := []; ts_decls := []; ts_parents := [] |}.
Example MisplacedNullCheck_C_NullUnderTheHook_holds : nth_violation (shippedRule sh_MisplacedNullCheck) MisplacedNullCheck_C_NullUnderTheHook 0 = Some (8, 40, 8, 60, $"")%Z.
Proof. vm_compute. reflexivity. Qed.

Definition MisplacedNullCheck_C_ExplicitNull : testcase :=
  {| ts_lang := LC; ts_path := $"input.c"; ts_code := [];
     ts_comments := []; ts_conf := [];
     ts_tops := [(toplevel 0 (TOther), (Node 0 [] (OtherDecl []))); (toplevel 1 (TOther), (Node 1 [] (OtherDecl [(Node 2 [] (OtherDecl [])); (Node 3 [] (OtherDecl []))]))); (toplevel 4 (TFunction false), (Node 4 [] (FunctionDecl {| f_name := $"m"; f_method := None; f_isDefinition := true; f_bodyLines := (1)%Z |} [(Node 5 [] (VarDecl {| v_isParm := true; v_name := $"a"; v_used := true; v_referenced := true; v_local := false; v_staticMember := false; v_private := false; v_unusedAttr := false; v_defaultArg := false; v_canonicalType := $"struct A *"; v_inTemplate := false; v_contexts := [CxFunction true true false] |} None)); (Node 6 [] (VarDecl {| v_isParm := true; v_name := $"b"; v_used := false; v_referenced := false; v_local := false; v_staticMember := false; v_private := false; v_unusedAttr := false; v_defaultArg := false; v_canonicalType := $"struct B *"; v_inTemplate := false; v_contexts := [CxFunction true true false] |} None))] (Some (Node 7 [] (CompoundStmt [(Node 8 [] (IfStmt [] (Node 9 [] (BinaryOperator BO_LAnd (Node 10 [] (BinaryOperator BO_EQ (Node 11 [] (ImplicitCastExpr CK_LValueToRValue (Node 12 [] (MemberExpr true (Node 13 [] (ImplicitCastExpr CK_LValueToRValue (Node 14 [] (DeclRefExpr 5 $"a" false)))))))) (Node 15 [] (IntegerLiteral (1)%Z)))) (Node 16 [] (BinaryOperator BO_NE (Node 17 [] (ImplicitCastExpr CK_LValueToRValue (Node 18 [] (DeclRefExpr 5 $"a" false)))) (Node 19 [] (ImplicitCastExpr CK_NullToPointer (Node 20 [] (ParenExpr (Node 21 [] (CStyleCastExpr CK_NullToPointer (Node 22 [] (IntegerLiteral (0)%Z)))))))))))) (Node 23 [] (CompoundStmt [(Node 24 [] NullStmt)])) None))]))))))];
     ts_locs := [(2,1,2,11); (3,1,6,1); (4,5,4,9); (5,5,5,9); (7,1,7,78); (7,8,7,18); (7,21,7,31); (7,34,7,78); (7,36,7,76); (7,40,7,69); (7,40,7,50); (7,40,7,43); (7,40,7,43); (7,40,7,40); (7,40,7,40); (7,50,7,50); (7,55,7,69); (7,55,7,55); (7,55,7,55); (7,60,7,69); (7,60,7,69); (7,61,7,68); (7,68,7,68); (7,72,7,76); (7,74,7,74)]%Z;
     ts_evals := []; ts_same := []; ts_decls := []; ts_parents := [] |}.
Example MisplacedNullCheck_C_ExplicitNull_holds : nth_violation (shippedRule sh_MisplacedNullCheck) MisplacedNullCheck_C_ExplicitNull 0 = Some (7, 40, 7, 69, $"")%Z.
Proof. vm_compute. reflexivity. Qed.

Definition MisplacedNullCheck_C_NullIsNotNull : testcase :=
  {| ts_lang := LC; ts_path := $"input.c"; ts_code := [];
     ts_comments := []; ts_conf := [];
     ts_tops := [(toplevel 0 (TOther), (Node 0 [] (OtherDecl []))); (toplevel 1 (TOther), (Node 1 [] (OtherDecl [(Node 2 [] (OtherDecl [])); (Node 3 [] (OtherDecl []))]))); (toplevel 4 (TFunction false), (Node 4 [] (FunctionDecl {| f_name := $"m"; f_method := None; f_isDefinition := true; f_bodyLines := (1)%Z |} [(Node 5 [] (VarDecl {| v_isParm := true; v_name := $"a"; v_used := true; v_referenced := true; v_local := false; v_staticMember := false; v_private := false; v_unusedAttr := false; v_defaultArg := false; v_canonicalType := $"struct A *"; v_inTemplate := false; v_contexts := [CxFunction true true false] |} None)); (Node 6 [] (VarDecl {| v_isParm := true; v_name := $"b"; v_used := false; v_referenced := false; v_local := false; v_staticMember := false; v_private := false; v_unusedAttr := false; v_defaultArg := false; v_canonicalType := $"struct B *"; v_inTemplate := false; v_contexts := [CxFunction true true false] |} None))] (Some (Node 7 [] (CompoundStmt [(Node 8 [] (IfStmt [] (Node 9 [] (BinaryOperator BO_LAnd (Node 10 [] (BinaryOperator BO_EQ (Node 11 [] (ImplicitCastExpr CK_LValueToRValue (Node 12 [] (MemberExpr true (Node 13 [] (ImplicitCastExpr CK_LValueToRValue (Node 14 [] (DeclRefExpr 5 $"a" false)))))))) (Node 15 [] (IntegerLiteral (1)%Z)))) (Node 16 [] (BinaryOperator BO_NE (Node 17 [] (ImplicitCastExpr CK_LValueToRValue (Node 18 [] (DeclRefExpr 5 $"a" false)))) (Node 19 [] (ImplicitCastExpr CK_BitCast (Node 20 [] (ParenExpr (Node 21 [] (CStyleCastExpr CK_Other (Node 22 [] (IntegerLiteral (2)%Z)))))))))))) (Node 23 [] (CompoundStmt [(Node 24 [] NullStmt)])) None))]))))))];
     ts_locs := [(2,1,2,11); (3,1,6,1); (4,5,4,9); (5,5,5,9); (8,1,8,72); (8,8,8,18); (8,21,8,31); (8,34,8,72); (8,36,8,70); (8,40,8,60); (8,40,8,50); (8,40,8,43); (8,40,8,43); (8,40,8,40); (8,40,8,40); (8,50,8,50); (8,55,8,60); (8,55,8,55); (8,55,8,55); (8,60,8,60); (8,60,8,60); (8,60,8,60); (8,60,8,60); (8,66,8,70); (8,68,8,68)]%Z;
     ts_evals := []; ts_same := []; ts_decls := []; ts_parents := [] |}.
Example MisplacedNullCheck_C_NullIsNotNull_holds : sorted_violations_of (shippedRule sh_MisplacedNullCheck) MisplacedNullCheck_C_NullIsNotNull = Some [].
Proof. vm_compute. reflexivity. Qed.

Definition MisplacedNullCheck_Cpp_NullUnderTheHook : testcase :=
  {| ts_lang := LCXX; ts_path := $"input.cpp"; ts_code := [];
     ts_comments := []; ts_conf := [];
     ts_tops := [(toplevel 0 (TOther), (Node 0 [] (CXXRecordDecl {| r_class := (CxxRecord 0 $"B" true false None []); r_fields := 0; r_methods := 0; r_lines := (1)%Z |} []))); (toplevel 1 (TOther), (Node 1 [] (CXXRecordDecl {| r_class := (CxxRecord 1 $"A" true false None []); r_fields := 0; r_methods := 2; r_lines := (5)%Z |} [(Node 2 [] (FunctionDecl {| f_name := $"foo"; f_method := (Some {| cm_virtual := false; cm_static := false; cm_private := false; cm_inRecord := true |}); f_isDefinition := false; f_bodyLines := (0)%Z |} [(Node 3 [] (VarDecl {| v_isParm := true; v_name := $"f"; v_used := false; v_referenced := false; v_local := false; v_staticMember := false; v_private := false; v_unusedAttr := false; v_defaultArg := false; v_canonicalType := $"A *"; v_inTemplate := false; v_contexts := [CxFunction false false false; CxRecord] |} None))] None)); (Node 4 [] (FunctionDecl {| f_name := $"bar"; f_method := (Some {| cm_virtual := false; cm_static := false; cm_private := false; cm_inRecord := true |}); f_isDefinition := false; f_bodyLines := (0)%Z |} [(Node 5 [] (VarDecl {| v_isParm := true; v_name := $"b"; v_used := false; v_referenced := false; v_local := false; v_staticMember := false; v_private := false; v_unusedAttr := false; v_defaultArg := false; v_canonicalType := $"B *"; v_inTemplate := false; v_contexts := [CxFunction false false false; CxRecord] |} None))] None))]))); (toplevel 6 (TFunction false), (Node 6 [] (FunctionDecl {| f_name := $"m"; f_method := None; f_isDefinition := true; f_bodyLines := (1)%Z |} [(Node 7 [] (VarDecl {| v_isParm := true; v_name := $"a"; v_used := true; v_referenced := true; v_local := false; v_staticMember := false; v_private := false; v_unusedAttr := false; v_defaultArg := false; v_canonicalType := $"A *"; v_inTemplate := false; v_contexts := [CxFunction true true false] |} None)); (Node 8 [] (VarDecl {| v_isParm := true; v_name := $"b"; v_used := true; v_referenced := true; v_local := false; v_staticMember := false; v_private := false; v_unusedAttr := false; v_defaultArg := false; v_canonicalType := $"B *"; v_inTemplate := false; v_contexts := [CxFunction true true false] |} None))] (Some (Node 9 [] (CompoundStmt [(Node 10 [] (IfStmt [] (Node 11 [] (BinaryOperator BO_LAnd (Node 12 [] (CallExpr (Some ($"bar", Decl [] None)) (Node 13 [] (MemberExpr true (Node 14 [] (ImplicitCastExpr CK_LValueToRValue (Node 15 [] (DeclRefExpr 7 $"a" false)))))) [(Node 16 [] (ImplicitCastExpr CK_LValueToRValue (Node 17 [] (DeclRefExpr 8 $"b" false))))])) (Node 18 [] (BinaryOperator BO_NE (Node 19 [] (ImplicitCastExpr CK_LValueToRValue (Node 20 [] (DeclRefExpr 7 $"a" false)))) (Node 21 [] (ImplicitCastExpr CK_NullToPointer (Node 22 [] (IntegerLiteral (0)%Z)))))))) (Node 23 [] (CompoundStmt [(Node 24 [] NullStmt)])) None))]))))))];
     ts_locs := [(2,1,2,10); (3,1,7,1); (5,5,5,18); (5,14,5,17); (6,5,6,18); (6,14,6,17); (9,1,9,56); (9,8,9,11); (9,14,9,17); (9,20,9,56); (9,22,9,54); (9,26,9,44); (9,26,9,34); (9,26,9,29); (9,26,9,26); (9,26,9,26); (9,33,9,33); (9,33,9,33); (9,39,9,44); (9,39,9,39); (9,39,9,39); (9,44,9,44); (9,44,9,44); (9,50,9,54); (9,52,9,52)]%Z;
     ts_evals := []; ts_same := []; ts_decls := []; ts_parents := [] |}.
Example MisplacedNullCheck_Cpp_NullUnderTheHook_holds : nth_violation (shippedRule sh_MisplacedNullCheck) MisplacedNullCheck_Cpp_NullUnderTheHook 0 = Some (9, 26, 9, 44, $"")%Z.
Proof. vm_compute. reflexivity. Qed.

Definition MisplacedNullCheck_Cpp_ExplicitNull : testcase :=
  {| ts_lang := LCXX; ts_path := $"input.cpp"; ts_code := [];
     ts_comments := []; ts_conf := [];
     ts_tops := [(toplevel 0 (TOther), (Node 0 [] (CXXRecordDecl {| r_class := (CxxRecord 0 $"B" true false None []); r_fields := 0; r_methods := 0; r_lines := (1)%Z |} []))); (toplevel 1 (TOther), (Node 1 [] (CXXRecordDecl {| r_class := (CxxRecord 1 $"A" true false None []); r_fields := 0; r_methods := 2; r_lines := (5)%Z |} [(Node 2 [] (FunctionDecl {| f_name := $"foo"; f_method := (Some {| cm_virtual := false; cm_static := false; cm_private := false; cm_inRecord := true |}); f_isDefinition := false; f_bodyLines := (0)%Z |} [(Node 3 [] (VarDecl {| v_isParm := true; v_name := $"f"; v_used := false; v_referenced := false; v_local := false; v_staticMember := false; v_private := false; v_unusedAttr := false; v_defaultArg := false; v_canonicalType := $"A *"; v_inTemplate := false; v_contexts := [CxFunction false false false; CxRecord] |} None))] None)); (Node 4 [] (FunctionDecl {| f_name := $"bar"; f_method := (Some {| cm_virtual := false; cm_static := false; cm_private := false; cm_inRecord := true |}); f_isDefinition := false; f_bodyLines := (0)%Z |} [(Node 5 [] (VarDecl {| v_isParm := true; v_name := $"b"; v_used := false; v_referenced := false; v_local := false; v_staticMember := false; v_private := false; v_unusedAttr := false; v_defaultArg := false; v_canonicalType := $"B *"; v_inTemplate := false; v_contexts := [CxFunction false false false; CxRecord] |} None))] None))]))); (toplevel 6 (TFunction false), (Node 6 [] (FunctionDecl {| f_name := $"m"; f_method := None; f_isDefinition := true; f_bodyLines := (1)%Z |} [(Node 7 [] (VarDecl {| v_isParm := true; v_name := $"a"; v_used := true; v_referenced := true; v_local := false; v_staticMember := false; v_private := false; v_unusedAttr := false; v_defaultArg := false; v_canonicalType := $"A *"; v_inTemplate := false; v_contexts := [CxFunction true true false] |} None)); (Node 8 [] (VarDecl {| v_isParm := true; v_name := $"b"; v_used := true; v_referenced := true; v_local := false; v_staticMember := false; v_private := false; v_unusedAttr := false; v_defaultArg := false; v_canonicalType := $"B *"; v_inTemplate := false; v_contexts := [CxFunction true true false] |} None))] (Some (Node 9 [] (CompoundStmt [(Node 10 [] (IfStmt [] (Node 11 [] (BinaryOperator BO_LAnd (Node 12 [] (CallExpr (Some ($"bar", Decl [] None)) (Node 13 [] (MemberExpr true (Node 14 [] (ImplicitCastExpr CK_LValueToRValue (Node 15 [] (DeclRefExpr 7 $"a" false)))))) [(Node 16 [] (ImplicitCastExpr CK_LValueToRValue (Node 17 [] (DeclRefExpr 8 $"b" false))))])) (Node 18 [] (BinaryOperator BO_NE (Node 19 [] (ImplicitCastExpr CK_LValueToRValue (Node 20 [] (DeclRefExpr 7 $"a" false)))) (Node 21 [] (ImplicitCastExpr CK_NullToPointer (Node 22 [] (IntegerLiteral (0)%Z)))))))) (Node 23 [] (CompoundStmt [(Node 24 [] NullStmt)])) None))]))))))];
     ts_locs := [(2,1,2,10); (3,1,7,1); (5,5,5,18); (5,14,5,17); (6,5,6,18); (6,14,6,17); (8,1,8,53); (8,8,8,11); (8,14,8,17); (8,20,8,53); (8,22,8,51); (8,26,8,44); (8,26,8,34); (8,26,8,29); (8,26,8,26); (8,26,8,26); (8,33,8,33); (8,33,8,33); (8,39,8,44); (8,39,8,39); (8,39,8,39); (8,44,8,44); (8,44,8,44); (8,47,8,51); (8,49,8,49)]%Z;
     ts_evals := []; ts_same := []; ts_decls := []; ts_parents := [] |}.
Example MisplacedNullCheck_Cpp_ExplicitNull_holds : nth_violation (shippedRule sh_MisplacedNullCheck) MisplacedNullCheck_Cpp_ExplicitNull 0 = Some (8, 26, 8, 44, $"")%Z.
Proof. vm_compute. reflexivity. Qed.

Definition MisplacedNullCheck_ObjC_NullUnderTheHook : testcase :=
  {| ts_lang := LObjC; ts_path := $"input.m"; ts_code := [];
     ts_comments := []; ts_conf := [];
     ts_tops := [(toplevel 0 (TOther), (Node 0 [] (OtherDecl []))); (toplevel 1 (TOther), (Node 1 [] (ObjCContainerDecl {| oc_kind := OKInterface; oc_name := $"NSObject"; oc_lines := (2)%Z; oc_ivars := 0; oc_methods := []; oc_classes := [$"NSObject"]; oc_superMethods := None |} []))); (toplevel 2 (TOther), (Node 2 [] (ObjCContainerDecl {| oc_kind := OKInterface; oc_name := $"A"; oc_lines := (4)%Z; oc_ivars := 0; oc_methods := [($"isEqualTo:", true); ($"compare:withOther:", false)]; oc_classes := [$"A"; $"NSObject"]; oc_superMethods := (Some ($"NSObject", [])) |} [(Node 3 [] (ObjCMethodDecl {| om_selector := $"isEqualTo:"; om_class := (Some $"A"); om_overriding := false; om_overridden := []; om_bodyLines := (0)%Z |} [(Node 4 [] (VarDecl {| v_isParm := true; v_name := $"obj"; v_used := false; v_referenced := false; v_local := false; v_staticMember := false; v_private := false; v_unusedAttr := false; v_defaultArg := false; v_canonicalType := $"struct objc_object *"; v_inTemplate := false; v_contexts := [CxObjCMethod true false false false; CxOther] |} None))] None)); (Node 5 [] (ObjCMethodDecl {| om_selector := $"compare:withOther:"; om_class := (Some $"A"); om_overriding := false; om_overridden := []; om_bodyLines := (0)%Z |} [(Node 6 [] (VarDecl {| v_isParm := true; v_name := $"obj1"; v_used := false; v_referenced := false; v_local := false; v_staticMember := false; v_private := false; v_unusedAttr := false; v_defaultArg := false; v_canonicalType := $"A *"; v_inTemplate := false; v_contexts := [CxObjCMethod true false false false; CxOther] |} None)); (Node 7 [] (VarDecl {| v_isParm := true; v_name := $"obj2"; v_used := false; v_referenced := false; v_local := false; v_staticMember := false; v_private := false; v_unusedAttr := false; v_defaultArg := false; v_canonicalType := $"A *"; v_inTemplate := false; v_contexts := [CxObjCMethod true false false false; CxOther] |} None))] None))]))); (toplevel 8 (TOther), (Node 8 [] (ObjCContainerDecl {| oc_kind := OKImplementation; oc_name := $"A"; oc_lines := (6)%Z; oc_ivars := 0; oc_methods := [($"isEqualTo:", true); ($"compare:withOther:", false)]; oc_classes := [$"A"; $"NSObject"]; oc_superMethods := (Some ($"NSObject", [])) |} [(Node 9 [] (ObjCMethodDecl {| om_selector := $"isEqualTo:"; om_class := (Some $"A"); om_overriding := false; om_overridden := []; om_bodyLines := (1)%Z |} [(Node 10 [] (VarDecl {| v_isParm := true; v_name := $"obj"; v_used := false; v_referenced := false; v_local := false; v_staticMember := false; v_private := false; v_unusedAttr := false; v_defaultArg := false; v_canonicalType := $"struct objc_object *"; v_inTemplate := false; v_contexts := [CxObjCMethod false false false false] |} None))] (Some (Node 11 [] (CompoundStmt [(Node 12 [] (ReturnStmt (Some (Node 13 $"BOOL" (CStyleCastExpr CK_Other (Node 14 $"int" (IntegerLiteral (1)%Z)))))))]))))); (Node 15 [] (ObjCMethodDecl {| om_selector := $"compare:withOther:"; om_class := (Some $"A"); om_overriding := false; om_overridden := []; om_bodyLines := (3)%Z |} [(Node 16 [] (VarDecl {| v_isParm := true; v_name := $"obj1"; v_used := true; v_referenced := true; v_local := false; v_staticMember := false; v_private := false; v_unusedAttr := false; v_defaultArg := false; v_canonicalType := $"A *"; v_inTemplate := false; v_contexts := [CxObjCMethod false false false false] |} None)); (Node 17 [] (VarDecl {| v_isParm := true; v_name := $"obj2"; v_used := true; v_referenced := true; v_local := false; v_staticMember := false; v_private := false; v_unusedAttr := false; v_defaultArg := false; v_canonicalType := $"A *"; v_inTemplate := false; v_contexts := [CxObjCMethod false false false false] |} None))] (Some (Node 18 [] (CompoundStmt [(Node 19 [] (IfStmt [] (Node 20 $"int" (BinaryOperator BO_LAnd (Node 21 $"BOOL" (ObjCMessageExpr {| ms_selector := $"isEqualTo:"; ms_receiver := RInstance; ms_implicit := false; ms_interface := (Some $"A"); ms_method := (Some (Decl [] (Some (Method false None (InOther (Some NoCategory)))))); ms_methodClass := (Some $"A") |} (Some (Node 22 $"A *" (ImplicitCastExpr CK_LValueToRValue (Node 23 $"A *" (DeclRefExpr 16 $"obj1" false))))) [(Node 24 $"id" (ImplicitCastExpr CK_BitCast (Node 25 $"A *" (ImplicitCastExpr CK_LValueToRValue (Node 26 $"A *" (DeclRefExpr 17 $"obj2" false))))))])) (Node 27 $"int" (BinaryOperator BO_NE (Node 28 $"A *" (ImplicitCastExpr CK_LValueToRValue (Node 29 $"A *" (DeclRefExpr 16 $"obj1" false)))) (Node 30 $"A *" (ImplicitCastExpr CK_BitCast (Node 31 $"id" (CStyleCastExpr CK_NullToPointer (Node 32 $"int" (IntegerLiteral (0)%Z)))))))))) (Node 33 [] (CompoundStmt [(Node 34 [] NullStmt)])) None))])))))])))];
     ts_locs := [(2,1,2,24); (5,1,6,2); (7,1,10,2); (8,1,8,26); (8,20,8,23); (9,1,9,46); (9,18,9,22); (9,38,9,42); (12,1,17,1); (13,1,13,41); (13,20,13,23); (13,27,13,41); (13,29,13,36); (13,36,13,36); (13,36,13,36); (14,1,16,1); (14,18,14,22); (14,38,14,42); (14,47,16,1); (15,5,15,52); (15,9,15,42); (15,9,15,29); (15,10,15,10); (15,10,15,10); (15,25,15,25); (15,25,15,25); (15,25,15,25); (15,34,15,42); (15,34,15,34); (15,34,15,34); (15,42,15,42); (15,42,15,42); (15,42,15,42); (15,48,15,52); (15,50,15,50)]%Z;
     ts_evals := []; ts_same := []; ts_decls := []; ts_parents := [] |}.
Example MisplacedNullCheck_ObjC_NullUnderTheHook_holds : nth_violation (shippedRule sh_MisplacedNilCheck) MisplacedNullCheck_ObjC_NullUnderTheHook 0 = Some (15, 9, 15, 42, $"")%Z.
Proof. vm_compute. reflexivity. Qed.

Definition MisplacedNullCheck_ObjC_ExplicitNull : testcase :=
  {| ts_lang := LObjC; ts_path := $"input.m"; ts_code := [];
     ts_comments := []; ts_conf := [];
     ts_tops := [(toplevel 0 (TOther), (Node 0 [] (OtherDecl []))); (toplevel 1 (TOther), (Node 1 [] (ObjCContainerDecl {| oc_kind := OKInterface; oc_name := $"NSObject"; oc_lines := (2)%Z; oc_ivars := 0; oc_methods := []; oc_classes := [$"NSObject"]; oc_superMethods := None |} []))); (toplevel 2 (TOther), (Node 2 [] (ObjCContainerDecl {| oc_kind := OKInterface; oc_name := $"A"; oc_lines := (4)%Z; oc_ivars := 0; oc_methods := [($"isEqualTo:", true); ($"compare:withOther:", false)]; oc_classes := [$"A"; $"NSObject"]; oc_superMethods := (Some ($"NSObject", [])) |} [(Node 3 [] (ObjCMethodDecl {| om_selector := $"isEqualTo:"; om_class := (Some $"A"); om_overriding := false; om_overridden := []; om_bodyLines := (0)%Z |} [(Node 4 [] (VarDecl {| v_isParm := true; v_name := $"obj"; v_used := false; v_referenced := false; v_local := false; v_staticMember := false; v_private := false; v_unusedAttr := false; v_defaultArg := false; v_canonicalType := $"struct objc_object *"; v_inTemplate := false; v_contexts := [CxObjCMethod true false false false; CxOther] |} None))] None)); (Node 5 [] (ObjCMethodDecl {| om_selector := $"compare:withOther:"; om_class := (Some $"A"); om_overriding := false; om_overridden := []; om_bodyLines := (0)%Z |} [(Node 6 [] (VarDecl {| v_isParm := true; v_name := $"obj1"; v_used := false; v_referenced := false; v_local := false; v_staticMember := false; v_private := false; v_unusedAttr := false; v_defaultArg := false; v_canonicalType := $"A *"; v_inTemplate := false; v_contexts := [CxObjCMethod true false false false; CxOther] |} None)); (Node 7 [] (VarDecl {| v_isParm := true; v_name := $"obj2"; v_used := false; v_referenced := false; v_local := false; v_staticMember := false; v_private := false; v_unusedAttr := false; v_defaultArg := false; v_canonicalType := $"A *"; v_inTemplate := false; v_contexts := [CxObjCMethod true false false false; CxOther] |} None))] None))]))); (toplevel 8 (TOther), (Node 8 [] (ObjCContainerDecl {| oc_kind := OKImplementation; oc_name := $"A"; oc_lines := (6)%Z; oc_ivars := 0; oc_methods := [($"isEqualTo:", true); ($"compare:withOther:", false)]; oc_classes := [$"A"; $"NSObject"]; oc_superMethods := (Some ($"NSObject", [])) |} [(Node 9 [] (ObjCMethodDecl {| om_selector := $"isEqualTo:"; om_class := (Some $"A"); om_overriding := false; om_overridden := []; om_bodyLines := (1)%Z |} [(Node 10 [] (VarDecl {| v_isParm := true; v_name := $"obj"; v_used := false; v_referenced := false; v_local := false; v_staticMember := false; v_private := false; v_unusedAttr := false; v_defaultArg := false; v_canonicalType := $"struct objc_object *"; v_inTemplate := false; v_contexts := [CxObjCMethod false false false false] |} None))] (Some (Node 11 [] (CompoundStmt [(Node 12 [] (ReturnStmt (Some (Node 13 $"BOOL" (CStyleCastExpr CK_Other (Node 14 $"int" (IntegerLiteral (1)%Z)))))))]))))); (Node 15 [] (ObjCMethodDecl {| om_selector := $"compare:withOther:"; om_class := (Some $"A"); om_overriding := false; om_overridden := []; om_bodyLines := (3)%Z |} [(Node 16 [] (VarDecl {| v_isParm := true; v_name := $"obj1"; v_used := true; v_referenced := true; v_local := false; v_staticMember := false; v_private := false; v_unusedAttr := false; v_defaultArg := false; v_canonicalType := $"A *"; v_inTemplate := false; v_contexts := [CxObjCMethod false false false false] |} None)); (Node 17 [] (VarDecl {| v_isParm := true; v_name := $"obj2"; v_used := true; v_referenced := true; v_local := false; v_staticMember := false; v_private := false; v_unusedAttr := false; v_defaultArg := false; v_canonicalType := $"A *"; v_inTemplate := false; v_contexts := [CxObjCMethod false false false false] |} None))] (Some (Node 18 [] (CompoundStmt [(Node 19 [] (IfStmt [] (Node 20 $"int" (BinaryOperator BO_LAnd (Node 21 $"BOOL" (ObjCMessageExpr {| ms_selector := $"isEqualTo:"; ms_receiver := RInstance; ms_implicit := false; ms_interface := (Some $"A"); ms_method := (Some (Decl [] (Some (Method false None (InOther (Some NoCategory)))))); ms_methodClass := (Some $"A") |} (Some (Node 22 $"A *" (ImplicitCastExpr CK_LValueToRValue (Node 23 $"A *" (DeclRefExpr 16 $"obj1" false))))) [(Node 24 $"id" (ImplicitCastExpr CK_BitCast (Node 25 $"A *" (ImplicitCastExpr CK_LValueToRValue (Node 26 $"A *" (DeclRefExpr 17 $"obj2" false))))))])) (Node 27 $"int" (BinaryOperator BO_NE (Node 28 $"A *" (ImplicitCastExpr CK_LValueToRValue (Node 29 $"A *" (DeclRefExpr 16 $"obj1" false)))) (Node 30 $"A *" (ImplicitCastExpr CK_BitCast (Node 31 $"id" (CStyleCastExpr CK_NullToPointer (Node 32 $"int" (IntegerLiteral (0)%Z)))))))))) (Node 33 [] (CompoundStmt [(Node 34 [] NullStmt)])) None))])))))])))];
     ts_locs := [(2,1,2,24); (5,1,6,2); (7,1,10,2); (8,1,8,26); (8,20,8,23); (9,1,9,46); (9,18,9,22); (9,38,9,42); (11,1,16,1); (12,1,12,41); (12,20,12,23); (12,27,12,41); (12,29,12,36); (12,36,12,36); (12,36,12,36); (13,1,15,1); (13,18,13,22); (13,38,13,42); (13,47,15,1); (14,5,14,53); (14,9,14,46); (14,9,14,29); (14,10,14,10); (14,10,14,10); (14,25,14,25); (14,25,14,25); (14,25,14,25); (14,34,14,46); (14,34,14,34); (14,34,14,34); (14,42,14,46); (14,42,14,46); (14,46,14,46); (14,49,14,53); (14,51,14,51)]%Z;
     ts_evals := []; ts_same := []; ts_decls := []; ts_parents := [] |}.
Example MisplacedNullCheck_ObjC_ExplicitNull_holds : nth_violation (shippedRule sh_MisplacedNilCheck) MisplacedNullCheck_ObjC_ExplicitNull 0 = Some (14, 9, 14, 46, $"")%Z.
Proof. vm_compute. reflexivity. Qed.

Definition MisplacedNullCheck_ObjC_NullIsNotNull : testcase :=
  {| ts_lang := LObjC; ts_path := $"input.m"; ts_code := [];
     ts_comments := []; ts_conf := [];
     ts_tops := [(toplevel 0 (TOther), (Node 0 [] (OtherDecl []))); (toplevel 1 (TOther), (Node 1 [] (ObjCContainerDecl {| oc_kind := OKInterface; oc_name := $"NSObject"; oc_lines := (2)%Z; oc_ivars := 0; oc_methods := []; oc_classes := [$"NSObject"]; oc_superMethods := None |} []))); (toplevel 2 (TOther), (Node 2 [] (ObjCContainerDecl {| oc_kind := OKInterface; oc_name := $"A"; oc_lines := (4)%Z; oc_ivars := 0; oc_methods := [($"isEqualTo:", true); ($"compare:withOther:", false)]; oc_classes := [$"A"; $"NSObject"]; oc_superMethods := (Some ($"NSObject", [])) |} [(Node 3 [] (ObjCMethodDecl {| om_selector := $"isEqualTo:"; om_class := (Some $"A"); om_overriding := false; om_overridden := []; om_bodyLines := (0)%Z |} [(Node 4 [] (VarDecl {| v_isParm := true; v_name := $"obj"; v_used := false; v_referenced := false; v_local := false; v_staticMember := false; v_private := false; v_unusedAttr := false; v_defaultArg := false; v_canonicalType := $"struct objc_object *"; v_inTemplate := false; v_contexts := [CxObjCMethod true false false false; CxOther] |} None))] None)); (Node 5 [] (ObjCMethodDecl {| om_selector := $"compare:withOther:"; om_class := (Some $"A"); om_overriding := false; om_overridden := []; om_bodyLines := (0)%Z |} [(Node 6 [] (VarDecl {| v_isParm := true; v_name := $"obj1"; v_used := false; v_referenced := false; v_local := false; v_staticMember := false; v_private := false; v_unusedAttr := false; v_defaultArg := false; v_canonicalType := $"A *"; v_inTemplate := false; v_contexts := [CxObjCMethod true false false false; CxOther] |} None)); (Node 7 [] (VarDecl {| v_isParm := true; v_name := $"obj2"; v_used := false; v_referenced := false; v_local := false; v_staticMember := false; v_private := false; v_unusedAttr := false; v_defaultArg := false; v_canonicalType := $"A *"; v_inTemplate := false; v_contexts := [CxObjCMethod true false false false; CxOther] |} None))] None))]))); (toplevel 8 (TOther), (Node 8 [] (ObjCContainerDecl {| oc_kind := OKImplementation; oc_name := $"A"; oc_lines := (6)%Z; oc_ivars := 0; oc_methods := [($"isEqualTo:", true); ($"compare:withOther:", false)]; oc_classes := [$"A"; $"NSObject"]; oc_superMethods := (Some ($"NSObject", [])) |} [(Node 9 [] (ObjCMethodDecl {| om_selector := $"isEqualTo:"; om_class := (Some $"A"); om_overriding := false; om_overridden := []; om_bodyLines := (1)%Z |} [(Node 10 [] (VarDecl {| v_isParm := true; v_name := $"obj"; v_used := false; v_referenced := false; v_local := false; v_staticMember := false; v_private := false; v_unusedAttr := false; v_defaultArg := false; v_canonicalType := $"struct objc_object *"; v_inTemplate := false; v_contexts := [CxObjCMethod false false false false] |} None))] (Some (Node 11 [] (CompoundStmt [(Node 12 [] (ReturnStmt (Some (Node 13 $"BOOL" (CStyleCastExpr CK_Other (Node 14 $"int" (IntegerLiteral (1)%Z)))))))]))))); (Node 15 [] (ObjCMethodDecl {| om_selector := $"compare:withOther:"; om_class := (Some $"A"); om_overriding := false; om_overridden := []; om_bodyLines := (3)%Z |} [(Node 16 [] (VarDecl {| v_isParm := true; v_name := $"obj1"; v_used := true; v_referenced := true; v_local := false; v_staticMember := false; v_private := false; v_unusedAttr := false; v_defaultArg := false; v_canonicalType := $"A *"; v_inTemplate := false; v_contexts := [CxObjCMethod false false false false] |} None)); (Node 17 [] (VarDecl {| v_isParm := true; v_name := $"obj2"; v_used := true; v_referenced := true; v_local := false; v_staticMember := false; v_private := false; v_unusedAttr := false; v_defaultArg := false; v_canonicalType := $"A *"; v_inTemplate := false; v_contexts := [CxObjCMethod false false false false] |} None))] (Some (Node 18 [] (CompoundStmt [(Node 19 [] (IfStmt [] (Node 20 $"int" (BinaryOperator BO_LAnd (Node 21 $"BOOL" (ObjCMessageExpr {| ms_selector := $"isEqualTo:"; ms_receiver := RInstance; ms_implicit := false; ms_interface := (Some $"A"); ms_method := (Some (Decl [] (Some (Method false None (InOther (Some NoCategory)))))); ms_methodClass := (Some $"A") |} (Some (Node 22 $"A *" (ImplicitCastExpr CK_LValueToRValue (Node 23 $"A *" (DeclRefExpr 16 $"obj1" false))))) [(Node 24 $"id" (ImplicitCastExpr CK_BitCast (Node 25 $"A *" (ImplicitCastExpr CK_LValueToRValue (Node 26 $"A *" (DeclRefExpr 17 $"obj2" false))))))])) (Node 27 $"int" (BinaryOperator BO_NE (Node 28 $"A *" (ImplicitCastExpr CK_LValueToRValue (Node 29 $"A *" (DeclRefExpr 16 $"obj1" false)))) (Node 30 $"A *" (ImplicitCastExpr CK_BitCast (Node 31 $"id" (CStyleCastExpr CK_Other (Node 32 $"int" (IntegerLiteral (2)%Z)))))))))) (Node 33 [] (CompoundStmt [(Node 34 [] NullStmt)])) None))])))))])))];
     ts_locs := [(2,1,2,24); (5,1,6,2); (7,1,10,2); (8,1,8,26); (8,20,8,23); (9,1,9,46); (9,18,9,22); (9,38,9,42); (12,1,17,1); (13,1,13,41); (13,20,13,23); (13,27,13,41); (13,29,13,36); (13,36,13,36); (13,36,13,36); (14,1,16,1); (14,18,14,22); (14,38,14,42); (14,47,16,1); (15,5,15,51); (15,9,15,42); (15,9,15,29); (15,10,15,10); (15,10,15,10); (15,25,15,25); (15,25,15,25); (15,25,15,25); (15,34,15,42); (15,34,15,34); (15,34,15,34); (15,42,15,42); (15,42,15,42); (15,42,15,42); (15,47,15,51); (15,49,15,49)]%Z;
     ts_evals := []; ts_same := []; ts_decls := []; ts_parents := [] |}.
Example MisplacedNullCheck_ObjC_NullIsNotNull_holds : sorted_violations_of (shippedRule sh_MisplacedNilCheck) MisplacedNullCheck_ObjC_NullIsNotNull = Some [].
Proof. vm_compute. reflexivity. Qed.

Definition MisplacedNullCheck_C_MisplacedExplicitNullEqCheck_ShouldIgnoreByObjC : testcase :=
  {| ts_lang := LC; ts_path := $"input.c"; ts_code := [];
     ts_comments := []; ts_conf := [];
     ts_tops := [(toplevel 0 (TOther), (Node 0 [] (OtherDecl []))); (toplevel 1 (TOther), (Node 1 [] (OtherDecl [(Node 2 [] (OtherDecl [])); (Node 3 [] (OtherDecl []))]))); (toplevel 4 (TFunction false), (Node 4 [] (FunctionDecl {| f_name := $"m"; f_method := None; f_isDefinition := true; f_bodyLines := (1)%Z |} [(Node 5 [] (VarDecl {| v_isParm := true; v_name := $"a"; v_used := true; v_referenced := true; v_local := false; v_staticMember := false; v_private := false; v_unusedAttr := false; v_defaultArg := false; v_canonicalType := $"struct A *"; v_inTemplate := false; v_contexts := [CxFunction true true false] |} None)); (Node 6 [] (VarDecl {| v_isParm := true; v_name := $"b"; v_used := false; v_referenced := false; v_local := false; v_staticMember := false; v_private := false; v_unusedAttr := false; v_defaultArg := false; v_canonicalType := $"struct B *"; v_inTemplate := false; v_contexts := [CxFunction true true false] |} None))] (Some (Node 7 [] (CompoundStmt [(Node 8 [] (IfStmt [] (Node 9 [] (BinaryOperator BO_LAnd (Node 10 [] (BinaryOperator BO_EQ (Node 11 [] (ImplicitCastExpr CK_LValueToRValue (Node 12 [] (MemberExpr true (Node 13 [] (ImplicitCastExpr CK_LValueToRValue (Node 14 [] (DeclRefExpr 5 $"a" false)))))))) (Node 15 [] (IntegerLiteral (1)%Z)))) (Node 16 [] (BinaryOperator BO_NE (Node 17 [] (ImplicitCastExpr CK_LValueToRValue (Node 18 [] (DeclRefExpr 5 $"a" false)))) (Node 19 [] (ImplicitCastExpr CK_NullToPointer (Node 20 [] (ParenExpr (Node 21 [] (CStyleCastExpr CK_NullToPointer (Node 22 [] (IntegerLiteral (0)%Z)))))))))))) (Node 23 [] (CompoundStmt [(Node 24 [] NullStmt)])) None))]))))))];
     ts_locs := [(2,1,2,11); (3,1,6,1); (4,5,4,9); (5,5,5,9); (7,1,7,72); (7,8,7,18); (7,21,7,31); (7,34,7,72); (7,36,7,70); (7,40,7,60); (7,40,7,50); (7,40,7,43); (7,40,7,43); (7,40,7,40); (7,40,7,40); (7,50,7,50); (7,55,7,60); (7,55,7,55); (7,55,7,55); (7,60,7,60); (7,60,7,60); (7,60,7,60); (7,60,7,60); (7,66,7,70); (7,68,7,68)]%Z;
     ts_evals := []; ts_same := []; ts_decls := []; ts_parents := [] |}.
Example MisplacedNullCheck_C_MisplacedExplicitNullEqCheck_ShouldIgnoreByObjC_holds : sorted_violations_of (shippedRule sh_MisplacedNilCheck) MisplacedNullCheck_C_MisplacedExplicitNullEqCheck_ShouldIgnoreByObjC = Some [].
Proof. vm_compute. reflexivity. Qed.

Definition MisplacedNullCheck_Cpp_MisplacedExplicitNullEqCheck_ShouldIgnoreByObjC : testcase :=
  {| ts_lang := LCXX; ts_path := $"input.cpp"; ts_code := [];
     ts_comments := []; ts_conf := [];
     ts_tops := [(toplevel 0 (TOther), (Node 0 [] (CXXRecordDecl {| r_class := (CxxRecord 0 $"B" true false None []); r_fields := 0; r_methods := 0; r_lines := (1)%Z |} []))); (toplevel 1 (TOther), (Node 1 [] (CXXRecordDecl {| r_class := (CxxRecord 1 $"A" true false None []); r_fields := 0; r_methods := 2; r_lines := (5)%Z |} [(Node 2 [] (FunctionDecl {| f_name := $"foo"; f_method := (Some {| cm_virtual := false; cm_static := false; cm_private := false; cm_inRecord := true |}); f_isDefinition := false; f_bodyLines := (0)%Z |} [(Node 3 [] (VarDecl {| v_isParm := true; v_name := $"f"; v_used := false; v_referenced := false; v_local := false; v_staticMember := false; v_private := false; v_unusedAttr := false; v_defaultArg := false; v_canonicalType := $"A *"; v_inTemplate := false; v_contexts := [CxFunction false false false; CxRecord] |} None))] None)); (Node 4 [] (FunctionDecl {| f_name := $"bar"; f_method := (Some {| cm_virtual := false; cm_static := false; cm_private := false; cm_inRecord := true |}); f_isDefinition := false; f_bodyLines := (0)%Z |} [(Node 5 [] (VarDecl {| v_isParm := true; v_name := $"b"; v_used := false; v_referenced := false; v_local := false; v_staticMember := false; v_private := false; v_unusedAttr := false; v_defaultArg := false; v_canonicalType := $"B *"; v_inTemplate := false; v_contexts := [CxFunction false false false; CxRecord] |} None))] None))]))); (toplevel 6 (TFunction false), (Node 6 [] (FunctionDecl {| f_name := $"m"; f_method := None; f_isDefinition := true; f_bodyLines := (1)%Z |} [(Node 7 [] (VarDecl {| v_isParm := true; v_name := $"a"; v_used := true; v_referenced := true; v_local := false; v_staticMember := false; v_private := false; v_unusedAttr := false; v_defaultArg := false; v_canonicalType := $"A *"; v_inTemplate := false; v_contexts := [CxFunction true true false] |} None)); (Node 8 [] (VarDecl {| v_isParm := true; v_name := $"b"; v_used := true; v_referenced := true; v_local := false; v_staticMember := false; v_private := false; v_unusedAttr := false; v_defaultArg := false; v_canonicalType := $"B *"; v_inTemplate := false; v_contexts := [CxFunction true true false] |} None))] (Some (Node 9 [] (CompoundStmt [(Node 10 [] (IfStmt [] (Node 11 [] (BinaryOperator BO_LAnd (Node 12 [] (CallExpr (Some ($"bar", Decl [] None)) (Node 13 [] (MemberExpr true (Node 14 [] (ImplicitCastExpr CK_LValueToRValue (Node 15 [] (DeclRefExpr 7 $"a" false)))))) [(Node 16 [] (ImplicitCastExpr CK_LValueToRValue (Node 17 [] (DeclRefExpr 8 $"b" false))))])) (Node 18 [] (BinaryOperator BO_NE (Node 19 [] (ImplicitCastExpr CK_LValueToRValue (Node 20 [] (DeclRefExpr 7 $"a" false)))) (Node 21 [] (ImplicitCastExpr CK_NullToPointer (Node 22 [] (IntegerLiteral (0)%Z)))))))) (Node 23 [] (CompoundStmt [(Node 24 [] NullStmt)])) None))]))))))];
     ts_locs := [(2,1,2,10); (3,1,7,1); (5,5,5,18); (5,14,5,17); (6,5,6,18); (6,14,6,17); (8,1,8,56); (8,8,8,11); (8,14,8,17); (8,20,8,56); (8,22,8,54); (8,26,8,44); (8,26,8,34); (8,26,8,29); (8,26,8,26); (8,26,8,26); (8,33,8,33); (8,33,8,33); (8,39,8,44); (8,39,8,39); (8,39,8,39); (8,44,8,44); (8,44,8,44); (8,50,8,54); (8,52,8,52)]%Z;
     ts_evals := []; ts_same := []; ts_decls := []; ts_parents := [] |}.
Example MisplacedNullCheck_Cpp_MisplacedExplicitNullEqCheck_ShouldIgnoreByObjC_holds : sorted_violations_of (shippedRule sh_MisplacedNilCheck) MisplacedNullCheck_Cpp_MisplacedExplicitNullEqCheck_ShouldIgnoreByObjC = Some [].
Proof. vm_compute. reflexivity. Qed.

Definition MisplacedNullCheck_ObjC_MisplacedEzButRedundantNullEqCheck_ShouldIgnoreByC : testcase :=
  {| ts_lang := LObjC; ts_path := $"input.m"; ts_code := [];
     ts_comments := []; ts_conf := [];
     ts_tops := [(toplevel 0 (TOther), (Node 0 [] (OtherDecl []))); (toplevel 1 (TOther), (Node 1 [] (ObjCContainerDecl {| oc_kind := OKInterface; oc_name := $"NSObject"; oc_lines := (2)%Z; oc_ivars := 0; oc_methods := []; oc_classes := [$"NSObject"]; oc_superMethods := None |} []))); (toplevel 2 (TOther), (Node 2 [] (ObjCContainerDecl {| oc_kind := OKInterface; oc_name := $"A"; oc_lines := (4)%Z; oc_ivars := 0; oc_methods := [($"isEqualTo:", true); ($"compare:withOther:", false)]; oc_classes := [$"A"; $"NSObject"]; oc_superMethods := (Some ($"NSObject", [])) |} [(Node 3 [] (ObjCMethodDecl {| om_selector := $"isEqualTo:"; om_class := (Some $"A"); om_overriding := false; om_overridden := []; om_bodyLines := (0)%Z |} [(Node 4 [] (VarDecl {| v_isParm := true; v_name := $"obj"; v_used := false; v_referenced := false; v_local := false; v_staticMember := false; v_private := false; v_unusedAttr := false; v_defaultArg := false; v_canonicalType := $"struct objc_object *"; v_inTemplate := false; v_contexts := [CxObjCMethod true false false false; CxOther] |} None))] None)); (Node 5 [] (ObjCMethodDecl {| om_selector := $"compare:withOther:"; om_class := (Some $"A"); om_overriding := false; om_overridden := []; om_bodyLines := (0)%Z |} [(Node 6 [] (VarDecl {| v_isParm := true; v_name := $"obj1"; v_used := false; v_referenced := false; v_local := false; v_staticMember := false; v_private := false; v_unusedAttr := false; v_defaultArg := false; v_canonicalType := $"A *"; v_inTemplate := false; v_contexts := [CxObjCMethod true false false false; CxOther] |} None)); (Node 7 [] (VarDecl {| v_isParm := true; v_name := $"obj2"; v_used := false; v_referenced := false; v_local := false; v_staticMember := false; v_private := false; v_unusedAttr := false; v_defaultArg := false; v_canonicalType := $"A *"; v_inTemplate := false; v_contexts := [CxObjCMethod true false false false; CxOther] |} None))] None))]))); (toplevel 8 (TOther), (Node 8 [] (ObjCContainerDecl {| oc_kind := OKImplementation; oc_name := $"A"; oc_lines := (6)%Z; oc_ivars := 0; oc_methods := [($"isEqualTo:", true); ($"compare:withOther:", false)]; oc_classes := [$"A"; $"NSObject"]; oc_superMethods := (Some ($"NSObject", [])) |} [(Node 9 [] (ObjCMethodDecl {| om_selector := $"isEqualTo:"; om_class := (Some $"A"); om_overriding := false; om_overridden := []; om_bodyLines := (1)%Z |} [(Node 10 [] (VarDecl {| v_isParm := true; v_name := $"obj"; v_used := false; v_referenced := false; v_local := false; v_staticMember := false; v_private := false; v_unusedAttr := false; v_defaultArg := false; v_canonicalType := $"struct objc_object *"; v_inTemplate := false; v_contexts := [CxObjCMethod false false false false] |} None))] (Some (Node 11 [] (CompoundStmt [(Node 12 [] (ReturnStmt (Some (Node 13 $"BOOL" (CStyleCastExpr CK_Other (Node 14 $"int" (IntegerLiteral (1)%Z)))))))]))))); (Node 15 [] (ObjCMethodDecl {| om_selector := $"compare:withOther:"; om_class := (Some $"A"); om_overriding := false; om_overridden := []; om_bodyLines := (3)%Z |} [(Node 16 [] (VarDecl {| v_isParm := true; v_name := $"obj1"; v_used := true; v_referenced := true; v_local := false; v_staticMember := false; v_private := false; v_unusedAttr := false; v_defaultArg := false; v_canonicalType := $"A *"; v_inTemplate := false; v_contexts := [CxObjCMethod false false false false] |} None)); (Node 17 [] (VarDecl {| v_isParm := true; v_name := $"obj2"; v_used := true; v_referenced := true; v_local := false; v_staticMember := false; v_private := false; v_unusedAttr := false; v_defaultArg := false; v_canonicalType := $"A *"; v_inTemplate := false; v_contexts := [CxObjCMethod false false false false] |} None))] (Some (Node 18 [] (CompoundStmt [(Node 19 [] (IfStmt [] (Node 20 $"int" (BinaryOperator BO_LAnd (Node 21 $"BOOL" (ObjCMessageExpr {| ms_selector := $"isEqualTo:"; ms_receiver := RInstance; ms_implicit := false; ms_interface := (Some $"A"); ms_method := (Some (Decl [] (Some (Method false None (InOther (Some NoCategory)))))); ms_methodClass := (Some $"A") |} (Some (Node 22 $"A *" (ImplicitCastExpr CK_LValueToRValue (Node 23 $"A *" (DeclRefExpr 16 $"obj1" false))))) [(Node 24 $"id" (ImplicitCastExpr CK_BitCast (Node 25 $"A *" (ImplicitCastExpr CK_LValueToRValue (Node 26 $"A *" (DeclRefExpr 17 $"obj2" false))))))])) (Node 27 $"A *" (ImplicitCastExpr CK_LValueToRValue (Node 28 $"A *" (DeclRefExpr 16 $"obj1" false)))))) (Node 29 [] (CompoundStmt [(Node 30 [] NullStmt)])) None))])))))])))];
     ts_locs := [(2,1,2,24); (5,1,6,2); (7,1,10,2); (8,1,8,26); (8,20,8,23); (9,1,9,46); (9,18,9,22); (9,38,9,42); (11,1,16,1); (12,1,12,41); (12,20,12,23); (12,27,12,41); (12,29,12,36); (12,36,12,36); (12,36,12,36); (13,1,15,1); (13,18,13,22); (13,38,13,42); (13,47,15,1); (14,5,14,44); (14,9,14,34); (14,9,14,29); (14,10,14,10); (14,10,14,10); (14,25,14,25); (14,25,14,25); (14,25,14,25); (14,34,14,34); (14,34,14,34); (14,40,14,44); (14,42,14,42)]%Z;
     ts_evals := []; ts_same := []; ts_decls := []; ts_parents := [] |}.
Example MisplacedNullCheck_ObjC_MisplacedEzButRedundantNullEqCheck_ShouldIgnoreByC_holds : sorted_violations_of (shippedRule sh_MisplacedNullCheck) MisplacedNullCheck_ObjC_MisplacedEzButRedundantNullEqCheck_ShouldIgnoreByC = Some [].
Proof. vm_compute. reflexivity. Qed.

(** ** oclint-rules/test/basic/MultipleUnaryOperatorRuleTest.cpp *)

Definition MultipleUnaryOperator_OneLevelUnaryOperator : testcase :=
  {| ts_lang := LC; ts_path := $"input.c"; ts_code := [];
     ts_comments := []; ts_conf := [];
     ts_tops := [(toplevel 0 (TFunction false), (Node 0 [] (FunctionDecl {| f_name := $"aMethod"; f_method := None; f_isDefinition := true; f_bodyLines := (1)%Z |} [] (Some (Node 1 [] (CompoundStmt [(Node 2 [] (DeclStmt [(Node 3 [] (VarDecl {| v_isParm := false; v_name := $"b1"; v_used := false; v_referenced := false; v_local := true; v_staticMember := false; v_private := false; v_unusedAttr := false; v_defaultArg := false; v_canonicalType := $"int"; v_inTemplate := false; v_contexts := [CxFunction true true false] |} (Some (Node 4 [] (UnaryOperator UO_LNot (Node 5 [] (IntegerLiteral (0)%Z)))))))])); (Node 6 [] (DeclStmt [(Node 7 [] (VarDecl {| v_isParm := false; v_name := $"b2"; v_used := false; v_referenced := false; v_local := true; v_staticMember := false; v_private := false; v_unusedAttr := false; v_defaultArg := false; v_canonicalType := $"int"; v_inTemplate := false; v_contexts := [CxFunction true true false] |} (Some (Node 8 [] (UnaryOperator UO_Not (Node 9 [] (IntegerLiteral (1)%Z)))))))]))]))))))];
     ts_locs := [(1,1,1,44); (1,16,1,44); (1,18,1,29); (1,18,1,28); (1,27,1,28); (1,28,1,28); (1,31,1,42); (1,31,1,41); (1,40,1,41); (1,41,1,41)]%Z;
     ts_evals := []; ts_same := []; ts_decls := []; ts_parents := [] |}.
Example MultipleUnaryOperator_OneLevelUnaryOperator_holds : sorted_violations_of (shippedRule sh_MultipleUnaryOperator) MultipleUnaryOperator_OneLevelUnaryOperator = Some [].
Proof. vm_compute. reflexivity. Qed.

Definition MultipleUnaryOperator_DoubleLogicalNot : testcase :=
  {| ts_lang := LC; ts_path := $"input.c"; ts_code := [];
     ts_comments := []; ts_conf := [];
     ts_tops := [(toplevel 0 (TFunction false), (Node 0 [] (FunctionDecl {| f_name := $"aMethod"; f_method := None; f_isDefinition := true; f_bodyLines := (1)%Z |} [] (Some (Node 1 [] (CompoundStmt [(Node 2 [] (DeclStmt [(Node 3 [] (VarDecl {| v_isParm := false; v_name := $"b"; v_used := false; v_referenced := false; v_local := true; v_staticMember := false; v_private := false; v_unusedAttr := false; v_defaultArg := false; v_canonicalType := $"int"; v_inTemplate := false; v_contexts := [CxFunction true true false] |} (Some (Node 4 [] (UnaryOperator UO_LNot (Node 5 [] (UnaryOperator UO_LNot (Node 6 [] (IntegerLiteral (1)%Z)))))))))]))]))))))];
     ts_locs := [(1,1,1,31); (1,16,1,31); (1,18,1,29); (1,18,1,28); (1,26,1,28); (1,27,1,28); (1,28,1,28)]%Z;
     ts_evals := []; ts_same := []; ts_decls := []; ts_parents := [] |}.
Example MultipleUnaryOperator_DoubleLogicalNot_holds : nth_violation (shippedRule sh_MultipleUnaryOperator) MultipleUnaryOperator_DoubleLogicalNot 0 = Some (1, 26, 1, 28, $"")%Z.
Proof. vm_compute. reflexivity. Qed.

Definition MultipleUnaryOperator_DoubleLogicalNotWithParentheses : testcase :=
  {| ts_lang := LC; ts_path := $"input.c"; ts_code := [];
     ts_comments := []; ts_conf := [];
     ts_tops := [(toplevel 0 (TFunction false), (Node 0 [] (FunctionDecl {| f_name := $"aMethod"; f_method := None; f_isDefinition := true; f_bodyLines := (1)%Z |} [] (Some (Node 1 [] (CompoundStmt [(Node 2 [] (DeclStmt [(Node 3 [] (VarDecl {| v_isParm := false; v_name := $"b"; v_used := false; v_referenced := false; v_local := true; v_staticMember := false; v_private := false; v_unusedAttr := false; v_defaultArg := false; v_canonicalType := $"int"; v_inTemplate := false; v_contexts := [CxFunction true true false] |} (Some (Node 4 [] (UnaryOperator UO_LNot (Node 5 [] (ParenExpr (Node 6 [] (UnaryOperator UO_LNot (Node 7 [] (IntegerLiteral (1)%Z)))))))))))]))]))))))];
     ts_locs := [(1,1,1,33); (1,16,1,33); (1,18,1,31); (1,18,1,30); (1,26,1,30); (1,27,1,30); (1,28,1,29); (1,29,1,29)]%Z;
     ts_evals := []; ts_same := []; ts_decls := []; ts_parents := [] |}.
Example MultipleUnaryOperator_DoubleLogicalNotWithParentheses_holds : nth_violation (shippedRule sh_MultipleUnaryOperator) MultipleUnaryOperator_DoubleLogicalNotWithParentheses 0 = Some (1, 26, 1, 30, $"")%Z.
Proof. vm_compute. reflexivity. Qed.

Definition MultipleUnaryOperator_DoubleNot : testcase :=
  {| ts_lang := LC; ts_path := $"input.c"; ts_code := [];
     ts_comments := []; ts_conf := [];
     ts_tops := [(toplevel 0 (TFunction false), (Node 0 [] (FunctionDecl {| f_name := $"aMethod"; f_method := None; f_isDefinition := true; f_bodyLines := (1)%Z |} [] (Some (Node 1 [] (CompoundStmt [(Node 2 [] (DeclStmt [(Node 3 [] (VarDecl {| v_isParm := false; v_name := $"b"; v_used := false; v_referenced := false; v_local := true; v_staticMember := false; v_private := false; v_unusedAttr := false; v_defaultArg := false; v_canonicalType := $"int"; v_inTemplate := false; v_contexts := [CxFunction true true false] |} (Some (Node 4 [] (UnaryOperator UO_Not (Node 5 [] (UnaryOperator UO_Not (Node 6 [] (IntegerLiteral (1)%Z)))))))))]))]))))))];
     ts_locs := [(1,1,1,31); (1,16,1,31); (1,18,1,29); (1,18,1,28); (1,26,1,28); (1,27,1,28); (1,28,1,28)]%Z;
     ts_evals := []; ts_same := []; ts_decls := []; ts_parents := [] |}.
Example MultipleUnaryOperator_DoubleNot_holds : nth_violation (shippedRule sh_MultipleUnaryOperator) MultipleUnaryOperator_DoubleNot 0 = Some (1, 26, 1, 28, $"")%Z.
Proof. vm_compute. reflexivity. Qed.

Definition MultipleUnaryOperator_DoubleNotWithParentheses : testcase :=
  {| ts_lang := LC; ts_path := $"input.c"; ts_code := [];
     ts_comments := []; ts_conf := [];
     ts_tops := [(toplevel 0 (TFunction false), (Node 0 [] (FunctionDecl {| f_name := $"aMethod"; f_method := None; f_isDefinition := true; f_bodyLines := (1)%Z |} [] (Some (Node 1 [] (CompoundStmt [(Node 2 [] (DeclStmt [(Node 3 [] (VarDecl {| v_isParm := false; v_name := $"b"; v_used := false; v_referenced := false; v_local := true; v_staticMember := false; v_private := false; v_unusedAttr := false; v_defaultArg := false; v_canonicalType := $"int"; v_inTemplate := false; v_contexts := [CxFunction true true false] |} (Some (Node 4 [] (UnaryOperator UO_Not (Node 5 [] (ParenExpr (Node 6 [] (UnaryOperator UO_Not (Node 7 [] (IntegerLiteral (1)%Z)))))))))))]))]))))))];
     ts_locs := [(1,1,1,33); (1,16,1,33); (1,18,1,31); (1,18,1,30); (1,26,1,30); (1,27,1,30); (1,28,1,29); (1,29,1,29)]%Z;
     ts_evals := []; ts_same := []; ts_decls := []; ts_parents := [] |}.
Example MultipleUnaryOperator_DoubleNotWithParentheses_holds : nth_violation (shippedRule sh_MultipleUnaryOperator) MultipleUnaryOperator_DoubleNotWithParentheses 0 = Some (1, 26, 1, 30, $"")%Z.
Proof. vm_compute. reflexivity. Qed.

Definition MultipleUnaryOperator_DoublePlus : testcase :=
  {| ts_lang := LC; ts_path := $"input.c"; ts_code := [];
     ts_comments := []; ts_conf := [];
     ts_tops := [(toplevel 0 (TFunction false), (Node 0 [] (FunctionDecl {| f_name := $"aMethod"; f_method := None; f_isDefinition := true; f_bodyLines := (1)%Z |} [] (Some (Node 1 [] (CompoundStmt [(Node 2 [] (DeclStmt [(Node 3 [] (VarDecl {| v_isParm := false; v_name := $"b"; v_used := false; v_referenced := false; v_local := true; v_staticMember := false; v_private := false; v_unusedAttr := false; v_defaultArg := false; v_canonicalType := $"int"; v_inTemplate := false; v_contexts := [CxFunction true true false] |} (Some (Node 4 [] (UnaryOperator UO_Plus (Node 5 [] (UnaryOperator UO_Plus (Node 6 [] (IntegerLiteral (1)%Z)))))))))]))]))))))];
     ts_locs := [(1,1,1,33); (1,16,1,33); (1,18,1,31); (1,18,1,30); (1,26,1,30); (1,28,1,30); (1,30,1,30)]%Z;
     ts_evals := []; ts_same := []; ts_decls := []; ts_parents := [] |}.
Example MultipleUnaryOperator_DoublePlus_holds : nth_violation (shippedRule sh_MultipleUnaryOperator) MultipleUnaryOperator_DoublePlus 0 = Some (1, 26, 1, 30, $"")%Z.
Proof. vm_compute. reflexivity. Qed.

Definition MultipleUnaryOperator_DoublePlusWithParentheses : testcase :=
  {| ts_lang := LC; ts_path := $"input.c"; ts_code := [];
     ts_comments := []; ts_conf := [];
     ts_tops := [(toplevel 0 (TFunction false), (Node 0 [] (FunctionDecl {| f_name := $"aMethod"; f_method := None; f_isDefinition := true; f_bodyLines := (1)%Z |} [] (Some (Node 1 [] (CompoundStmt [(Node 2 [] (DeclStmt [(Node 3 [] (VarDecl {| v_isParm := false; v_name := $"b"; v_used := false; v_referenced := false; v_local := true; v_staticMember := false; v_private := false; v_unusedAttr := false; v_defaultArg := false; v_canonicalType := $"int"; v_inTemplate := false; v_contexts := [CxFunction true true false] |} (Some (Node 4 [] (UnaryOperator UO_Plus (Node 5 [] (ParenExpr (Node 6 [] (UnaryOperator UO_Plus (Node 7 [] (IntegerLiteral (1)%Z)))))))))))]))]))))))];
     ts_locs := [(1,1,1,33); (1,16,1,33); (1,18,1,31); (1,18,1,30); (1,26,1,30); (1,27,1,30); (1,28,1,29); (1,29,1,29)]%Z;
     ts_evals := []; ts_same := []; ts_decls := []; ts_parents := [] |}.
Example MultipleUnaryOperator_DoublePlusWithParentheses_holds : nth_violation (shippedRule sh_MultipleUnaryOperator) MultipleUnaryOperator_DoublePlusWithParentheses 0 = Some (1, 26, 1, 30, $"")%Z.
Proof. vm_compute. reflexivity. Qed.

Definition MultipleUnaryOperator_DoubleMinus : testcase :=
  {| ts_lang := LC; ts_path := $"input.c"; ts_code := [];
     ts_comments := []; ts_conf := [];
     ts_tops := [(toplevel 0 (TFunction false), (Node 0 [] (FunctionDecl {| f_name := $"aMethod"; f_method := None; f_isDefinition := true; f_bodyLines := (1)%Z |} [] (Some (Node 1 [] (CompoundStmt [(Node 2 [] (DeclStmt [(Node 3 [] (VarDecl {| v_isParm := false; v_name := $"b"; v_used := false; v_referenced := false; v_local := true; v_staticMember := false; v_private := false; v_unusedAttr := false; v_defaultArg := false; v_canonicalType := $"int"; v_inTemplate := false; v_contexts := [CxFunction true true false] |} (Some (Node 4 [] (UnaryOperator UO_Minus (Node 5 [] (UnaryOperator UO_Minus (Node 6 [] (IntegerLiteral (1)%Z)))))))))]))]))))))];
     ts_locs := [(1,1,1,33); (1,16,1,33); (1,18,1,31); (1,18,1,30); (1,26,1,30); (1,28,1,30); (1,30,1,30)]%Z;
     ts_evals := []; ts_same := []; ts_decls := []; ts_parents := [] |}.
Example MultipleUnaryOperator_DoubleMinus_holds : nth_violation (shippedRule sh_MultipleUnaryOperator) MultipleUnaryOperator_DoubleMinus 0 = Some (1, 26, 1, 30, $"")%Z.
Proof. vm_compute. reflexivity. Qed.

Definition MultipleUnaryOperator_DoubleMinusWithParentheses : testcase :=
  {| ts_lang := LC; ts_path := $"input.c"; ts_code := [];
     ts_comments := []; ts_conf := [];
     ts_tops := [(toplevel 0 (TFunction false), (Node 0 [] (FunctionDecl {| f_name := $"aMethod"; f_method := None; f_isDefinition := true; f_bodyLines := (1)%Z |} [] (Some (Node 1 [] (CompoundStmt [(Node 2 [] (DeclStmt [(Node 3 [] (VarDecl {| v_isParm := false; v_name := $"b"; v_used := false; v_referenced := false; v_local := true; v_staticMember := false; v_private := false; v_unusedAttr := false; v_defaultArg := false; v_canonicalType := $"int"; v_inTemplate := false; v_contexts := [CxFunction true true false] |} (Some (Node 4 [] (UnaryOperator UO_Minus (Node 5 [] (ParenExpr (Node 6 [] (UnaryOperator UO_Minus (Node 7 [] (IntegerLiteral (1)%Z)))))))))))]))]))))))];
     ts_locs := [(1,1,1,33); (1,16,1,33); (1,18,1,31); (1,18,1,30); (1,26,1,30); (1,27,1,30); (1,28,1,29); (1,29,1,29)]%Z;
     ts_evals := []; ts_same := []; ts_decls := []; ts_parents := [] |}.
Example MultipleUnaryOperator_DoubleMinusWithParentheses_holds : nth_violation (shippedRule sh_MultipleUnaryOperator) MultipleUnaryOperator_DoubleMinusWithParentheses 0 = Some (1, 26, 1, 30, $"")%Z.
Proof. vm_compute. reflexivity. Qed.

Definition MultipleUnaryOperator_TripleLogicalNot : testcase :=
  {| ts_lang := LC; ts_path := $"input.c"; ts_code := [];
     ts_comments := []; ts_conf := [];
     ts_tops := [(toplevel 0 (TFunction false), (Node 0 [] (FunctionDecl {| f_name := $"aMethod"; f_method := None; f_isDefinition := true; f_bodyLines := (1)%Z |} [] (Some (Node 1 [] (CompoundStmt [(Node 2 [] (DeclStmt [(Node 3 [] (VarDecl {| v_isParm := false; v_name := $"b"; v_used := false; v_referenced := false; v_local := true; v_staticMember := false; v_private := false; v_unusedAttr := false; v_defaultArg := false; v_canonicalType := $"int"; v_inTemplate := false; v_contexts := [CxFunction true true false] |} (Some (Node 4 [] (UnaryOperator UO_LNot (Node 5 [] (UnaryOperator UO_LNot (Node 6 [] (UnaryOperator UO_LNot (Node 7 [] (IntegerLiteral (1)%Z)))))))))))]))]))))))];
     ts_locs := [(1,1,1,32); (1,16,1,32); (1,18,1,30); (1,18,1,29); (1,26,1,29); (1,27,1,29); (1,28,1,29); (1,29,1,29)]%Z;
     ts_evals := []; ts_same := []; ts_decls := []; ts_parents := [] |}.
Example MultipleUnaryOperator_TripleLogicalNot_holds : nth_violation (shippedRule sh_MultipleUnaryOperator) MultipleUnaryOperator_TripleLogicalNot 0 = Some (1, 26, 1, 29, $"")%Z.
Proof. vm_compute. reflexivity. Qed.

Definition MultipleUnaryOperator_TripleLogicalNot_2 : testcase :=
  {| ts_lang := LC; ts_path := $"input.c"; ts_code := [];
     ts_comments := []; ts_conf := [];
     ts_tops := [(toplevel 0 (TFunction false), (Node 0 [] (FunctionDecl {| f_name := $"aMethod"; f_method := None; f_isDefinition := true; f_bodyLines := (1)%Z |} [] (Some (Node 1 [] (CompoundStmt [(Node 2 [] (DeclStmt [(Node 3 [] (VarDecl {| v_isParm := false; v_name := $"b"; v_used := false; v_referenced := false; v_local := true; v_staticMember := false; v_private := false; v_unusedAttr := false; v_defaultArg := false; v_canonicalType := $"int"; v_inTemplate := false; v_contexts := [CxFunction true true false] |} (Some (Node 4 [] (UnaryOperator UO_LNot (Node 5 [] (UnaryOperator UO_LNot (Node 6 [] (UnaryOperator UO_LNot (Node 7 [] (IntegerLiteral (1)%Z)))))))))))]))]))))))];
     ts_locs := [(1,1,1,32); (1,16,1,32); (1,18,1,30); (1,18,1,29); (1,26,1,29); (1,27,1,29); (1,28,1,29); (1,29,1,29)]%Z;
     ts_evals := []; ts_same := []; ts_decls := []; ts_parents := [] |}.
Example MultipleUnaryOperator_TripleLogicalNot_2_holds : nth_violation (shippedRule sh_MultipleUnaryOperator) MultipleUnaryOperator_TripleLogicalNot_2 1 = Some (1, 27, 1, 29, $"")%Z.
Proof. vm_compute. reflexivity. Qed.

Definition MultipleUnaryOperator_TripleLogicalNotWithParentheses : testcase :=
  {| ts_lang := LC; ts_path := $"input.c"; ts_code := [];
     ts_comments := []; ts_conf := [];
     ts_tops := [(toplevel 0 (TFunction false), (Node 0 [] (FunctionDecl {| f_name := $"aMethod"; f_method := None; f_isDefinition := true; f_bodyLines := (1)%Z |} [] (Some (Node 1 [] (CompoundStmt [(Node 2 [] (DeclStmt [(Node 3 [] (VarDecl {| v_isParm := false; v_name := $"b"; v_used := false; v_referenced := false; v_local := true; v_staticMember := false; v_private := false; v_unusedAttr := false; v_defaultArg := false; v_canonicalType := $"int"; v_inTemplate := false; v_contexts := [CxFunction true true false] |} (Some (Node 4 [] (UnaryOperator UO_LNot (Node 5 [] (ParenExpr (Node 6 [] (UnaryOperator UO_LNot (Node 7 [] (ParenExpr (Node 8 [] (UnaryOperator UO_LNot (Node 9 [] (IntegerLiteral (1)%Z)))))))))))))))]))]))))))];
     ts_locs := [(1,1,1,36); (1,16,1,36); (1,18,1,34); (1,18,1,33); (1,26,1,33); (1,27,1,33); (1,28,1,32); (1,29,1,32); (1,30,1,31); (1,31,1,31)]%Z;
     ts_evals := []; ts_same := []; ts_decls := []; ts_parents := [] |}.
Example MultipleUnaryOperator_TripleLogicalNotWithParentheses_holds : nth_violation (shippedRule sh_MultipleUnaryOperator) MultipleUnaryOperator_TripleLogicalNotWithParentheses 0 = Some (1, 26, 1, 33, $"")%Z.
Proof. vm_compute. reflexivity. Qed.

Definition MultipleUnaryOperator_TripleLogicalNotWithParentheses_2 : testcase :=
  {| ts_lang := LC; ts_path := $"input.c"; ts_code := [];
     ts_comments := []; ts_conf := [];
     ts_tops := [(toplevel 0 (TFunction false), (Node 0 [] (FunctionDecl {| f_name := $"aMethod"; f_method := None; f_isDefinition := true; f_bodyLines := (1)%Z |} [] (Some (Node 1 [] (CompoundStmt [(Node 2 [] (DeclStmt [(Node 3 [] (VarDecl {| v_isParm := false; v_name := $"b"; v_used := false; v_referenced := false; v_local := true; v_staticMember := false; v_private := false; v_unusedAttr := false; v_defaultArg := false; v_canonicalType := $"int"; v_inTemplate := false; v_contexts := [CxFunction true true false] |} (Some (Node 4 [] (UnaryOperator UO_LNot (Node 5 [] (ParenExpr (Node 6 [] (UnaryOperator UO_LNot (Node 7 [] (ParenExpr (Node 8 [] (UnaryOperator UO_LNot (Node 9 [] (IntegerLiteral (1)%Z)))))))))))))))]))]))))))];
     ts_locs := [(1,1,1,36); (1,16,1,36); (1,18,1,34); (1,18,1,33); (1,26,1,33); (1,27,1,33); (1,28,1,32); (1,29,1,32); (1,30,1,31); (1,31,1,31)]%Z;
     ts_evals := []; ts_same := []; ts_decls := []; ts_parents := [] |}.
Example MultipleUnaryOperator_TripleLogicalNotWithParentheses_2_holds : nth_violation (shippedRule sh_MultipleUnaryOperator) MultipleUnaryOperator_TripleLogicalNotWithParentheses_2 1 = Some (1, 28, 1, 32, $"")%Z.
Proof. vm_compute. reflexivity. Qed.

Definition MultipleUnaryOperator_TripleNot : testcase :=
  {| ts_lang := LC; ts_path := $"input.c"; ts_code := [];
     ts_comments := []; ts_conf := [];
     ts_tops := [(toplevel 0 (TFunction false), (Node 0 [] (FunctionDecl {| f_name := $"aMethod"; f_method := None; f_isDefinition := true; f_bodyLines := (1)%Z |} [] (Some (Node 1 [] (CompoundStmt [(Node 2 [] (DeclStmt [(Node 3 [] (VarDecl {| v_isParm := false; v_name := $"b"; v_used := false; v_referenced := false; v_local := true; v_staticMember := false; v_private := false; v_unusedAttr := false; v_defaultArg := false; v_canonicalType := $"int"; v_inTemplate := false; v_contexts := [CxFunction true true false] |} (Some (Node 4 [] (UnaryOperator UO_Not (Node 5 [] (UnaryOperator UO_Not (Node 6 [] (UnaryOperator UO_Not (Node 7 [] (IntegerLiteral (1)%Z)))))))))))]))]))))))];
     ts_locs := [(1,1,1,32); (1,16,1,32); (1,18,1,30); (1,18,1,29); (1,26,1,29); (1,27,1,29); (1,28,1,29); (1,29,1,29)]%Z;
     ts_evals := []; ts_same := []; ts_decls := []; ts_parents := [] |}.
Example MultipleUnaryOperator_TripleNot_holds : nth_violation (shippedRule sh_MultipleUnaryOperator) MultipleUnaryOperator_TripleNot 0 = Some (1, 26, 1, 29, $"")%Z.
Proof. vm_compute. reflexivity. Qed.

Definition MultipleUnaryOperator_TripleNot_2 : testcase :=
  {| ts_lang := LC; ts_path := $"input.c"; ts_code := [];
     ts_comments := []; ts_conf := [];
     ts_tops := [(toplevel 0 (TFunction false), (Node 0 [] (FunctionDecl {| f_name := $"aMethod"; f_method := None; f_isDefinition := true; f_bodyLines := (1)%Z |} [] (Some (Node 1 [] (CompoundStmt [(Node 2 [] (DeclStmt [(Node 3 [] (VarDecl {| v_isParm := false; v_name := $"b"; v_used := false; v_referenced := false; v_local := true; v_staticMember := false; v_private := false; v_unusedAttr := false; v_defaultArg := false; v_canonicalType := $"int"; v_inTemplate := false; v_contexts := [CxFunction true true false] |} (Some (Node 4 [] (UnaryOperator UO_Not (Node 5 [] (UnaryOperator UO_Not (Node 6 [] (UnaryOperator UO_Not (Node 7 [] (IntegerLiteral (1)%Z)))))))))))]))]))))))];
     ts_locs := [(1,1,1,32); (1,16,1,32); (1,18,1,30); (1,18,1,29); (1,26,1,29); (1,27,1,29); (1,28,1,29); (1,29,1,29)]%Z;
     ts_evals := []; ts_same := []; ts_decls := []; ts_parents := [] |}.
Example MultipleUnaryOperator_TripleNot_2_holds : nth_violation (shippedRule sh_MultipleUnaryOperator) MultipleUnaryOperator_TripleNot_2 1 = Some (1, 27, 1, 29, $"")%Z.
Proof. vm_compute. reflexivity. Qed.

Definition MultipleUnaryOperator_TripleNotWithParentheses : testcase :=
  {| ts_lang := LC; ts_path := $"input.c"; ts_code := [];
     ts_comments := []; ts_conf := [];
     ts_tops := [(toplevel 0 (TFunction false), (Node 0 [] (FunctionDecl {| f_name := $"aMethod"; f_method := None; f_isDefinition := true; f_bodyLines := (1)%Z |} [] (Some (Node 1 [] (CompoundStmt [(Node 2 [] (DeclStmt [(Node 3 [] (VarDecl {| v_isParm := false; v_name := $"b"; v_used := false; v_referenced := false; v_local := true; v_staticMember := false; v_private := false; v_unusedAttr := false; v_defaultArg := false; v_canonicalType := $"int"; v_inTemplate := false; v_contexts := [CxFunction true true false] |} (Some (Node 4 [] (UnaryOperator UO_Not (Node 5 [] (ParenExpr (Node 6 [] (UnaryOperator UO_Not (Node 7 [] (ParenExpr (Node 8 [] (UnaryOperator UO_Not (Node 9 [] (IntegerLiteral (1)%Z)))))))))))))))]))]))))))];
     ts_locs := [(1,1,1,36); (1,16,1,36); (1,18,1,34); (1,18,1,33); (1,26,1,33); (1,27,1,33); (1,28,1,32); (1,29,1,32); (1,30,1,31); (1,31,1,31)]%Z;
     ts_evals := []; ts_same := []; ts_decls := []; ts_parents := [] |}.
Example MultipleUnaryOperator_TripleNotWithParentheses_holds : nth_violation (shippedRule sh_MultipleUnaryOperator) MultipleUnaryOperator_TripleNotWithParentheses 0 = Some (1, 26, 1, 33, $"")%Z.
Proof. vm_compute. reflexivity. Qed.

Definition MultipleUnaryOperator_TripleNotWithParentheses_2 : testcase :=
  {| ts_lang := LC; ts_path := $"input.c"; ts_code := [];
     ts_comments := []; ts_conf := [];
     ts_tops := [(toplevel 0 (TFunction false), (Node 0 [] (FunctionDecl {| f_name := $"aMethod"; f_method := None; f_isDefinition := true; f_bodyLines := (1)%Z |} [] (Some (Node 1 [] (CompoundStmt [(Node 2 [] (DeclStmt [(Node 3 [] (VarDecl {| v_isParm := false; v_name := $"b"; v_used := false; v_referenced := false; v_local := true; v_staticMember := false; v_private := false; v_unusedAttr := false; v_defaultArg := false; v_canonicalType := $"int"; v_inTemplate := false; v_contexts := [CxFunction true true false] |} (Some (Node 4 [] (UnaryOperator UO_Not (Node 5 [] (ParenExpr (Node 6 [] (UnaryOperator UO_Not (Node 7 [] (ParenExpr (Node 8 [] (UnaryOperator UO_Not (Node 9 [] (IntegerLiteral (1)%Z)))))))))))))))]))]))))))];
     ts_locs := [(1,1,1,36); (1,16,1,36); (1,18,1,34); (1,18,1,33); (1,26,1,33); (1,27,1,33); (1,28,1,32); (1,29,1,32); (1,30,1,31); (1,31,1,31)]%Z;
     ts_evals := []; ts_same := []; ts_decls := []; ts_parents := [] |}.
Example MultipleUnaryOperator_TripleNotWithParentheses_2_holds : nth_violation (shippedRule sh_MultipleUnaryOperator) MultipleUnaryOperator_TripleNotWithParentheses_2 1 = Some (1, 28, 1, 32, $"")%Z.
Proof. vm_compute. reflexivity. Qed.

Definition MultipleUnaryOperator_TriplePlus : testcase :=
  {| ts_lang := LC; ts_path := $"input.c"; ts_code := [];
     ts_comments := []; ts_conf := [];
     ts_tops := [(toplevel 0 (TFunction false), (Node 0 [] (FunctionDecl {| f_name := $"aMethod"; f_method := None; f_isDefinition := true; f_bodyLines := (1)%Z |} [] (Some (Node 1 [] (CompoundStmt [(Node 2 [] (DeclStmt [(Node 3 [] (VarDecl {| v_isParm := false; v_name := $"b"; v_used := false; v_referenced := false; v_local := true; v_staticMember := false; v_private := false; v_unusedAttr := false; v_defaultArg := false; v_canonicalType := $"int"; v_inTemplate := false; v_contexts := [CxFunction true true false] |} (Some (Node 4 [] (UnaryOperator UO_Plus (Node 5 [] (UnaryOperator UO_Plus (Node 6 [] (UnaryOperator UO_Plus (Node 7 [] (IntegerLiteral (1)%Z)))))))))))]))]))))))];
     ts_locs := [(1,1,1,35); (1,16,1,35); (1,18,1,33); (1,18,1,32); (1,26,1,32); (1,28,1,32); (1,30,1,32); (1,32,1,32)]%Z;
     ts_evals := []; ts_same := []; ts_decls := []; ts_parents := [] |}.
Example MultipleUnaryOperator_TriplePlus_holds : nth_violation (shippedRule sh_MultipleUnaryOperator) MultipleUnaryOperator_TriplePlus 0 = Some (1, 26, 1, 32, $"")%Z.
Proof. vm_compute. reflexivity. Qed.

Definition MultipleUnaryOperator_TriplePlus_2 : testcase :=
  {| ts_lang := LC; ts_path := $"input.c"; ts_code := [];
     ts_comments := []; ts_conf := [];
     ts_tops := [(toplevel 0 (TFunction false), (Node 0 [] (FunctionDecl {| f_name := $"aMethod"; f_method := None; f_isDefinition := true; f_bodyLines := (1)%Z |} [] (Some (Node 1 [] (CompoundStmt [(Node 2 [] (DeclStmt [(Node 3 [] (VarDecl {| v_isParm := false; v_name := $"b"; v_used := false; v_referenced := false; v_local := true; v_staticMember := false; v_private := false; v_unusedAttr := false; v_defaultArg := false; v_canonicalType := $"int"; v_inTemplate := false; v_contexts := [CxFunction true true false] |} (Some (Node 4 [] (UnaryOperator UO_Plus (Node 5 [] (UnaryOperator UO_Plus (Node 6 [] (UnaryOperator UO_Plus (Node 7 [] (IntegerLiteral (1)%Z)))))))))))]))]))))))];
     ts_locs := [(1,1,1,35); (1,16,1,35); (1,18,1,33); (1,18,1,32); (1,26,1,32); (1,28,1,32); (1,30,1,32); (1,32,1,32)]%Z;
     ts_evals := []; ts_same := []; ts_decls := []; ts_parents := [] |}.
Example MultipleUnaryOperator_TriplePlus_2_holds : nth_violation (shippedRule sh_MultipleUnaryOperator) MultipleUnaryOperator_TriplePlus_2 1 = Some (1, 28, 1, 32, $"")%Z.
Proof. vm_compute. reflexivity. Qed.

Definition MultipleUnaryOperator_TriplePlusWithParentheses : testcase :=
  {| ts_lang := LC; ts_path := $"input.c"; ts_code := [];
     ts_comments := []; ts_conf := [];
     ts_tops := [(toplevel 0 (TFunction false), (Node 0 [] (FunctionDecl {| f_name := $"aMethod"; f_method := None; f_isDefinition := true; f_bodyLines := (1)%Z |} [] (Some (Node 1 [] (CompoundStmt [(Node 2 [] (DeclStmt [(Node 3 [] (VarDecl {| v_isParm := false; v_name := $"b"; v_used := false; v_referenced := false; v_local := true; v_staticMember := false; v_private := false; v_unusedAttr := false; v_defaultArg := false; v_canonicalType := $"int"; v_inTemplate := false; v_contexts := [CxFunction true true false] |} (Some (Node 4 [] (UnaryOperator UO_Plus (Node 5 [] (ParenExpr (Node 6 [] (UnaryOperator UO_Plus (Node 7 [] (ParenExpr (Node 8 [] (UnaryOperator UO_Plus (Node 9 [] (IntegerLiteral (1)%Z)))))))))))))))]))]))))))];
     ts_locs := [(1,1,1,36); (1,16,1,36); (1,18,1,34); (1,18,1,33); (1,26,1,33); (1,27,1,33); (1,28,1,32); (1,29,1,32); (1,30,1,31); (1,31,1,31)]%Z;
     ts_evals := []; ts_same := []; ts_decls := []; ts_parents := [] |}.
Example MultipleUnaryOperator_TriplePlusWithParentheses_holds : nth_violation (shippedRule sh_MultipleUnaryOperator) MultipleUnaryOperator_TriplePlusWithParentheses 0 = Some (1, 26, 1, 33, $"")%Z.
Proof. vm_compute. reflexivity. Qed.

Definition MultipleUnaryOperator_TriplePlusWithParentheses_2 : testcase :=
  {| ts_lang := LC; ts_path := $"input.c"; ts_code := [];
     ts_comments := []; ts_conf := [];
     ts_tops := [(toplevel 0 (TFunction false), (Node 0 [] (FunctionDecl {| f_name := $"aMethod"; f_method := None; f_isDefinition := true; f_bodyLines := (1)%Z |} [] (Some (Node 1 [] (CompoundStmt [(Node 2 [] (DeclStmt [(Node 3 [] (VarDecl {| v_isParm := false; v_name := $"b"; v_used := false; v_referenced := false; v_local := true; v_staticMember := false; v_private := false; v_unusedAttr := false; v_defaultArg := false; v_canonicalType := $"int"; v_inTemplate := false; v_contexts := [CxFunction true true false] |} (Some (Node 4 [] (UnaryOperator UO_Plus (Node 5 [] (ParenExpr (Node 6 [] (UnaryOperator UO_Plus (Node 7 [] (ParenExpr (Node 8 [] (UnaryOperator UO_Plus (Node 9 [] (IntegerLiteral (1)%Z)))))))))))))))]))]))))))];
     ts_locs := [(1,1,1,36); (1,16,1,36); (1,18,1,34); (1,18,1,33); (1,26,1,33); (1,27,1,33); (1,28,1,32); (1,29,1,32); (1,30,1,31); (1,31,1,31)]%Z;
     ts_evals := []; ts_same := []; ts_decls := []; ts_parents := [] |}.
Example MultipleUnaryOperator_TriplePlusWithParentheses_2_holds : nth_violation (shippedRule sh_MultipleUnaryOperator) MultipleUnaryOperator_TriplePlusWithParentheses_2 1 = Some (1, 28, 1, 32, $"")%Z.
Proof. vm_compute. reflexivity. Qed.

Definition MultipleUnaryOperator_TripleMinus : testcase :=
  {| ts_lang := LC; ts_path := $"input.c"; ts_code := [];
     ts_comments := []; ts_conf := [];
     ts_tops := [(toplevel 0 (TFunction false), (Node 0 [] (FunctionDecl {| f_name := $"aMethod"; f_method := None; f_isDefinition := true; f_bodyLines := (1)%Z |} [] (Some (Node 1 [] (CompoundStmt [(Node 2 [] (DeclStmt [(Node 3 [] (VarDecl {| v_isParm := false; v_name := $"b"; v_used := false; v_referenced := false; v_local := true; v_staticMember := false; v_private := false; v_unusedAttr := false; v_defaultArg := false; v_canonicalType := $"int"; v_inTemplate := false; v_contexts := [CxFunction true true false] |} (Some (Node 4 [] (UnaryOperator UO_Minus (Node 5 [] (UnaryOperator UO_Minus (Node 6 [] (UnaryOperator UO_Minus (Node 7 [] (IntegerLiteral (1)%Z)))))))))))]))]))))))];
     ts_locs := [(1,1,1,35); (1,16,1,35); (1,18,1,33); (1,18,1,32); (1,26,1,32); (1,28,1,32); (1,30,1,32); (1,32,1,32)]%Z;
     ts_evals := []; ts_same := []; ts_decls := []; ts_parents := [] |}.
Example MultipleUnaryOperator_TripleMinus_holds : nth_violation (shippedRule sh_MultipleUnaryOperator) MultipleUnaryOperator_TripleMinus 0 = Some (1, 26, 1, 32, $"")%Z.
Proof. vm_compute. reflexivity. Qed.

Definition MultipleUnaryOperator_TripleMinus_2 : testcase :=
  {| ts_lang := LC; ts_path := $"input.c"; ts_code := [];
     ts_comments := []; ts_conf := [];
     ts_tops := [(toplevel 0 (TFunction false), (Node 0 [] (FunctionDecl {| f_name := $"aMethod"; f_method := None; f_isDefinition := true; f_bodyLines := (1)%Z |} [] (Some (Node 1 [] (CompoundStmt [(Node 2 [] (DeclStmt [(Node 3 [] (VarDecl {| v_isParm := false; v_name := $"b"; v_used := false; v_referenced := false; v_local := true; v_staticMember := false; v_private := false; v_unusedAttr := false; v_defaultArg := false; v_canonicalType := $"int"; v_inTemplate := false; v_contexts := [CxFunction true true false] |} (Some (Node 4 [] (UnaryOperator UO_Minus (Node 5 [] (UnaryOperator UO_Minus (Node 6 [] (UnaryOperator UO_Minus (Node 7 [] (IntegerLiteral (1)%Z)))))))))))]))]))))))];
     ts_locs := [(1,1,1,35); (1,16,1,35); (1,18,1,33); (1,18,1,32); (1,26,1,32); (1,28,1,32); (1,30,1,32); (1,32,1,32)]%Z;
     ts_evals := []; ts_same := []; ts_decls := []; ts_parents := [] |}.
Example MultipleUnaryOperator_TripleMinus_2_holds : nth_violation (shippedRule sh_MultipleUnaryOperator) MultipleUnaryOperator_TripleMinus_2 1 = Some (1, 28, 1, 32, $"")%Z.
Proof. vm_compute. reflexivity. Qed.

Definition MultipleUnaryOperator_TripleMinusWithParentheses : testcase :=
  {| ts_lang := LC; ts_path := $"input.c"; ts_code := [];
     ts_comments := []; ts_conf := [];
     ts_tops := [(toplevel 0 (TFunction false), (Node 0 [] (FunctionDecl {| f_name := $"aMethod"; f_method := None; f_isDefinition := true; f_bodyLines := (1)%Z |} [] (Some (Node 1 [] (CompoundStmt [(Node 2 [] (DeclStmt [(Node 3 [] (VarDecl {| v_isParm := false; v_name := $"b"; v_used := false; v_referenced := false; v_local := true; v_staticMember := false; v_private := false; v_unusedAttr := false; v_defaultArg := false; v_canonicalType := $"int"; v_inTemplate := false; v_contexts := [CxFunction true true false] |} (Some (Node 4 [] (UnaryOperator UO_Minus (Node 5 [] (ParenExpr (Node 6 [] (UnaryOperator UO_Minus (Node 7 [] (ParenExpr (Node 8 [] (UnaryOperator UO_Minus (Node 9 [] (IntegerLiteral (1)%Z)))))))))))))))]))]))))))];
     ts_locs := [(1,1,1,36); (1,16,1,36); (1,18,1,34); (1,18,1,33); (1,26,1,33); (1,27,1,33); (1,28,1,32); (1,29,1,32); (1,30,1,31); (1,31,1,31)]%Z;
     ts_evals := []; ts_same := []; ts_decls := []; ts_parents := [] |}.
Example MultipleUnaryOperator_TripleMinusWithParentheses_holds : nth_violation (shippedRule sh_MultipleUnaryOperator) MultipleUnaryOperator_TripleMinusWithParentheses 0 = Some (1, 26, 1, 33, $"")%Z.
Proof. vm_compute. reflexivity. Qed.

Definition MultipleUnaryOperator_TripleMinusWithParentheses_2 : testcase :=
  {| ts_lang := LC; ts_path := $"input.c"; ts_code := [];
     ts_comments := []; ts_conf := [];
     ts_tops := [(toplevel 0 (TFunction false), (Node 0 [] (FunctionDecl {| f_name := $"aMethod"; f_method := None; f_isDefinition := true; f_bodyLines := (1)%Z |} [] (Some (Node 1 [] (CompoundStmt [(Node 2 [] (DeclStmt [(Node 3 [] (VarDecl {| v_isParm := false; v_name := $"b"; v_used := false; v_referenced := false; v_local := true; v_staticMember := false; v_private := false; v_unusedAttr := false; v_defaultArg := false; v_canonicalType := $"int"; v_inTemplate := false; v_contexts := [CxFunction true true false] |} (Some (Node 4 [] (UnaryOperator UO_Minus (Node 5 [] (ParenExpr (Node 6 [] (UnaryOperator UO_Minus (Node 7 [] (ParenExpr (Node 8 [] (UnaryOperator UO_Minus (Node 9 [] (IntegerLiteral (1)%Z)))))))))))))))]))]))))))];
     ts_locs := [(1,1,1,36); (1,16,1,36); (1,18,1,34); (1,18,1,33); (1,26,1,33); (1,27,1,33); (1,28,1,32); (1,29,1,32); (1,30,1,31); (1,31,1,31)]%Z;
     ts_evals := []; ts_same := []; ts_decls := []; ts_parents := [] |}.
Example MultipleUnaryOperator_TripleMinusWithParentheses_2_holds : nth_violation (shippedRule sh_MultipleUnaryOperator) MultipleUnaryOperator_TripleMinusWithParentheses_2 1 = Some (1, 28, 1, 32, $"")%Z.
Proof. vm_compute. reflexivity. Qed.

Definition MultipleUnaryOperator_DoubleLogicalNotWithNestedParentheses : testcase :=
  {| ts_lang := LC; ts_path := $"input.c"; ts_code := [];
     ts_comments := []; ts_conf := [];
     ts_tops := [(toplevel 0 (TFunction false), (Node 0 [] (FunctionDecl {| f_name := $"aMethod"; f_method := None; f_isDefinition := true; f_bodyLines := (1)%Z |} [] (Some (Node 1 [] (CompoundStmt [(Node 2 [] (DeclStmt [(Node 3 [] (VarDecl {| v_isParm := false; v_name := $"b"; v_used := false; v_referenced := false; v_local := true; v_staticMember := false; v_private := false; v_unusedAttr := false; v_defaultArg := false; v_canonicalType := $"int"; v_inTemplate := false; v_contexts := [CxFunction true true false] |} (Some (Node 4 [] (UnaryOperator UO_LNot (Node 5 [] (ParenExpr (Node 6 [] (ParenExpr (Node 7 [] (ParenExpr (Node 8 [] (UnaryOperator UO_LNot (Node 9 [] (IntegerLiteral (1)%Z)))))))))))))))]))]))))))];
     ts_locs := [(1,1,1,37); (1,16,1,37); (1,18,1,35); (1,18,1,34); (1,26,1,34); (1,27,1,34); (1,28,1,33); (1,29,1,32); (1,30,1,31); (1,31,1,31)]%Z;
     ts_evals := []; ts_same := []; ts_decls := []; ts_parents := [] |}.
Example MultipleUnaryOperator_DoubleLogicalNotWithNestedParentheses_holds : nth_violation (shippedRule sh_MultipleUnaryOperator) MultipleUnaryOperator_DoubleLogicalNotWithNestedParentheses 0 = Some (1, 26, 1, 34, $"")%Z.
Proof. vm_compute. reflexivity. Qed.

Definition MultipleUnaryOperator_DoubleNotWithNestedParentheses : testcase :=
  {| ts_lang := LC; ts_path := $"input.c"; ts_code := [];
     ts_comments := []; ts_conf := [];
     ts_tops := [(toplevel 0 (TFunction false), (Node 0 [] (FunctionDecl {| f_name := $"aMethod"; f_method := None; f_isDefinition := true; f_bodyLines := (1)%Z |} [] (Some (Node 1 [] (CompoundStmt [(Node 2 [] (DeclStmt [(Node 3 [] (VarDecl {| v_isParm := false; v_name := $"b"; v_used := false; v_referenced := false; v_local := true; v_staticMember := false; v_private := false; v_unusedAttr := false; v_defaultArg := false; v_canonicalType := $"int"; v_inTemplate := false; v_contexts := [CxFunction true true false] |} (Some (Node 4 [] (UnaryOperator UO_Not (Node 5 [] (ParenExpr (Node 6 [] (ParenExpr (Node 7 [] (ParenExpr (Node 8 [] (UnaryOperator UO_Not (Node 9 [] (IntegerLiteral (1)%Z)))))))))))))))]))]))))))];
     ts_locs := [(1,1,1,37); (1,16,1,37); (1,18,1,35); (1,18,1,34); (1,26,1,34); (1,27,1,34); (1,28,1,33); (1,29,1,32); (1,30,1,31); (1,31,1,31)]%Z;
     ts_evals := []; ts_same := []; ts_decls := []; ts_parents := [] |}.
Example MultipleUnaryOperator_DoubleNotWithNestedParentheses_holds : nth_violation (shippedRule sh_MultipleUnaryOperator) MultipleUnaryOperator_DoubleNotWithNestedParentheses 0 = Some (1, 26, 1, 34, $"")%Z.
Proof. vm_compute. reflexivity. Qed.

Definition MultipleUnaryOperator_DoublePlusWithNestedParentheses : testcase :=
  {| ts_lang := LC; ts_path := $"input.c"; ts_code := [];
     ts_comments := []; ts_conf := [];
     ts_tops := [(toplevel 0 (TFunction false), (Node 0 [] (FunctionDecl {| f_name := $"aMethod"; f_method := None; f_isDefinition := true; f_bodyLines := (1)%Z |} [] (Some (Node 1 [] (CompoundStmt [(Node 2 [] (DeclStmt [(Node 3 [] (VarDecl {| v_isParm := false; v_name := $"b"; v_used := false; v_referenced := false; v_local := true; v_staticMember := false; v_private := false; v_unusedAttr := false; v_defaultArg := false; v_canonicalType := $"int"; v_inTemplate := false; v_contexts := [CxFunction true true false] |} (Some (Node 4 [] (UnaryOperator UO_Plus (Node 5 [] (ParenExpr (Node 6 [] (ParenExpr (Node 7 [] (ParenExpr (Node 8 [] (UnaryOperator UO_Plus (Node 9 [] (IntegerLiteral (1)%Z)))))))))))))))]))]))))))];
     ts_locs := [(1,1,1,37); (1,16,1,37); (1,18,1,35); (1,18,1,34); (1,26,1,34); (1,27,1,34); (1,28,1,33); (1,29,1,32); (1,30,1,31); (1,31,1,31)]%Z;
     ts_evals := []; ts_same := []; ts_decls := []; ts_parents := [] |}.
Example MultipleUnaryOperator_DoublePlusWithNestedParentheses_holds : nth_violation (shippedRule sh_MultipleUnaryOperator) MultipleUnaryOperator_DoublePlusWithNestedParentheses 0 = Some (1, 26, 1, 34, $"")%Z.
Proof. vm_compute. reflexivity. Qed.

Definition MultipleUnaryOperator_DoubleMinusWithNestedParentheses : testcase :=
  {| ts_lang := LC; ts_path := $"input.c"; ts_code := [];
     ts_comments := []; ts_conf := [];
     ts_tops := [(toplevel 0 (TFunction false), (Node 0 [] (FunctionDecl {| f_name := $"aMethod"; f_method := None; f_isDefinition := true; f_bodyLines := (1)%Z |} [] (Some (Node 1 [] (CompoundStmt [(Node 2 [] (DeclStmt [(Node 3 [] (VarDecl {| v_isParm := false; v_name := $"b"; v_used := false; v_referenced := false; v_local := true; v_staticMember := false; v_private := false; v_unusedAttr := false; v_defaultArg := false; v_canonicalType := $"int"; v_inTemplate := false; v_contexts := [CxFunction true true false] |} (Some (Node 4 [] (UnaryOperator UO_Minus (Node 5 [] (ParenExpr (Node 6 [] (ParenExpr (Node 7 [] (ParenExpr (Node 8 [] (UnaryOperator UO_Minus (Node 9 [] (IntegerLiteral (1)%Z)))))))))))))))]))]))))))];
     ts_locs := [(1,1,1,37); (1,16,1,37); (1,18,1,35); (1,18,1,34); (1,26,1,34); (1,27,1,34); (1,28,1,33); (1,29,1,32); (1,30,1,31); (1,31,1,31)]%Z;
     ts_evals := []; ts_same := []; ts_decls := []; ts_parents := [] |}.
Example MultipleUnaryOperator_DoubleMinusWithNestedParentheses_holds : nth_violation (shippedRule sh_MultipleUnaryOperator) MultipleUnaryOperator_DoubleMinusWithNestedParentheses 0 = Some (1, 26, 1, 34, $"")%Z.
Proof. vm_compute. reflexivity. Qed.

Definition MultipleUnaryOperator_MixUnaryOperators : testcase :=
  {| ts_lang := LC; ts_path := $"input.c"; ts_code := [];
     ts_comments := []; ts_conf := [];
     ts_tops := [(toplevel 0 (TFunction false), (Node 0 [] (FunctionDecl {| f_name := $"aMethod"; f_method := None; f_isDefinition := true; f_bodyLines := (1)%Z |} [] (Some (Node 1 [] (CompoundStmt [(Node 2 [] (DeclStmt [(Node 3 [] (VarDecl {| v_isParm := false; v_name := $"b"; v_used := false; v_referenced := false; v_local := true; v_staticMember := false; v_private := false; v_unusedAttr := false; v_defaultArg := false; v_canonicalType := $"int"; v_inTemplate := false; v_contexts := [CxFunction true true false] |} (Some (Node 4 [] (UnaryOperator UO_Minus (Node 5 [] (ParenExpr (Node 6 [] (UnaryOperator UO_Plus (Node 7 [] (ParenExpr (Node 8 [] (UnaryOperator UO_LNot (Node 9 [] (ParenExpr (Node 10 [] (UnaryOperator UO_Not (Node 11 [] (IntegerLiteral (1)%Z)))))))))))))))))))]))]))))))];
     ts_locs := [(1,1,1,39); (1,16,1,39); (1,18,1,37); (1,18,1,36); (1,26,1,36); (1,27,1,36); (1,28,1,35); (1,29,1,35); (1,30,1,34); (1,31,1,34); (1,32,1,33); (1,33,1,33)]%Z;
     ts_evals := []; ts_same := []; ts_decls := []; ts_parents := [] |}.
Example MultipleUnaryOperator_MixUnaryOperators_holds : nth_violation (shippedRule sh_MultipleUnaryOperator) MultipleUnaryOperator_MixUnaryOperators 0 = Some (1, 26, 1, 36, $"")%Z.
Proof. vm_compute. reflexivity. Qed.

Definition MultipleUnaryOperator_MixUnaryOperators_2 : testcase :=
  {| ts_lang := LC; ts_path := $"input.c"; ts_code := [];
     ts_comments := []; ts_conf := [];
     ts_tops := [(toplevel 0 (TFunction false), (Node 0 [] (FunctionDecl {| f_name := $"aMethod"; f_method := None; f_isDefinition := true; f_bodyLines := (1)%Z |} [] (Some (Node 1 [] (CompoundStmt [(Node 2 [] (DeclStmt [(Node 3 [] (VarDecl {| v_isParm := false; v_name := $"b"; v_used := false; v_referenced := false; v_local := true; v_staticMember := false; v_private := false; v_unusedAttr := false; v_defaultArg := false; v_canonicalType := $"int"; v_inTemplate := false; v_contexts := [CxFunction true true false] |} (Some (Node 4 [] (UnaryOperator UO_Minus (Node 5 [] (ParenExpr (Node 6 [] (UnaryOperator UO_Plus (Node 7 [] (ParenExpr (Node 8 [] (UnaryOperator UO_LNot (Node 9 [] (ParenExpr (Node 10 [] (UnaryOperator UO_Not (Node 11 [] (IntegerLiteral (1)%Z)))))))))))))))))))]))]))))))];
     ts_locs := [(1,1,1,39); (1,16,1,39); (1,18,1,37); (1,18,1,36); (1,26,1,36); (1,27,1,36); (1,28,1,35); (1,29,1,35); (1,30,1,34); (1,31,1,34); (1,32,1,33); (1,33,1,33)]%Z;
     ts_evals := []; ts_same := []; ts_decls := []; ts_parents := [] |}.
Example MultipleUnaryOperator_MixUnaryOperators_2_holds : nth_violation (shippedRule sh_MultipleUnaryOperator) MultipleUnaryOperator_MixUnaryOperators_2 1 = Some (1, 28, 1, 35, $"")%Z.
Proof. vm_compute. reflexivity. Qed.

Definition MultipleUnaryOperator_MixUnaryOperators_3 : testcase :=
  {| ts_lang := LC; ts_path := $"input.c"; ts_code := [];
     ts_comments := []; ts_conf := [];
     ts_tops := [(toplevel 0 (TFunction false), (Node 0 [] (FunctionDecl {| f_name := $"aMethod"; f_method := None; f_isDefinition := true; f_bodyLines := (1)%Z |} [] (Some (Node 1 [] (CompoundStmt [(Node 2 [] (DeclStmt [(Node 3 [] (VarDecl {| v_isParm := false; v_name := $"b"; v_used := false; v_referenced := false; v_local := true; v_staticMember := false; v_private := false; v_unusedAttr := false; v_defaultArg := false; v_canonicalType := $"int"; v_inTemplate := false; v_contexts := [CxFunction true true false] |} (Some (Node 4 [] (UnaryOperator UO_Minus (Node 5 [] (ParenExpr (Node 6 [] (UnaryOperator UO_Plus (Node 7 [] (ParenExpr (Node 8 [] (UnaryOperator UO_LNot (Node 9 [] (ParenExpr (Node 10 [] (UnaryOperator UO_Not (Node 11 [] (IntegerLiteral (1)%Z)))))))))))))))))))]))]))))))];
     ts_locs := [(1,1,1,39); (1,16,1,39); (1,18,1,37); (1,18,1,36); (1,26,1,36); (1,27,1,36); (1,28,1,35); (1,29,1,35); (1,30,1,34); (1,31,1,34); (1,32,1,33); (1,33,1,33)]%Z;
     ts_evals := []; ts_same := []; ts_decls := []; ts_parents := [] |}.
Example MultipleUnaryOperator_MixUnaryOperators_3_holds : nth_violation (shippedRule sh_MultipleUnaryOperator) MultipleUnaryOperator_MixUnaryOperators_3 2 = Some (1, 30, 1, 34, $"")%Z.
Proof. vm_compute. reflexivity. Qed.

(** ** oclint-rules/test/basic/ReturnFromFinallyBlockRuleTest.cpp *)

Definition ReturnFromFinallyBlock_NoReturnFromFinallyBlock : testcase :=
  {| ts_lang := LObjC; ts_path := $"input.m"; ts_code := [];
     ts_comments := []; ts_conf := [];
     ts_tops := [(toplevel 0 (TFunction false), (Node 0 [] (FunctionDecl {| f_name := $"m"; f_method := None; f_isDefinition := true; f_bodyLines := (1)%Z |} [] (Some (Node 1 [] (CompoundStmt [(Node 2 [] (ObjCAtTryStmt (Node 3 [] (CompoundStmt [(Node 4 [] NullStmt)])) [(Node 5 [] (ObjCAtCatchStmt None (Node 6 [] (CompoundStmt [(Node 7 [] NullStmt)]))))] (Some (Node 8 [] (ObjCAtFinallyStmt (Node 9 [] (CompoundStmt [(Node 10 [] NullStmt)])))))))]))))))];
     ts_locs := [(1,1,1,52); (1,10,1,52); (1,12,1,50); (1,17,1,19); (1,18,1,18); (1,21,1,37); (1,35,1,37); (1,36,1,36); (1,39,1,50); (1,48,1,50); (1,49,1,49)]%Z;
     ts_evals := []; ts_same := []; ts_decls := []; ts_parents := [] |}.
Example ReturnFromFinallyBlock_NoReturnFromFinallyBlock_holds : sorted_violations_of (shippedRule sh_ReturnFromFinallyBlock) ReturnFromFinallyBlock_NoReturnFromFinallyBlock = Some [].
Proof. vm_compute. reflexivity. Qed.

Definition ReturnFromFinallyBlock_ReturnFromFinallyBlock : testcase :=
  {| ts_lang := LObjC; ts_path := $"input.m"; ts_code := [];
     ts_comments := []; ts_conf := [];
     ts_tops := [(toplevel 0 (TFunction false), (Node 0 [] (FunctionDecl {| f_name := $"m"; f_method := None; f_isDefinition := true; f_bodyLines := (1)%Z |} [] (Some (Node 1 [] (CompoundStmt [(Node 2 [] (ObjCAtTryStmt (Node 3 [] (CompoundStmt [(Node 4 [] NullStmt)])) [(Node 5 [] (ObjCAtCatchStmt None (Node 6 [] (CompoundStmt [(Node 7 [] NullStmt)]))))] (Some (Node 8 [] (ObjCAtFinallyStmt (Node 9 [] (CompoundStmt [(Node 10 [] (DeclStmt [(Node 11 [] (VarDecl {| v_isParm := false; v_name := $"i"; v_used := false; v_referenced := false; v_local := true; v_staticMember := false; v_private := false; v_unusedAttr := false; v_defaultArg := false; v_canonicalType := $"int"; v_inTemplate := false; v_contexts := [CxFunction true true false] |} None))])); (Node 12 [] (ReturnStmt None)); (Node 13 [] (DeclStmt [(Node 14 [] (VarDecl {| v_isParm := false; v_name := $"j"; v_used := false; v_referenced := false; v_local := true; v_staticMember := false; v_private := false; v_unusedAttr := false; v_defaultArg := false; v_canonicalType := $"int"; v_inTemplate := false; v_contexts := [CxFunction true true false] |} None))]))])))))))]))))))];
     ts_locs := [(1,1,1,74); (1,10,1,74); (1,12,1,72); (1,17,1,19); (1,18,1,18); (1,21,1,37); (1,35,1,37); (1,36,1,36); (1,39,1,72); (1,48,1,72); (1,50,1,55); (1,50,1,54); (1,57,1,57); (1,65,1,70); (1,65,1,69)]%Z;
     ts_evals := []; ts_same := []; ts_decls := []; ts_parents := [] |}.
Example ReturnFromFinallyBlock_ReturnFromFinallyBlock_holds : nth_violation (shippedRule sh_ReturnFromFinallyBlock) ReturnFromFinallyBlock_ReturnFromFinallyBlock 0 = Some (1, 57, 1, 57, $"")%Z.
Proof. vm_compute. reflexivity. Qed.

Definition ReturnFromFinallyBlock_ReturnFromNestedBlockInsideFinallyBlock : testcase :=
  {| ts_lang := LObjC; ts_path := $"input.m"; ts_code := [];
     ts_comments := []; ts_conf := [];
     ts_tops := [(toplevel 0 (TFunction false), (Node 0 [] (FunctionDecl {| f_name := $"m"; f_method := None; f_isDefinition := true; f_bodyLines := (1)%Z |} [] (Some (Node 1 [] (CompoundStmt [(Node 2 [] (ObjCAtTryStmt (Node 3 [] (CompoundStmt [(Node 4 [] NullStmt)])) [(Node 5 [] (ObjCAtCatchStmt None (Node 6 [] (CompoundStmt [(Node 7 [] NullStmt)]))))] (Some (Node 8 [] (ObjCAtFinallyStmt (Node 9 [] (CompoundStmt [(Node 10 [] (DeclStmt [(Node 11 [] (VarDecl {| v_isParm := false; v_name := $"i"; v_used := false; v_referenced := false; v_local := true; v_staticMember := false; v_private := false; v_unusedAttr := false; v_defaultArg := false; v_canonicalType := $"int"; v_inTemplate := false; v_contexts := [CxFunction true true false] |} None))])); (Node 12 [] (IfStmt [] (Node 13 $"int" (IntegerLiteral (1)%Z)) (Node 14 [] (CompoundStmt [(Node 15 [] (ReturnStmt None))])) None)); (Node 16 [] (DeclStmt [(Node 17 [] (VarDecl {| v_isParm := false; v_name := $"j"; v_used := false; v_referenced := false; v_local := true; v_staticMember := false; v_private := false; v_unusedAttr := false; v_defaultArg := false; v_canonicalType := $"int"; v_inTemplate := false; v_contexts := [CxFunction true true false] |} None))]))])))))))]))))))];
     ts_locs := [(1,1,1,82); (1,10,1,82); (1,12,1,80); (1,17,1,19); (1,18,1,18); (1,21,1,37); (1,35,1,37); (1,36,1,36); (1,39,1,80); (1,48,1,80); (1,50,1,55); (1,50,1,54); (1,57,1,71); (1,60,1,60); (1,63,1,71); (1,64,1,64); (1,73,1,78); (1,73,1,77)]%Z;
     ts_evals := [(13, true)]; ts_same := []; ts_decls := []; ts_parents := [] |}.
Example ReturnFromFinallyBlock_ReturnFromNestedBlockInsideFinallyBlock_holds : nth_violation (shippedRule sh_ReturnFromFinallyBlock) ReturnFromFinallyBlock_ReturnFromNestedBlockInsideFinallyBlock 0 = Some (1, 64, 1, 64, $"")%Z.
Proof. vm_compute. reflexivity. Qed.

(** ** oclint-rules/test/basic/ThrowExceptionFromFinallyBlockRuleTest.cpp *)

Definition ThrowExceptionFromFinallyBlock_NoThrowFromFinallyBlock : testcase :=
  {| ts_lang := LObjC; ts_path := $"input.m"; ts_code := [];
     ts_comments := []; ts_conf := [];
     ts_tops := [(toplevel 0 (TFunction false), (Node 0 [] (FunctionDecl {| f_name := $"m"; f_method := None; f_isDefinition := true; f_bodyLines := (1)%Z |} [] (Some (Node 1 [] (CompoundStmt [(Node 2 [] (ObjCAtTryStmt (Node 3 [] (CompoundStmt [(Node 4 [] NullStmt)])) [(Node 5 [] (ObjCAtCatchStmt None (Node 6 [] (CompoundStmt [(Node 7 [] NullStmt)]))))] (Some (Node 8 [] (ObjCAtFinallyStmt (Node 9 [] (CompoundStmt [(Node 10 [] NullStmt)])))))))]))))))];
     ts_locs := [(1,1,1,52); (1,10,1,52); (1,12,1,50); (1,17,1,19); (1,18,1,18); (1,21,1,37); (1,35,1,37); (1,36,1,36); (1,39,1,50); (1,48,1,50); (1,49,1,49)]%Z;
     ts_evals := []; ts_same := []; ts_decls := []; ts_parents := [] |}.
Example ThrowExceptionFromFinallyBlock_NoThrowFromFinallyBlock_holds : sorted_violations_of (shippedRule sh_ThrowExceptionFromFinallyBlock) ThrowExceptionFromFinallyBlock_NoThrowFromFinallyBlock = Some [].
Proof. vm_compute. reflexivity. Qed.

Definition ThrowExceptionFromFinallyBlock_ThrowFromFinallyBlock : testcase :=
  {| ts_lang := LObjC; ts_path := $"input.m"; ts_code := [];
     ts_comments := []; ts_conf := [];
     ts_tops := [(toplevel 0 (TFunction false), (Node 0 [] (FunctionDecl {| f_name := $"m"; f_method := None; f_isDefinition := true; f_bodyLines := (1)%Z |} [] (Some (Node 1 [] (CompoundStmt [(Node 2 [] (ObjCAtTryStmt (Node 3 [] (CompoundStmt [(Node 4 [] NullStmt)])) [(Node 5 [] (ObjCAtCatchStmt None (Node 6 [] (CompoundStmt [(Node 7 [] NullStmt)]))))] (Some (Node 8 [] (ObjCAtFinallyStmt (Node 9 [] (CompoundStmt [(Node 10 [] (DeclStmt [(Node 11 [] (VarDecl {| v_isParm := false; v_name := $"ex"; v_used := true; v_referenced := true; v_local := true; v_staticMember := false; v_private := false; v_unusedAttr := false; v_defaultArg := false; v_canonicalType := $"struct objc_object *"; v_inTemplate := false; v_contexts := [CxFunction true true false] |} None))])); (Node 12 [] (ObjCAtThrowStmt (Some (Node 13 $"id" (ImplicitCastExpr CK_LValueToRValue (Node 14 $"id" (DeclRefExpr 11 $"ex" false)))))))])))))))]))))))];
     ts_locs := [(1,1,1,70); (1,10,1,70); (1,12,1,68); (1,17,1,19); (1,18,1,18); (1,21,1,37); (1,35,1,37); (1,36,1,36); (1,39,1,68); (1,48,1,68); (1,50,1,55); (1,50,1,53); (1,57,1,64); (1,64,1,64); (1,64,1,64)]%Z;
     ts_evals := []; ts_same := []; ts_decls := []; ts_parents := [] |}.
Example ThrowExceptionFromFinallyBlock_ThrowFromFinallyBlock_holds : nth_violation (shippedRule sh_ThrowExceptionFromFinallyBlock) ThrowExceptionFromFinallyBlock_ThrowFromFinallyBlock 0 = Some (1, 57, 1, 64, $"")%Z.
Proof. vm_compute. reflexivity. Qed.

Definition ThrowExceptionFromFinallyBlock_ThrowFromNestedBlockInsideFinallyBlock : testcase :=
  {| ts_lang := LObjC; ts_path := $"input.m"; ts_code := [];
     ts_comments := []; ts_conf := [];
     ts_tops := [(toplevel 0 (TFunction false), (Node 0 [] (FunctionDecl {| f_name := $"m"; f_method := None; f_isDefinition := true; f_bodyLines := (1)%Z |} [] (Some (Node 1 [] (CompoundStmt [(Node 2 [] (ObjCAtTryStmt (Node 3 [] (CompoundStmt [(Node 4 [] NullStmt)])) [(Node 5 [] (ObjCAtCatchStmt None (Node 6 [] (CompoundStmt [(Node 7 [] NullStmt)]))))] (Some (Node 8 [] (ObjCAtFinallyStmt (Node 9 [] (CompoundStmt [(Node 10 [] (DeclStmt [(Node 11 [] (VarDecl {| v_isParm := false; v_name := $"i"; v_used := false; v_referenced := false; v_local := true; v_staticMember := false; v_private := false; v_unusedAttr := false; v_defaultArg := false; v_canonicalType := $"int"; v_inTemplate := false; v_contexts := [CxFunction true true false] |} None))])); (Node 12 [] (DeclStmt [(Node 13 [] (VarDecl {| v_isParm := false; v_name := $"ex"; v_used := true; v_referenced := true; v_local := true; v_staticMember := false; v_private := false; v_unusedAttr := false; v_defaultArg := false; v_canonicalType := $"struct objc_object *"; v_inTemplate := false; v_contexts := [CxFunction true true false] |} None))])); (Node 14 [] (IfStmt [] (Node 15 $"int" (IntegerLiteral (1)%Z)) (Node 16 [] (CompoundStmt [(Node 17 [] (ObjCAtThrowStmt (Some (Node 18 $"id" (ImplicitCastExpr CK_LValueToRValue (Node 19 $"id" (DeclRefExpr 13 $"ex" false)))))))])) None)); (Node 20 [] (DeclStmt [(Node 21 [] (VarDecl {| v_isParm := false; v_name := $"j"; v_used := false; v_referenced := false; v_local := true; v_staticMember := false; v_private := false; v_unusedAttr := false; v_defaultArg := false; v_canonicalType := $"int"; v_inTemplate := false; v_contexts := [CxFunction true true false] |} None))]))])))))))]))))))];
     ts_locs := [(1,1,1,94); (1,10,1,94); (1,12,1,92); (1,17,1,19); (1,18,1,18); (1,21,1,37); (1,35,1,37); (1,36,1,36); (1,39,1,92); (1,48,1,92); (1,50,1,55); (1,50,1,54); (1,57,1,62); (1,57,1,60); (1,64,1,83); (1,67,1,67); (1,70,1,83); (1,72,1,79); (1,79,1,79); (1,79,1,79); (1,85,1,90); (1,85,1,89)]%Z;
     ts_evals := [(15, true)]; ts_same := []; ts_decls := []; ts_parents := [] |}.
Example ThrowExceptionFromFinallyBlock_ThrowFromNestedBlockInsideFinallyBlock_holds : nth_violation (shippedRule sh_ThrowExceptionFromFinallyBlock) ThrowExceptionFromFinallyBlock_ThrowFromNestedBlockInsideFinallyBlock 0 = Some (1, 72, 1, 79, $"")%Z.
Proof. vm_compute. reflexivity. Qed.

Definition ThrowExceptionFromFinallyBlock_NSExceptionRaiseFormat : testcase :=
  {| ts_lang := LObjC; ts_path := $"input.m"; ts_code := [];
     ts_comments := []; ts_conf := [];
     ts_tops := [(toplevel 0 (TOther), (Node 0 [] (OtherDecl []))); (toplevel 1 (TOther), (Node 1 [] (ObjCContainerDecl {| oc_kind := OKInterface; oc_name := $"NSObject"; oc_lines := (2)%Z; oc_ivars := 0; oc_methods := []; oc_classes := [$"NSObject"]; oc_superMethods := None |} []))); (toplevel 2 (TOther), (Node 2 [] (ObjCContainerDecl {| oc_kind := OKInterface; oc_name := $"NSException"; oc_lines := (3)%Z; oc_ivars := 0; oc_methods := [($"raise:format:", false)]; oc_classes := [$"NSException"; $"NSObject"]; oc_superMethods := (Some ($"NSObject", [])) |} [(Node 3 [] (ObjCMethodDecl {| om_selector := $"raise:format:"; om_class := (Some $"NSException"); om_overriding := false; om_overridden := []; om_bodyLines := (0)%Z |} [(Node 4 [] (VarDecl {| v_isParm := true; v_name := $"name"; v_used := false; v_referenced := false; v_local := false; v_staticMember := false; v_private := false; v_unusedAttr := false; v_defaultArg := false; v_canonicalType := $"NSString *"; v_inTemplate := false; v_contexts := [CxObjCMethod true false false false; CxOther] |} None)); (Node 5 [] (VarDecl {| v_isParm := true; v_name := $"format"; v_used := false; v_referenced := false; v_local := false; v_staticMember := false; v_private := false; v_unusedAttr := false; v_defaultArg := false; v_canonicalType := $"NSString *"; v_inTemplate := false; v_contexts := [CxObjCMethod true false false false; CxOther] |} None))] None))]))); (toplevel 6 (TFunction false), (Node 6 [] (FunctionDecl {| f_name := $"m"; f_method := None; f_isDefinition := true; f_bodyLines := (2)%Z |} [] (Some (Node 7 [] (CompoundStmt [(Node 8 [] (ObjCAtTryStmt (Node 9 [] (CompoundStmt [(Node 10 [] NullStmt)])) [(Node 11 [] (ObjCAtCatchStmt None (Node 12 [] (CompoundStmt [(Node 13 [] NullStmt)]))))] (Some (Node 14 [] (ObjCAtFinallyStmt (Node 15 [] (CompoundStmt [(Node 16 [] (DeclStmt [(Node 17 [] (VarDecl {| v_isParm := false; v_name := $"arg1"; v_used := true; v_referenced := true; v_local := true; v_staticMember := false; v_private := false; v_unusedAttr := false; v_defaultArg := false; v_canonicalType := $"struct objc_object *"; v_inTemplate := false; v_contexts := [CxFunction true true false] |} None)); (Node 18 [] (VarDecl {| v_isParm := false; v_name := $"arg2"; v_used := true; v_referenced := true; v_local := true; v_staticMember := false; v_private := false; v_unusedAttr := false; v_defaultArg := false; v_canonicalType := $"struct objc_object *"; v_inTemplate := false; v_contexts := [CxFunction true true false] |} None))])); (Node 19 $"void" (ObjCMessageExpr {| ms_selector := $"raise:format:"; ms_receiver := (RClass $"NSException"); ms_implicit := false; ms_interface := (Some $"NSException"); ms_method := (Some (Decl [] (Some (Method false None (InOther (Some NoCategory)))))); ms_methodClass := (Some $"NSException") |} None [(Node 20 $"NSString *" (ImplicitCastExpr CK_BitCast (Node 21 $"id" (ImplicitCastExpr CK_LValueToRValue (Node 22 $"id" (DeclRefExpr 17 $"arg1" false)))))); (Node 23 $"NSString *" (ImplicitCastExpr CK_BitCast (Node 24 $"id" (ImplicitCastExpr CK_LValueToRValue (Node 25 $"id" (DeclRefExpr 18 $"arg2" false))))))]))])))))))]))))))];
     ts_locs := [(1,1,1,8); (2,1,3,2); (4,1,6,2); (5,1,5,62); (5,16,5,27); (5,40,5,51); (7,1,8,56); (7,10,8,56); (7,12,8,54); (7,17,7,19); (7,18,7,18); (7,21,7,37); (7,35,7,37); (7,36,7,36); (7,39,8,54); (7,48,8,54); (8,1,8,14); (8,1,8,4); (8,1,8,10); (8,16,8,51); (8,35,8,35); (8,35,8,35); (8,35,8,35); (8,47,8,47); (8,47,8,47); (8,47,8,47)]%Z;
     ts_evals := []; ts_same := []; ts_decls := []; ts_parents := [] |}.
Example ThrowExceptionFromFinallyBlock_NSExceptionRaiseFormat_holds : nth_violation (shippedRule sh_ThrowExceptionFromFinallyBlock) ThrowExceptionFromFinallyBlock_NSExceptionRaiseFormat 0 = Some (8, 16, 8, 51, $"")%Z.
Proof. vm_compute. reflexivity. Qed.

Definition ThrowExceptionFromFinallyBlock_NSExceptionRaiseFormatArguments : testcase :=
  {| ts_lang := LObjC; ts_path := $"input.m"; ts_code := [];
     ts_comments := []; ts_conf := [];
     ts_tops := [(toplevel 0 (TOther), (Node 0 [] (OtherDecl []))); (toplevel 1 (TOther), (Node 1 [] (ObjCContainerDecl {| oc_kind := OKInterface; oc_name := $"NSObject"; oc_lines := (2)%Z; oc_ivars := 0; oc_methods := []; oc_classes := [$"NSObject"]; oc_superMethods := None |} []))); (toplevel 2 (TOther), (Node 2 [] (OtherDecl []))); (toplevel 3 (TOther), (Node 3 [] (ObjCContainerDecl {| oc_kind := OKInterface; oc_name := $"NSException"; oc_lines := (3)%Z; oc_ivars := 0; oc_methods := [($"raise:format:arguments:", false)]; oc_classes := [$"NSException"; $"NSObject"]; oc_superMethods := (Some ($"NSObject", [])) |} [(Node 4 [] (ObjCMethodDecl {| om_selector := $"raise:format:arguments:"; om_class := (Some $"NSException"); om_overriding := false; om_overridden := []; om_bodyLines := (0)%Z |} [(Node 5 [] (VarDecl {| v_isParm := true; v_name := $"name"; v_used := false; v_referenced := false; v_local := false; v_staticMember := false; v_private := false; v_unusedAttr := false; v_defaultArg := false; v_canonicalType := $"NSString *"; v_inTemplate := false; v_contexts := [CxObjCMethod true false false false; CxOther] |} None)); (Node 6 [] (VarDecl {| v_isParm := true; v_name := $"format"; v_used := false; v_referenced := false; v_local := false; v_staticMember := false; v_private := false; v_unusedAttr := false; v_defaultArg := false; v_canonicalType := $"NSString *"; v_inTemplate := false; v_contexts := [CxObjCMethod true false false false; CxOther] |} None)); (Node 7 [] (VarDecl {| v_isParm := true; v_name := $"argList"; v_used := false; v_referenced := false; v_local := false; v_staticMember := false; v_private := false; v_unusedAttr := false; v_defaultArg := false; v_canonicalType := $"void *"; v_inTemplate := false; v_contexts := [CxObjCMethod true false false false; CxOther] |} None))] None))]))); (toplevel 8 (TFunction false), (Node 8 [] (FunctionDecl {| f_name := $"m"; f_method := None; f_isDefinition := true; f_bodyLines := (2)%Z |} [] (Some (Node 9 [] (CompoundStmt [(Node 10 [] (ObjCAtTryStmt (Node 11 [] (CompoundStmt [(Node 12 [] NullStmt)])) [(Node 13 [] (ObjCAtCatchStmt None (Node 14 [] (CompoundStmt [(Node 15 [] NullStmt)]))))] (Some (Node 16 [] (ObjCAtFinallyStmt (Node 17 [] (CompoundStmt [(Node 18 [] (DeclStmt [(Node 19 [] (VarDecl {| v_isParm := false; v_name := $"arg1"; v_used := true; v_referenced := true; v_local := true; v_staticMember := false; v_private := false; v_unusedAttr := false; v_defaultArg := false; v_canonicalType := $"struct objc_object *"; v_inTemplate := false; v_contexts := [CxFunction true true false] |} None)); (Node 20 [] (VarDecl {| v_isParm := false; v_name := $"arg2"; v_used := true; v_referenced := true; v_local := true; v_staticMember := false; v_private := false; v_unusedAttr := false; v_defaultArg := false; v_canonicalType := $"struct objc_object *"; v_inTemplate := false; v_contexts := [CxFunction true true false] |} None))])); (Node 21 [] (DeclStmt [(Node 22 [] (VarDecl {| v_isParm := false; v_name := $"argList"; v_used := true; v_referenced := true; v_local := true; v_staticMember := false; v_private := false; v_unusedAttr := false; v_defaultArg := false; v_canonicalType := $"void *"; v_inTemplate := false; v_contexts := [CxFunction true true false] |} None))])); (Node 23 $"void" (ObjCMessageExpr {| ms_selector := $"raise:format:arguments:"; ms_receiver := (RClass $"NSException"); ms_implicit := false; ms_interface := (Some $"NSException"); ms_method := (Some (Decl [] (Some (Method false None (InOther (Some NoCategory)))))); ms_methodClass := (Some $"NSException") |} None [(Node 24 $"NSString *" (ImplicitCastExpr CK_BitCast (Node 25 $"id" (ImplicitCastExpr CK_LValueToRValue (Node 26 $"id" (DeclRefExpr 19 $"arg1" false)))))); (Node 27 $"NSString *" (ImplicitCastExpr CK_BitCast (Node 28 $"id" (ImplicitCastExpr CK_LValueToRValue (Node 29 $"id" (DeclRefExpr 20 $"arg2" false)))))); (Node 30 $"void *" (ImplicitCastExpr CK_LValueToRValue (Node 31 $"void *" (DeclRefExpr 22 $"argList" false))))]))])))))))]))))))];
     ts_locs := [(1,1,1,8); (2,1,3,2); (4,1,4,15); (5,1,7,2); (6,1,6,84); (6,16,6,27); (6,40,6,51); (6,69,6,77); (8,1,9,89); (8,10,9,89); (8,12,9,87); (8,17,8,19); (8,18,8,18); (8,21,8,37); (8,35,8,37); (8,36,8,36); (8,39,9,87); (8,48,9,87); (9,1,9,14); (9,1,9,4); (9,1,9,10); (9,16,9,29); (9,16,9,22); (9,31,9,84); (9,50,9,50); (9,50,9,50); (9,50,9,50); (9,62,9,62); (9,62,9,62); (9,62,9,62); (9,77,9,77); (9,77,9,77)]%Z;
     ts_evals := []; ts_same := []; ts_decls := []; ts_parents := [] |}.
Example ThrowExceptionFromFinallyBlock_NSExceptionRaiseFormatArguments_holds : nth_violation (shippedRule sh_ThrowExceptionFromFinallyBlock) ThrowExceptionFromFinallyBlock_NSExceptionRaiseFormatArguments 0 = Some (9, 31, 9, 84, $"")%Z.
Proof. vm_compute. reflexivity. Qed.

Definition ThrowExceptionFromFinallyBlock_NSExceptionRaise : testcase :=
  {| ts_lang := LObjC; ts_path := $"input.m"; ts_code := [];
     ts_comments := []; ts_conf := [];
     ts_tops := [(toplevel 0 (TOther), (Node 0 [] (ObjCContainerDecl {| oc_kind := OKInterface; oc_name := $"NSObject"; oc_lines := (2)%Z; oc_ivars := 0; oc_methods := []; oc_classes := [$"NSObject"]; oc_superMethods := None |} []))); (toplevel 1 (TOther), (Node 1 [] (ObjCContainerDecl {| oc_kind := OKInterface; oc_name := $"NSException"; oc_lines := (4)%Z; oc_ivars := 0; oc_methods := [($"new", false); ($"raise", true)]; oc_classes := [$"NSException"; $"NSObject"]; oc_superMethods := (Some ($"NSObject", [])) |} [(Node 2 [] (ObjCMethodDecl {| om_selector := $"new"; om_class := (Some $"NSException"); om_overriding := false; om_overridden := []; om_bodyLines := (0)%Z |} [] None)); (Node 3 [] (ObjCMethodDecl {| om_selector := $"raise"; om_class := (Some $"NSException"); om_overriding := false; om_overridden := []; om_bodyLines := (0)%Z |} [] None))]))); (toplevel 4 (TFunction false), (Node 4 [] (FunctionDecl {| f_name := $"m"; f_method := None; f_isDefinition := true; f_bodyLines := (2)%Z |} [] (Some (Node 5 [] (CompoundStmt [(Node 6 [] (ObjCAtTryStmt (Node 7 [] (CompoundStmt [(Node 8 [] NullStmt)])) [(Node 9 [] (ObjCAtCatchStmt None (Node 10 [] (CompoundStmt [(Node 11 [] NullStmt)]))))] (Some (Node 12 [] (ObjCAtFinallyStmt (Node 13 [] (CompoundStmt [(Node 14 [] (IfStmt [] (Node 15 $"int" (IntegerLiteral (1)%Z)) (Node 16 [] (CompoundStmt [(Node 17 [] (DeclStmt [(Node 18 [] (VarDecl {| v_isParm := false; v_name := $"arg1"; v_used := false; v_referenced := false; v_local := true; v_staticMember := false; v_private := false; v_unusedAttr := false; v_defaultArg := false; v_canonicalType := $"struct objc_object *"; v_inTemplate := false; v_contexts := [CxFunction true true false] |} None)); (Node 19 [] (VarDecl {| v_isParm := false; v_name := $"arg2"; v_used := false; v_referenced := false; v_local := true; v_staticMember := false; v_private := false; v_unusedAttr := false; v_defaultArg := false; v_canonicalType := $"struct objc_object *"; v_inTemplate := false; v_contexts := [CxFunction true true false] |} None))])); (Node 20 [] (DeclStmt [(Node 21 [] (VarDecl {| v_isParm := false; v_name := $"ex"; v_used := true; v_referenced := true; v_local := true; v_staticMember := false; v_private := false; v_unusedAttr := false; v_defaultArg := false; v_canonicalType := $"NSException *"; v_inTemplate := false; v_contexts := [CxFunction true true false] |} (Some (Node 22 $"NSException *" (ObjCMessageExpr {| ms_selector := $"new"; ms_receiver := (RClass $"NSException"); ms_implicit := false; ms_interface := (Some $"NSException"); ms_method := (Some (Decl [] (Some (Method false None (InOther (Some NoCategory)))))); ms_methodClass := (Some $"NSException") |} None [])))))])); (Node 23 $"void" (ObjCMessageExpr {| ms_selector := $"raise"; ms_receiver := RInstance; ms_implicit := false; ms_interface := (Some $"NSException"); ms_method := (Some (Decl [] (Some (Method false None (InOther (Some NoCategory)))))); ms_methodClass := (Some $"NSException") |} (Some (Node 24 $"NSException *" (ImplicitCastExpr CK_LValueToRValue (Node 25 $"NSException *" (DeclRefExpr 21 $"ex" false))))) []))])) None))])))))))]))))))];
     ts_locs := [(1,1,2,2); (3,1,6,2); (4,1,4,21); (5,1,5,14); (7,1,8,69); (7,10,8,69); (7,12,8,67); (7,17,7,19); (7,18,7,18); (7,21,7,37); (7,35,7,37); (7,36,7,36); (7,39,8,67); (7,48,8,67); (7,50,8,65); (7,53,7,53); (7,56,8,65); (8,1,8,14); (8,1,8,4); (8,1,8,10); (8,16,8,51); (8,16,8,50); (8,34,8,50); (8,53,8,62); (8,54,8,54); (8,54,8,54)]%Z;
     ts_evals := [(15, true)]; ts_same := []; ts_decls := []; ts_parents := [] |}.
Example ThrowExceptionFromFinallyBlock_NSExceptionRaise_holds : nth_violation (shippedRule sh_ThrowExceptionFromFinallyBlock) ThrowExceptionFromFinallyBlock_NSExceptionRaise 0 = Some (8, 53, 8, 62, $"")%Z.
Proof. vm_compute. reflexivity. Qed.

Definition ThrowExceptionFromFinallyBlock_NSExceptionOtherInstanceMethod : testcase :=
  {| ts_lang := LObjC; ts_path := $"input.m"; ts_code := [];
     ts_comments := []; ts_conf := [];
     ts_tops := [(toplevel 0 (TOther), (Node 0 [] (ObjCContainerDecl {| oc_kind := OKInterface; oc_name := $"NSObject"; oc_lines := (2)%Z; oc_ivars := 0; oc_methods := []; oc_classes := [$"NSObject"]; oc_superMethods := None |} []))); (toplevel 1 (TOther), (Node 1 [] (ObjCContainerDecl {| oc_kind := OKInterface; oc_name := $"NSException"; oc_lines := (4)%Z; oc_ivars := 0; oc_methods := [($"new", false); ($"doNotRaise", true)]; oc_classes := [$"NSException"; $"NSObject"]; oc_superMethods := (Some ($"NSObject", [])) |} [(Node 2 [] (ObjCMethodDecl {| om_selector := $"new"; om_class := (Some $"NSException"); om_overriding := false; om_overridden := []; om_bodyLines := (0)%Z |} [] None)); (Node 3 [] (ObjCMethodDecl {| om_selector := $"doNotRaise"; om_class := (Some $"NSException"); om_overriding := false; om_overridden := []; om_bodyLines := (0)%Z |} [] None))]))); (toplevel 4 (TFunction false), (Node 4 [] (FunctionDecl {| f_name := $"m"; f_method := None; f_isDefinition := true; f_bodyLines := (2)%Z |} [] (Some (Node 5 [] (CompoundStmt [(Node 6 [] (ObjCAtTryStmt (Node 7 [] (CompoundStmt [(Node 8 [] NullStmt)])) [(Node 9 [] (ObjCAtCatchStmt None (Node 10 [] (CompoundStmt [(Node 11 [] NullStmt)]))))] (Some (Node 12 [] (ObjCAtFinallyStmt (Node 13 [] (CompoundStmt [(Node 14 [] (IfStmt [] (Node 15 $"int" (IntegerLiteral (1)%Z)) (Node 16 [] (CompoundStmt [(Node 17 [] (DeclStmt [(Node 18 [] (VarDecl {| v_isParm := false; v_name := $"arg1"; v_used := false; v_referenced := false; v_local := true; v_staticMember := false; v_private := false; v_unusedAttr := false; v_defaultArg := false; v_canonicalType := $"struct objc_object *"; v_inTemplate := false; v_contexts := [CxFunction true true false] |} None)); (Node 19 [] (VarDecl {| v_isParm := false; v_name := $"arg2"; v_used := false; v_referenced := false; v_local := true; v_staticMember := false; v_private := false; v_unusedAttr := false; v_defaultArg := false; v_canonicalType := $"struct objc_object *"; v_inTemplate := false; v_contexts := [CxFunction true true false] |} None))])); (Node 20 [] (DeclStmt [(Node 21 [] (VarDecl {| v_isParm := false; v_name := $"ex"; v_used := true; v_referenced := true; v_local := true; v_staticMember := false; v_private := false; v_unusedAttr := false; v_defaultArg := false; v_canonicalType := $"NSException *"; v_inTemplate := false; v_contexts := [CxFunction true true false] |} (Some (Node 22 $"NSException *" (ObjCMessageExpr {| ms_selector := $"new"; ms_receiver := (RClass $"NSException"); ms_implicit := false; ms_interface := (Some $"NSException"); ms_method := (Some (Decl [] (Some (Method false None (InOther (Some NoCategory)))))); ms_methodClass := (Some $"NSException") |} None [])))))])); (Node 23 $"void" (ObjCMessageExpr {| ms_selector := $"doNotRaise"; ms_receiver := RInstance; ms_implicit := false; ms_interface := (Some $"NSException"); ms_method := (Some (Decl [] (Some (Method false None (InOther (Some NoCategory)))))); ms_methodClass := (Some $"NSException") |} (Some (Node 24 $"NSException *" (ImplicitCastExpr CK_LValueToRValue (Node 25 $"NSException *" (DeclRefExpr 21 $"ex" false))))) []))])) None))])))))))]))))))];
     ts_locs := [(1,1,2,2); (3,1,6,2); (4,1,4,21); (5,1,5,19); (7,1,8,74); (7,10,8,74); (7,12,8,72); (7,17,7,19); (7,18,7,18); (7,21,7,37); (7,35,7,37); (7,36,7,36); (7,39,8,72); (7,48,8,72); (7,50,8,70); (7,53,7,53); (7,56,8,70); (8,1,8,14); (8,1,8,4); (8,1,8,10); (8,16,8,51); (8,16,8,50); (8,34,8,50); (8,53,8,67); (8,54,8,54); (8,54,8,54)]%Z;
     ts_evals := [(15, true)]; ts_same := []; ts_decls := []; ts_parents := [] |}.
Example ThrowExceptionFromFinallyBlock_NSExceptionOtherInstanceMethod_holds : sorted_violations_of (shippedRule sh_ThrowExceptionFromFinallyBlock) ThrowExceptionFromFinallyBlock_NSExceptionOtherInstanceMethod = Some [].
Proof. vm_compute. reflexivity. Qed.

Definition ThrowExceptionFromFinallyBlock_NSExceptionOtherClassMethod : testcase :=
  {| ts_lang := LObjC; ts_path := $"input.m"; ts_code := [];
     ts_comments := []; ts_conf := [];
     ts_tops := [(toplevel 0 (TOther), (Node 0 [] (OtherDecl []))); (toplevel 1 (TOther), (Node 1 [] (ObjCContainerDecl {| oc_kind := OKInterface; oc_name := $"NSObject"; oc_lines := (2)%Z; oc_ivars := 0; oc_methods := []; oc_classes := [$"NSObject"]; oc_superMethods := None |} []))); (toplevel 2 (TOther), (Node 2 [] (OtherDecl []))); (toplevel 3 (TOther), (Node 3 [] (ObjCContainerDecl {| oc_kind := OKInterface; oc_name := $"NSException"; oc_lines := (3)%Z; oc_ivars := 0; oc_methods := [($"raise:format:argument:", false)]; oc_classes := [$"NSException"; $"NSObject"]; oc_superMethods := (Some ($"NSObject", [])) |} [(Node 4 [] (ObjCMethodDecl {| om_selector := $"raise:format:argument:"; om_class := (Some $"NSException"); om_overriding := false; om_overridden := []; om_bodyLines := (0)%Z |} [(Node 5 [] (VarDecl {| v_isParm := true; v_name := $"name"; v_used := false; v_referenced := false; v_local := false; v_staticMember := false; v_private := false; v_unusedAttr := false; v_defaultArg := false; v_canonicalType := $"NSString *"; v_inTemplate := false; v_contexts := [CxObjCMethod true false false false; CxOther] |} None)); (Node 6 [] (VarDecl {| v_isParm := true; v_name := $"format"; v_used := false; v_referenced := false; v_local := false; v_staticMember := false; v_private := false; v_unusedAttr := false; v_defaultArg := false; v_canonicalType := $"NSString *"; v_inTemplate := false; v_contexts := [CxObjCMethod true false false false; CxOther] |} None)); (Node 7 [] (VarDecl {| v_isParm := true; v_name := $"argList"; v_used := false; v_referenced := false; v_local := false; v_staticMember := false; v_private := false; v_unusedAttr := false; v_defaultArg := false; v_canonicalType := $"void *"; v_inTemplate := false; v_contexts := [CxObjCMethod true false false false; CxOther] |} None))] None))]))); (toplevel 8 (TFunction false), (Node 8 [] (FunctionDecl {| f_name := $"m"; f_method := None; f_isDefinition := true; f_bodyLines := (2)%Z |} [] (Some (Node 9 [] (CompoundStmt [(Node 10 [] (ObjCAtTryStmt (Node 11 [] (CompoundStmt [(Node 12 [] NullStmt)])) [(Node 13 [] (ObjCAtCatchStmt None (Node 14 [] (CompoundStmt [(Node 15 [] NullStmt)]))))] (Some (Node 16 [] (ObjCAtFinallyStmt (Node 17 [] (CompoundStmt [(Node 18 [] (DeclStmt [(Node 19 [] (VarDecl {| v_isParm := false; v_name := $"arg1"; v_used := true; v_referenced := true; v_local := true; v_staticMember := false; v_private := false; v_unusedAttr := false; v_defaultArg := false; v_canonicalType := $"struct objc_object *"; v_inTemplate := false; v_contexts := [CxFunction true true false] |} None)); (Node 20 [] (VarDecl {| v_isParm := false; v_name := $"arg2"; v_used := true; v_referenced := true; v_local := true; v_staticMember := false; v_private := false; v_unusedAttr := false; v_defaultArg := false; v_canonicalType := $"struct objc_object *"; v_inTemplate := false; v_contexts := [CxFunction true true false] |} None))])); (Node 21 [] (DeclStmt [(Node 22 [] (VarDecl {| v_isParm := false; v_name := $"argList"; v_used := true; v_referenced := true; v_local := true; v_staticMember := false; v_private := false; v_unusedAttr := false; v_defaultArg := false; v_canonicalType := $"void *"; v_inTemplate := false; v_contexts := [CxFunction true true false] |} None))])); (Node 23 $"void" (ObjCMessageExpr {| ms_selector := $"raise:format:argument:"; ms_receiver := (RClass $"NSException"); ms_implicit := false; ms_interface := (Some $"NSException"); ms_method := (Some (Decl [] (Some (Method false None (InOther (Some NoCategory)))))); ms_methodClass := (Some $"NSException") |} None [(Node 24 $"NSString *" (ImplicitCastExpr CK_BitCast (Node 25 $"id" (ImplicitCastExpr CK_LValueToRValue (Node 26 $"id" (DeclRefExpr 19 $"arg1" false)))))); (Node 27 $"NSString *" (ImplicitCastExpr CK_BitCast (Node 28 $"id" (ImplicitCastExpr CK_LValueToRValue (Node 29 $"id" (DeclRefExpr 20 $"arg2" false)))))); (Node 30 $"void *" (ImplicitCastExpr CK_LValueToRValue (Node 31 $"void *" (DeclRefExpr 22 $"argList" false))))]))])))))))]))))))];
     ts_locs := [(1,1,1,8); (2,1,3,2); (4,1,4,15); (5,1,7,2); (6,1,6,83); (6,16,6,27); (6,40,6,51); (6,68,6,76); (8,1,9,88); (8,10,9,88); (8,12,9,86); (8,17,8,19); (8,18,8,18); (8,21,8,37); (8,35,8,37); (8,36,8,36); (8,39,9,86); (8,48,9,86); (9,1,9,14); (9,1,9,4); (9,1,9,10); (9,16,9,29); (9,16,9,22); (9,31,9,83); (9,50,9,50); (9,50,9,50); (9,50,9,50); (9,62,9,62); (9,62,9,62); (9,62,9,62); (9,76,9,76); (9,76,9,76)]%Z;
     ts_evals := []; ts_same := []; ts_decls := []; ts_parents := [] |}.
Example ThrowExceptionFromFinallyBlock_NSExceptionOtherClassMethod_holds : sorted_violations_of (shippedRule sh_ThrowExceptionFromFinallyBlock) ThrowExceptionFromFinallyBlock_NSExceptionOtherClassMethod = Some [].
Proof. vm_compute. reflexivity. Qed.

Definition ThrowExceptionFromFinallyBlock_InstanceRaiseFromOtherClass : testcase :=
  {| ts_lang := LObjC; ts_path := $"input.m"; ts_code := [];
     ts_comments := []; ts_conf := [];
     ts_tops := [(toplevel 0 (TOther), (Node 0 [] (ObjCContainerDecl {| oc_kind := OKInterface; oc_name := $"NSObject"; oc_lines := (2)%Z; oc_ivars := 0; oc_methods := []; oc_classes := [$"NSObject"]; oc_superMethods := None |} []))); (toplevel 1 (TOther), (Node 1 [] (ObjCContainerDecl {| oc_kind := OKInterface; oc_name := $"NSNotException"; oc_lines := (4)%Z; oc_ivars := 0; oc_methods := [($"new", false); ($"raise", true)]; oc_classes := [$"NSNotException"; $"NSObject"]; oc_superMethods := (Some ($"NSObject", [])) |} [(Node 2 [] (ObjCMethodDecl {| om_selector := $"new"; om_class := (Some $"NSNotException"); om_overriding := false; om_overridden := []; om_bodyLines := (0)%Z |} [] None)); (Node 3 [] (ObjCMethodDecl {| om_selector := $"raise"; om_class := (Some $"NSNotException"); om_overriding := false; om_overridden := []; om_bodyLines := (0)%Z |} [] None))]))); (toplevel 4 (TFunction false), (Node 4 [] (FunctionDecl {| f_name := $"m"; f_method := None; f_isDefinition := true; f_bodyLines := (2)%Z |} [] (Some (Node 5 [] (CompoundStmt [(Node 6 [] (ObjCAtTryStmt (Node 7 [] (CompoundStmt [(Node 8 [] NullStmt)])) [(Node 9 [] (ObjCAtCatchStmt None (Node 10 [] (CompoundStmt [(Node 11 [] NullStmt)]))))] (Some (Node 12 [] (ObjCAtFinallyStmt (Node 13 [] (CompoundStmt [(Node 14 [] (IfStmt [] (Node 15 $"int" (IntegerLiteral (1)%Z)) (Node 16 [] (CompoundStmt [(Node 17 [] (DeclStmt [(Node 18 [] (VarDecl {| v_isParm := false; v_name := $"arg1"; v_used := false; v_referenced := false; v_local := true; v_staticMember := false; v_private := false; v_unusedAttr := false; v_defaultArg := false; v_canonicalType := $"struct objc_object *"; v_inTemplate := false; v_contexts := [CxFunction true true false] |} None)); (Node 19 [] (VarDecl {| v_isParm := false; v_name := $"arg2"; v_used := false; v_referenced := false; v_local := true; v_staticMember := false; v_private := false; v_unusedAttr := false; v_defaultArg := false; v_canonicalType := $"struct objc_object *"; v_inTemplate := false; v_contexts := [CxFunction true true false] |} None))])); (Node 20 [] (DeclStmt [(Node 21 [] (VarDecl {| v_isParm := false; v_name := $"ex"; v_used := true; v_referenced := true; v_local := true; v_staticMember := false; v_private := false; v_unusedAttr := false; v_defaultArg := false; v_canonicalType := $"NSNotException *"; v_inTemplate := false; v_contexts := [CxFunction true true false] |} (Some (Node 22 $"NSNotException *" (ObjCMessageExpr {| ms_selector := $"new"; ms_receiver := (RClass $"NSNotException"); ms_implicit := false; ms_interface := (Some $"NSNotException"); ms_method := (Some (Decl [] (Some (Method false None (InOther (Some NoCategory)))))); ms_methodClass := (Some $"NSNotException") |} None [])))))])); (Node 23 $"void" (ObjCMessageExpr {| ms_selector := $"raise"; ms_receiver := RInstance; ms_implicit := false; ms_interface := (Some $"NSNotException"); ms_method := (Some (Decl [] (Some (Method false None (InOther (Some NoCategory)))))); ms_methodClass := (Some $"NSNotException") |} (Some (Node 24 $"NSNotException *" (ImplicitCastExpr CK_LValueToRValue (Node 25 $"NSNotException *" (DeclRefExpr 21 $"ex" false))))) []))])) None))])))))))]))))))];
     ts_locs := [(1,1,2,2); (3,1,6,2); (4,1,4,24); (5,1,5,14); (7,1,8,75); (7,10,8,75); (7,12,8,73); (7,17,7,19); (7,18,7,18); (7,21,7,37); (7,35,7,37); (7,36,7,36); (7,39,8,73); (7,48,8,73); (7,50,8,71); (7,53,7,53); (7,56,8,71); (8,1,8,14); (8,1,8,4); (8,1,8,10); (8,16,8,57); (8,16,8,56); (8,37,8,56); (8,59,8,68); (8,60,8,60); (8,60,8,60)]%Z;
     ts_evals := [(15, true)]; ts_same := []; ts_decls := []; ts_parents := [] |}.
Example ThrowExceptionFromFinallyBlock_InstanceRaiseFromOtherClass_holds : sorted_violations_of (shippedRule sh_ThrowExceptionFromFinallyBlock) ThrowExceptionFromFinallyBlock_InstanceRaiseFromOtherClass = Some [].
Proof. vm_compute. reflexivity. Qed.

Definition ThrowExceptionFromFinallyBlock_ClassRaiseFromOtherClass : testcase :=
  {| ts_lang := LObjC; ts_path := $"input.m"; ts_code := [];
     ts_comments := []; ts_conf := [];
     ts_tops := [(toplevel 0 (TOther), (Node 0 [] (OtherDecl []))); (toplevel 1 (TOther), (Node 1 [] (ObjCContainerDecl {| oc_kind := OKInterface; oc_name := $"NSObject"; oc_lines := (2)%Z; oc_ivars := 0; oc_methods := []; oc_classes := [$"NSObject"]; oc_superMethods := None |} []))); (toplevel 2 (TOther), (Node 2 [] (OtherDecl []))); (toplevel 3 (TOther), (Node 3 [] (ObjCContainerDecl {| oc_kind := OKInterface; oc_name := $"NSNotException"; oc_lines := (3)%Z; oc_ivars := 0; oc_methods := [($"raise:format:arguments:", false)]; oc_classes := [$"NSNotException"; $"NSObject"]; oc_superMethods := (Some ($"NSObject", [])) |} [(Node 4 [] (ObjCMethodDecl {| om_selector := $"raise:format:arguments:"; om_class := (Some $"NSNotException"); om_overriding := false; om_overridden := []; om_bodyLines := (0)%Z |} [(Node 5 [] (VarDecl {| v_isParm := true; v_name := $"name"; v_used := false; v_referenced := false; v_local := false; v_staticMember := false; v_private := false; v_unusedAttr := false; v_defaultArg := false; v_canonicalType := $"NSString *"; v_inTemplate := false; v_contexts := [CxObjCMethod true false false false; CxOther] |} None)); (Node 6 [] (VarDecl {| v_isParm := true; v_name := $"format"; v_used := false; v_referenced := false; v_local := false; v_staticMember := false; v_private := false; v_unusedAttr := false; v_defaultArg := false; v_canonicalType := $"NSString *"; v_inTemplate := false; v_contexts := [CxObjCMethod true false false false; CxOther] |} None)); (Node 7 [] (VarDecl {| v_isParm := true; v_name := $"argList"; v_used := false; v_referenced := false; v_local := false; v_staticMember := false; v_private := false; v_unusedAttr := false; v_defaultArg := false; v_canonicalType := $"void *"; v_inTemplate := false; v_contexts := [CxObjCMethod true false false false; CxOther] |} None))] None))]))); (toplevel 8 (TFunction false), (Node 8 [] (FunctionDecl {| f_name := $"m"; f_method := None; f_isDefinition := true; f_bodyLines := (2)%Z |} [] (Some (Node 9 [] (CompoundStmt [(Node 10 [] (ObjCAtTryStmt (Node 11 [] (CompoundStmt [(Node 12 [] NullStmt)])) [(Node 13 [] (ObjCAtCatchStmt None (Node 14 [] (CompoundStmt [(Node 15 [] NullStmt)]))))] (Some (Node 16 [] (ObjCAtFinallyStmt (Node 17 [] (CompoundStmt [(Node 18 [] (DeclStmt [(Node 19 [] (VarDecl {| v_isParm := false; v_name := $"arg1"; v_used := true; v_referenced := true; v_local := true; v_staticMember := false; v_private := false; v_unusedAttr := false; v_defaultArg := false; v_canonicalType := $"struct objc_object *"; v_inTemplate := false; v_contexts := [CxFunction true true false] |} None)); (Node 20 [] (VarDecl {| v_isParm := false; v_name := $"arg2"; v_used := true; v_referenced := true; v_local := true; v_staticMember := false; v_private := false; v_unusedAttr := false; v_defaultArg := false; v_canonicalType := $"struct objc_object *"; v_inTemplate := false; v_contexts := [CxFunction true true false] |} None))])); (Node 21 [] (DeclStmt [(Node 22 [] (VarDecl {| v_isParm := false; v_name := $"argList"; v_used := true; v_referenced := true; v_local := true; v_staticMember := false; v_private := false; v_unusedAttr := false; v_defaultArg := false; v_canonicalType := $"void *"; v_inTemplate := false; v_contexts := [CxFunction true true false] |} None))])); (Node 23 $"void" (ObjCMessageExpr {| ms_selector := $"raise:format:arguments:"; ms_receiver := (RClass $"NSNotException"); ms_implicit := false; ms_interface := (Some $"NSNotException"); ms_method := (Some (Decl [] (Some (Method false None (InOther (Some NoCategory)))))); ms_methodClass := (Some $"NSNotException") |} None [(Node 24 $"NSString *" (ImplicitCastExpr CK_BitCast (Node 25 $"id" (ImplicitCastExpr CK_LValueToRValue (Node 26 $"id" (DeclRefExpr 19 $"arg1" false)))))); (Node 27 $"NSString *" (ImplicitCastExpr CK_BitCast (Node 28 $"id" (ImplicitCastExpr CK_LValueToRValue (Node 29 $"id" (DeclRefExpr 20 $"arg2" false)))))); (Node 30 $"void *" (ImplicitCastExpr CK_LValueToRValue (Node 31 $"void *" (DeclRefExpr 22 $"argList" false))))]))])))))))]))))))];
     ts_locs := [(1,1,1,8); (2,1,3,2); (4,1,4,15); (5,1,7,2); (6,1,6,84); (6,16,6,27); (6,40,6,51); (6,69,6,77); (8,1,9,92); (8,10,9,92); (8,12,9,90); (8,17,8,19); (8,18,8,18); (8,21,8,37); (8,35,8,37); (8,36,8,36); (8,39,9,90); (8,48,9,90); (9,1,9,14); (9,1,9,4); (9,1,9,10); (9,16,9,29); (9,16,9,22); (9,31,9,87); (9,53,9,53); (9,53,9,53); (9,53,9,53); (9,65,9,65); (9,65,9,65); (9,65,9,65); (9,80,9,80); (9,80,9,80)]%Z;
     ts_evals := []; ts_same := []; ts_decls := []; ts_parents := [] |}.
Example ThrowExceptionFromFinallyBlock_ClassRaiseFromOtherClass_holds : sorted_violations_of (shippedRule sh_ThrowExceptionFromFinallyBlock) ThrowExceptionFromFinallyBlock_ClassRaiseFromOtherClass = Some [].
Proof. vm_compute. reflexivity. Qed.

(** ** oclint-rules/test/basic/DeadCodeRuleTest.cpp *)

Definition DeadCode_NotSupported_2 : testcase :=
  {| ts_lang := LC; ts_path := $"input.c"; ts_code := [];
     ts_comments := []; ts_conf := [];
     ts_tops := [(toplevel 0 (TFunction false), (Node 0 [] (FunctionDecl {| f_name := $"f"; f_method := None; f_isDefinition := true; f_bodyLines := (1)%Z |} [] (Some (Node 1 [] (CompoundStmt [(Node 2 [] (ForStmt None [] None None (Node 3 [] (CompoundStmt [])))); (Node 4 [] (DeclStmt [(Node 5 [] (VarDecl {| v_isParm := false; v_name := $"b"; v_used := false; v_referenced := false; v_local := true; v_staticMember := false; v_private := false; v_unusedAttr := false; v_defaultArg := false; v_canonicalType := $"int"; v_inTemplate := false; v_contexts := [CxFunction true true false] |} None))]))]))))))];
     ts_locs := [(1,1,1,33); (1,10,1,33); (1,12,1,24); (1,23,1,24); (1,26,1,31); (1,26,1,30)]%Z;
     ts_evals := []; ts_same := []; ts_decls := []; ts_parents := [] |}.
Example DeadCode_NotSupported_2_holds : sorted_violations_of (shippedRule sh_DeadCode) DeadCode_NotSupported_2 = Some [].
Proof. vm_compute. reflexivity. Qed.

Definition DeadCode_NotSupported_3 : testcase :=
  {| ts_lang := LC; ts_path := $"input.c"; ts_code := [];
     ts_comments := []; ts_conf := [];
     ts_tops := [(toplevel 0 (TFunction false), (Node 0 [] (FunctionDecl {| f_name := $"f"; f_method := None; f_isDefinition := true; f_bodyLines := (1)%Z |} [(Node 1 [] (VarDecl {| v_isParm := true; v_name := $"i"; v_used := true; v_referenced := true; v_local := false; v_staticMember := false; v_private := false; v_unusedAttr := false; v_defaultArg := false; v_canonicalType := $"int"; v_inTemplate := false; v_contexts := [CxFunction true true false] |} None))] (Some (Node 2 [] (CompoundStmt [(Node 3 [] (WhileStmt [] (Node 4 [] (ImplicitCastExpr CK_LValueToRValue (Node 5 [] (DeclRefExpr 1 $"i" false)))) (Node 6 [] (CompoundStmt [(Node 7 [] (ReturnStmt None))])))); (Node 8 [] (DeclStmt [(Node 9 [] (VarDecl {| v_isParm := false; v_name := $"b"; v_used := false; v_referenced := false; v_local := true; v_staticMember := false; v_private := false; v_unusedAttr := false; v_defaultArg := false; v_canonicalType := $"int"; v_inTemplate := false; v_contexts := [CxFunction true true false] |} None))]))]))))))];
     ts_locs := [(1,1,1,46); (1,8,1,12); (1,15,1,46); (1,17,1,37); (1,24,1,24); (1,24,1,24); (1,27,1,37); (1,29,1,29); (1,39,1,44); (1,39,1,43)]%Z;
     ts_evals := []; ts_same := []; ts_decls := []; ts_parents := [] |}.
Example DeadCode_NotSupported_3_holds : sorted_violations_of (shippedRule sh_DeadCode) DeadCode_NotSupported_3 = Some [].
Proof. vm_compute. reflexivity. Qed.

Definition DeadCode_NotSupported_4 : testcase :=
  {| ts_lang := LC; ts_path := $"input.c"; ts_code := [];
     ts_comments := []; ts_conf := [];
     ts_tops := [(toplevel 0 (TFunction false), (Node 0 [] (FunctionDecl {| f_name := $"f"; f_method := None; f_isDefinition := true; f_bodyLines := (1)%Z |} [(Node 1 [] (VarDecl {| v_isParm := true; v_name := $"i"; v_used := true; v_referenced := true; v_local := false; v_staticMember := false; v_private := false; v_unusedAttr := false; v_defaultArg := false; v_canonicalType := $"int"; v_inTemplate := false; v_contexts := [CxFunction true true false] |} None))] (Some (Node 2 [] (CompoundStmt [(Node 3 [] (DoStmt (Node 4 [] (CompoundStmt [(Node 5 [] (ReturnStmt None))])) (Node 6 [] (ImplicitCastExpr CK_LValueToRValue (Node 7 [] (DeclRefExpr 1 $"i" false)))))); (Node 8 [] (DeclStmt [(Node 9 [] (VarDecl {| v_isParm := false; v_name := $"b"; v_used := false; v_referenced := false; v_local := true; v_staticMember := false; v_private := false; v_unusedAttr := false; v_defaultArg := false; v_canonicalType := $"int"; v_inTemplate := false; v_contexts := [CxFunction true true false] |} None))]))]))))))];
     ts_locs := [(1,1,1,50); (1,8,1,12); (1,15,1,50); (1,17,1,40); (1,20,1,30); (1,22,1,22); (1,39,1,39); (1,39,1,39); (1,43,1,48); (1,43,1,47)]%Z;
     ts_evals := []; ts_same := []; ts_decls := []; ts_parents := [] |}.
Example DeadCode_NotSupported_4_holds : sorted_violations_of (shippedRule sh_DeadCode) DeadCode_NotSupported_4 = Some [].
Proof. vm_compute. reflexivity. Qed.

Definition DeadCode_NotSupported_5 : testcase :=
  {| ts_lang := LC; ts_path := $"input.c"; ts_code := [];
     ts_comments := []; ts_conf := [];
     ts_tops := [(toplevel 0 (TFunction false), (Node 0 [] (FunctionDecl {| f_name := $"f"; f_method := None; f_isDefinition := true; f_bodyLines := (1)%Z |} [(Node 1 [] (VarDecl {| v_isParm := true; v_name := $"i"; v_used := true; v_referenced := true; v_local := false; v_staticMember := false; v_private := false; v_unusedAttr := false; v_defaultArg := false; v_canonicalType := $"int"; v_inTemplate := false; v_contexts := [CxFunction true true false] |} None))] (Some (Node 2 [] (CompoundStmt [(Node 3 [] (SwitchStmt [] (Node 4 [] (ImplicitCastExpr CK_LValueToRValue (Node 5 [] (DeclRefExpr 1 $"i" false)))) (Node 6 [] (CompoundStmt [(Node 7 [] (CaseStmt (Node 8 [] (OtherExpr [(Node 9 [] (IntegerLiteral (0)%Z))])) (Node 10 [] (ReturnStmt None)))); (Node 11 [] (DefaultStmt (Node 12 [] (ReturnStmt None))))])) false)); (Node 13 [] (DeclStmt [(Node 14 [] (VarDecl {| v_isParm := false; v_name := $"b"; v_used := false; v_referenced := false; v_local := true; v_staticMember := false; v_private := false; v_unusedAttr := false; v_defaultArg := false; v_canonicalType := $"int"; v_inTemplate := false; v_contexts := [CxFunction true true false] |} None))]))]))))))];
     ts_locs := [(1,1,1,70); (1,8,1,12); (1,15,1,70); (1,17,1,61); (1,25,1,25); (1,25,1,25); (1,28,1,61); (1,29,1,37); (1,34,1,34); (1,34,1,34); (1,37,1,37); (1,45,1,54); (1,54,1,54); (1,63,1,68); (1,63,1,67)]%Z;
     ts_evals := []; ts_same := []; ts_decls := []; ts_parents := [] |}.
Example DeadCode_NotSupported_5_holds : sorted_violations_of (shippedRule sh_DeadCode) DeadCode_NotSupported_5 = Some [].
Proof. vm_compute. reflexivity. Qed.

Definition DeadCode_NotSupported_6 : testcase :=
  {| ts_lang := LC; ts_path := $"input.c"; ts_code := [];
     ts_comments := []; ts_conf := [];
     ts_tops := [(toplevel 0 (TFunction false), (Node 0 [] (FunctionDecl {| f_name := $"abort"; f_method := None; f_isDefinition := false; f_bodyLines := (0)%Z |} [] None))); (toplevel 1 (TFunction false), (Node 1 [] (FunctionDecl {| f_name := $"f"; f_method := None; f_isDefinition := true; f_bodyLines := (1)%Z |} [] (Some (Node 2 [] (CompoundStmt [(Node 3 [] (CallExpr (Some ($"abort", (Decl [] None))) (Node 4 [] (ImplicitCastExpr CK_Other (Node 5 [] (DeclRefExpr 0 $"abort" false)))) [])); (Node 6 [] (DeclStmt [(Node 7 [] (VarDecl {| v_isParm := false; v_name := $"b"; v_used := false; v_referenced := false; v_local := true; v_staticMember := false; v_private := false; v_unusedAttr := false; v_defaultArg := false; v_canonicalType := $"int"; v_inTemplate := false; v_contexts := [CxFunction true true false] |} None))]))]))))))];
     ts_locs := [(1,1,1,12); (1,47,1,74); (1,56,1,74); (1,58,1,64); (1,58,1,58); (1,58,1,58); (1,67,1,72); (1,67,1,71)]%Z;
     ts_evals := []; ts_same := []; ts_decls := []; ts_parents := [] |}.
Example DeadCode_NotSupported_6_holds : sorted_violations_of (shippedRule sh_DeadCode) DeadCode_NotSupported_6 = Some [].
Proof. vm_compute. reflexivity. Qed.

