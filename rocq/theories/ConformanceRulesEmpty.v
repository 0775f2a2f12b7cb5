(** * OCLint's own unit tests of oclint-rules/test/empty, as examples about the model

    Written by tools/conformance/emit.py; do not edit. *)
From Verif Require Import Base ModelConfig ModelSource ModelAST ModelRuleTable ConformanceBase.

(** ** oclint-rules/test/empty/EmptyCatchStatementRuleTest.cpp *)

Definition EmptyCatchStatement_NonEmptyCXXCatchStmt : testcase :=
  {| ts_lang := LCXX; ts_path := $"input.cpp"; ts_code := [];
     ts_comments := []; ts_conf := [];
     ts_tops := [(toplevel 0 (TFunction false), (Node 0 [] (FunctionDecl {| f_name := $"m"; f_method := None; f_isDefinition := true; f_bodyLines := (1)%Z |} [] (Some (Node 1 [] (CompoundStmt [(Node 2 [] (CXXTryStmt (Node 3 [] (CompoundStmt [(Node 4 [] NullStmt)])) [(Node 5 [] (CXXCatchStmt None (Node 6 [] (CompoundStmt [(Node 7 [] NullStmt)]))))]))]))))))];
     ts_locs := [(1,1,1,39); (1,10,1,39); (1,12,1,37); (1,16,1,20); (1,18,1,18); (1,22,1,37); (1,33,1,37); (1,35,1,35)]%Z;
     ts_evals := []; ts_same := []; ts_decls := []; ts_parents := [] |}.
Example EmptyCatchStatement_NonEmptyCXXCatchStmt_holds : sorted_violations_of (shippedRule sh_EmptyCatchStatement) EmptyCatchStatement_NonEmptyCXXCatchStmt = Some [].
Proof. vm_compute. reflexivity. Qed.

Definition EmptyCatchStatement_EmptyCXXCatchWithEmptyCompoundStmt : testcase :=
  {| ts_lang := LCXX; ts_path := $"input.cpp"; ts_code := [];
     ts_comments := []; ts_conf := [];
     ts_tops := [(toplevel 0 (TFunction false), (Node 0 [] (FunctionDecl {| f_name := $"m"; f_method := None; f_isDefinition := true; f_bodyLines := (1)%Z |} [] (Some (Node 1 [] (CompoundStmt [(Node 2 [] (CXXTryStmt (Node 3 [] (CompoundStmt [(Node 4 [] NullStmt)])) [(Node 5 [] (CXXCatchStmt None (Node 6 [] (CompoundStmt []))))]))]))))))];
     ts_locs := [(1,1,1,36); (1,10,1,36); (1,12,1,34); (1,16,1,20); (1,18,1,18); (1,22,1,34); (1,33,1,34)]%Z;
     ts_evals := []; ts_same := []; ts_decls := []; ts_parents := [] |}.
Example EmptyCatchStatement_EmptyCXXCatchWithEmptyCompoundStmt_holds : nth_violation (shippedRule sh_EmptyCatchStatement) EmptyCatchStatement_EmptyCXXCatchWithEmptyCompoundStmt 0 = Some (1, 33, 1, 34, $"")%Z.
Proof. vm_compute. reflexivity. Qed.

Definition EmptyCatchStatement_MultipleEmptyCXXCatchStmts : testcase :=
  {| ts_lang := LCXX; ts_path := $"input.cpp"; ts_code := [];
     ts_comments := []; ts_conf := [];
     ts_tops := [(toplevel 0 (TFunction false), (Node 0 [] (FunctionDecl {| f_name := $"m"; f_method := None; f_isDefinition := true; f_bodyLines := (1)%Z |} [] (Some (Node 1 [] (CompoundStmt [(Node 2 [] (CXXTryStmt (Node 3 [] (CompoundStmt [(Node 4 [] NullStmt)])) [(Node 5 [] (CXXCatchStmt (Some (Node 6 [] (VarDecl {| v_isParm := false; v_name := $"i"; v_used := false; v_referenced := false; v_local := true; v_staticMember := false; v_private := false; v_unusedAttr := false; v_defaultArg := false; v_canonicalType := $"int"; v_inTemplate := false; v_contexts := [CxFunction true true false] |} None))) (Node 7 [] (CompoundStmt [])))); (Node 8 [] (CXXCatchStmt None (Node 9 [] (CompoundStmt []))))]))]))))))];
     ts_locs := [(1,1,1,53); (1,10,1,53); (1,12,1,51); (1,16,1,20); (1,18,1,18); (1,22,1,37); (1,29,1,33); (1,36,1,37); (1,39,1,51); (1,50,1,51)]%Z;
     ts_evals := []; ts_same := []; ts_decls := []; ts_parents := [] |}.
Example EmptyCatchStatement_MultipleEmptyCXXCatchStmts_holds : nth_violation (shippedRule sh_EmptyCatchStatement) EmptyCatchStatement_MultipleEmptyCXXCatchStmts 0 = Some (1, 36, 1, 37, $"")%Z.
Proof. vm_compute. reflexivity. Qed.

Definition EmptyCatchStatement_MultipleEmptyCXXCatchStmts_2 : testcase :=
  {| ts_lang := LCXX; ts_path := $"input.cpp"; ts_code := [];
     ts_comments := []; ts_conf := [];
     ts_tops := [(toplevel 0 (TFunction false), (Node 0 [] (FunctionDecl {| f_name := $"m"; f_method := None; f_isDefinition := true; f_bodyLines := (1)%Z |} [] (Some (Node 1 [] (CompoundStmt [(Node 2 [] (CXXTryStmt (Node 3 [] (CompoundStmt [(Node 4 [] NullStmt)])) [(Node 5 [] (CXXCatchStmt (Some (Node 6 [] (VarDecl {| v_isParm := false; v_name := $"i"; v_used := false; v_referenced := false; v_local := true; v_staticMember := false; v_private := false; v_unusedAttr := false; v_defaultArg := false; v_canonicalType := $"int"; v_inTemplate := false; v_contexts := [CxFunction true true false] |} None))) (Node 7 [] (CompoundStmt [])))); (Node 8 [] (CXXCatchStmt None (Node 9 [] (CompoundStmt []))))]))]))))))];
     ts_locs := [(1,1,1,53); (1,10,1,53); (1,12,1,51); (1,16,1,20); (1,18,1,18); (1,22,1,37); (1,29,1,33); (1,36,1,37); (1,39,1,51); (1,50,1,51)]%Z;
     ts_evals := []; ts_same := []; ts_decls := []; ts_parents := [] |}.
Example EmptyCatchStatement_MultipleEmptyCXXCatchStmts_2_holds : nth_violation (shippedRule sh_EmptyCatchStatement) EmptyCatchStatement_MultipleEmptyCXXCatchStmts_2 1 = Some (1, 50, 1, 51, $"")%Z.
Proof. vm_compute. reflexivity. Qed.

Definition EmptyCatchStatement_NonEmptyObjCCatchStmt : testcase :=
  {| ts_lang := LObjC; ts_path := $"input.m"; ts_code := [];
     ts_comments := []; ts_conf := [];
     ts_tops := [(toplevel 0 (TFunction false), (Node 0 [] (FunctionDecl {| f_name := $"m"; f_method := None; f_isDefinition := true; f_bodyLines := (1)%Z |} [] (Some (Node 1 [] (CompoundStmt [(Node 2 [] (ObjCAtTryStmt (Node 3 [] (CompoundStmt [(Node 4 [] NullStmt)])) [(Node 5 [] (ObjCAtCatchStmt None (Node 6 [] (CompoundStmt [(Node 7 [] NullStmt)]))))] None))]))))))];
     ts_locs := [(1,1,1,43); (1,10,1,43); (1,12,1,41); (1,17,1,21); (1,19,1,19); (1,23,1,41); (1,37,1,41); (1,39,1,39)]%Z;
     ts_evals := []; ts_same := []; ts_decls := []; ts_parents := [] |}.
Example EmptyCatchStatement_NonEmptyObjCCatchStmt_holds : sorted_violations_of (shippedRule sh_EmptyCatchStatement) EmptyCatchStatement_NonEmptyObjCCatchStmt = Some [].
Proof. vm_compute. reflexivity. Qed.

Definition EmptyCatchStatement_EmptyObjCCatchWithEmptyCompoundStmt : testcase :=
  {| ts_lang := LObjC; ts_path := $"input.m"; ts_code := [];
     ts_comments := []; ts_conf := [];
     ts_tops := [(toplevel 0 (TFunction false), (Node 0 [] (FunctionDecl {| f_name := $"m"; f_method := None; f_isDefinition := true; f_bodyLines := (1)%Z |} [] (Some (Node 1 [] (CompoundStmt [(Node 2 [] (ObjCAtTryStmt (Node 3 [] (CompoundStmt [(Node 4 [] NullStmt)])) [(Node 5 [] (ObjCAtCatchStmt None (Node 6 [] (CompoundStmt []))))] None))]))))))];
     ts_locs := [(1,1,1,40); (1,10,1,40); (1,12,1,38); (1,17,1,21); (1,19,1,19); (1,23,1,38); (1,37,1,38)]%Z;
     ts_evals := []; ts_same := []; ts_decls := []; ts_parents := [] |}.
Example EmptyCatchStatement_EmptyObjCCatchWithEmptyCompoundStmt_holds : nth_violation (shippedRule sh_EmptyCatchStatement) EmptyCatchStatement_EmptyObjCCatchWithEmptyCompoundStmt 0 = Some (1, 37, 1, 38, $"")%Z.
Proof. vm_compute. reflexivity. Qed.

Definition EmptyCatchStatement_MultipleEmptyObjCCatchStmts : testcase :=
  {| ts_lang := LObjC; ts_path := $"input.m"; ts_code := [];
     ts_comments := []; ts_conf := [];
     ts_tops := [(toplevel 0 (TFunction false), (Node 0 [] (FunctionDecl {| f_name := $"m"; f_method := None; f_isDefinition := true; f_bodyLines := (1)%Z |} [] (Some (Node 1 [] (CompoundStmt [(Node 2 [] (ObjCAtTryStmt (Node 3 [] (CompoundStmt [(Node 4 [] NullStmt)])) [(Node 5 [] (ObjCAtCatchStmt None (Node 6 [] (CompoundStmt [])))); (Node 7 [] (ObjCAtCatchStmt None (Node 8 [] (CompoundStmt []))))] None))]))))))];
     ts_locs := [(1,1,1,56); (1,10,1,56); (1,12,1,54); (1,17,1,21); (1,19,1,19); (1,23,1,37); (1,36,1,37); (1,39,1,54); (1,53,1,54)]%Z;
     ts_evals := []; ts_same := []; ts_decls := []; ts_parents := [] |}.
Example EmptyCatchStatement_MultipleEmptyObjCCatchStmts_holds : nth_violation (shippedRule sh_EmptyCatchStatement) EmptyCatchStatement_MultipleEmptyObjCCatchStmts 0 = Some (1, 36, 1, 37, $"")%Z.
Proof. vm_compute. reflexivity. Qed.

Definition EmptyCatchStatement_MultipleEmptyObjCCatchStmts_2 : testcase :=
  {| ts_lang := LObjC; ts_path := $"input.m"; ts_code := [];
     ts_comments := []; ts_conf := [];
     ts_tops := [(toplevel 0 (TFunction false), (Node 0 [] (FunctionDecl {| f_name := $"m"; f_method := None; f_isDefinition := true; f_bodyLines := (1)%Z |} [] (Some (Node 1 [] (CompoundStmt [(Node 2 [] (ObjCAtTryStmt (Node 3 [] (CompoundStmt [(Node 4 [] NullStmt)])) [(Node 5 [] (ObjCAtCatchStmt None (Node 6 [] (CompoundStmt [])))); (Node 7 [] (ObjCAtCatchStmt None (Node 8 [] (CompoundStmt []))))] None))]))))))];
     ts_locs := [(1,1,1,56); (1,10,1,56); (1,12,1,54); (1,17,1,21); (1,19,1,19); (1,23,1,37); (1,36,1,37); (1,39,1,54); (1,53,1,54)]%Z;
     ts_evals := []; ts_same := []; ts_decls := []; ts_parents := [] |}.
Example EmptyCatchStatement_MultipleEmptyObjCCatchStmts_2_holds : nth_violation (shippedRule sh_EmptyCatchStatement) EmptyCatchStatement_MultipleEmptyObjCCatchStmts_2 1 = Some (1, 53, 1, 54, $"")%Z.
Proof. vm_compute. reflexivity. Qed.

(** ** oclint-rules/test/empty/EmptyDoWhileStatementRuleTest.cpp *)

Definition EmptyDoWhileStatement_GoodWhileStatement : testcase :=
  {| ts_lang := LC; ts_path := $"input.c"; ts_code := [];
     ts_comments := []; ts_conf := [];
     ts_tops := [(toplevel 0 (TFunction false), (Node 0 [] (FunctionDecl {| f_name := $"m"; f_method := None; f_isDefinition := true; f_bodyLines := (1)%Z |} [] (Some (Node 1 [] (CompoundStmt [(Node 2 [] (DoStmt (Node 3 [] (CompoundStmt [(Node 4 [] NullStmt)])) (Node 5 [] (IntegerLiteral (1)%Z))))]))))))];
     ts_locs := [(1,1,1,29); (1,10,1,29); (1,12,1,26); (1,15,1,17); (1,16,1,16); (1,25,1,25)]%Z;
     ts_evals := []; ts_same := []; ts_decls := []; ts_parents := [] |}.
Example EmptyDoWhileStatement_GoodWhileStatement_holds : sorted_violations_of (shippedRule sh_EmptyDoWhileStatement) EmptyDoWhileStatement_GoodWhileStatement = Some [].
Proof. vm_compute. reflexivity. Qed.

Definition EmptyDoWhileStatement_WhileStatementWithEmptyComponent : testcase :=
  {| ts_lang := LC; ts_path := $"input.c"; ts_code := [];
     ts_comments := []; ts_conf := [];
     ts_tops := [(toplevel 0 (TFunction false), (Node 0 [] (FunctionDecl {| f_name := $"m"; f_method := None; f_isDefinition := true; f_bodyLines := (1)%Z |} [] (Some (Node 1 [] (CompoundStmt [(Node 2 [] (DoStmt (Node 3 [] (CompoundStmt [])) (Node 4 [] (IntegerLiteral (1)%Z))))]))))))];
     ts_locs := [(1,1,1,28); (1,10,1,28); (1,12,1,25); (1,15,1,16); (1,24,1,24)]%Z;
     ts_evals := []; ts_same := []; ts_decls := []; ts_parents := [] |}.
Example EmptyDoWhileStatement_WhileStatementWithEmptyComponent_holds : nth_violation (shippedRule sh_EmptyDoWhileStatement) EmptyDoWhileStatement_WhileStatementWithEmptyComponent 0 = Some (1, 15, 1, 16, $"")%Z.
Proof. vm_compute. reflexivity. Qed.

Definition EmptyDoWhileStatement_WhileStatementWithNullStmt : testcase :=
  {| ts_lang := LC; ts_path := $"input.c"; ts_code := [];
     ts_comments := []; ts_conf := [];
     ts_tops := [(toplevel 0 (TFunction false), (Node 0 [] (FunctionDecl {| f_name := $"m"; f_method := None; f_isDefinition := true; f_bodyLines := (3)%Z |} [] (Some (Node 1 [] (CompoundStmt [(Node 2 [] (DoStmt (Node 3 [] NullStmt) (Node 4 [] (IntegerLiteral (1)%Z))))]))))))];
     ts_locs := [(1,1,3,11); (1,10,3,11); (1,12,3,8); (2,1,2,1); (3,7,3,7)]%Z;
     ts_evals := []; ts_same := []; ts_decls := []; ts_parents := [] |}.
Example EmptyDoWhileStatement_WhileStatementWithNullStmt_holds : nth_violation (shippedRule sh_EmptyDoWhileStatement) EmptyDoWhileStatement_WhileStatementWithNullStmt 0 = Some (2, 1, 2, 1, $"")%Z.
Proof. vm_compute. reflexivity. Qed.

(** ** oclint-rules/test/empty/EmptyElseBlockRuleTest.cpp *)

Definition EmptyElseBlock_GoodElseBlock : testcase :=
  {| ts_lang := LC; ts_path := $"input.c"; ts_code := [];
     ts_comments := []; ts_conf := [];
     ts_tops := [(toplevel 0 (TFunction false), (Node 0 [] (FunctionDecl {| f_name := $"aMethod"; f_method := None; f_isDefinition := true; f_bodyLines := (1)%Z |} [] (Some (Node 1 [] (CompoundStmt [(Node 2 [] (IfStmt [] (Node 3 [] (IntegerLiteral (1)%Z)) (Node 4 [] (CompoundStmt [(Node 5 [] NullStmt)])) (Some (Node 6 [] (CompoundStmt [(Node 7 [] NullStmt)])))))]))))))];
     ts_locs := [(1,1,1,38); (1,16,1,38); (1,18,1,36); (1,22,1,22); (1,25,1,27); (1,26,1,26); (1,34,1,36); (1,35,1,35)]%Z;
     ts_evals := [(3, true)]; ts_same := []; ts_decls := []; ts_parents := [] |}.
Example EmptyElseBlock_GoodElseBlock_holds : sorted_violations_of (shippedRule sh_EmptyElseBlock) EmptyElseBlock_GoodElseBlock = Some [].
Proof. vm_compute. reflexivity. Qed.

Definition EmptyElseBlock_EmptyElseComponent : testcase :=
  {| ts_lang := LC; ts_path := $"input.c"; ts_code := [];
     ts_comments := []; ts_conf := [];
     ts_tops := [(toplevel 0 (TFunction false), (Node 0 [] (FunctionDecl {| f_name := $"aMethod"; f_method := None; f_isDefinition := true; f_bodyLines := (1)%Z |} [] (Some (Node 1 [] (CompoundStmt [(Node 2 [] (IfStmt [] (Node 3 [] (IntegerLiteral (1)%Z)) (Node 4 [] (CompoundStmt [(Node 5 [] NullStmt)])) (Some (Node 6 [] (CompoundStmt [])))))]))))))];
     ts_locs := [(1,1,1,37); (1,16,1,37); (1,18,1,35); (1,22,1,22); (1,25,1,27); (1,26,1,26); (1,34,1,35)]%Z;
     ts_evals := [(3, true)]; ts_same := []; ts_decls := []; ts_parents := [] |}.
Example EmptyElseBlock_EmptyElseComponent_holds : nth_violation (shippedRule sh_EmptyElseBlock) EmptyElseBlock_EmptyElseComponent 0 = Some (1, 34, 1, 35, $"")%Z.
Proof. vm_compute. reflexivity. Qed.

Definition EmptyElseBlock_NullElseComponent : testcase :=
  {| ts_lang := LC; ts_path := $"input.c"; ts_code := [];
     ts_comments := []; ts_conf := [];
     ts_tops := [(toplevel 0 (TFunction false), (Node 0 [] (FunctionDecl {| f_name := $"aMethod"; f_method := None; f_isDefinition := true; f_bodyLines := (1)%Z |} [] (Some (Node 1 [] (CompoundStmt [(Node 2 [] (IfStmt [] (Node 3 [] (IntegerLiteral (1)%Z)) (Node 4 [] (CompoundStmt [(Node 5 [] NullStmt)])) (Some (Node 6 [] NullStmt))))]))))))];
     ts_locs := [(1,1,1,35); (1,16,1,35); (1,18,1,33); (1,22,1,22); (1,25,1,27); (1,26,1,26); (1,33,1,33)]%Z;
     ts_evals := [(3, true)]; ts_same := []; ts_decls := []; ts_parents := [] |}.
Example EmptyElseBlock_NullElseComponent_holds : nth_violation (shippedRule sh_EmptyElseBlock) EmptyElseBlock_NullElseComponent 0 = Some (1, 33, 1, 33, $"")%Z.
Proof. vm_compute. reflexivity. Qed.

(** ** oclint-rules/test/empty/EmptyFinallyStatementRuleTest.cpp *)

Definition EmptyFinallyStatement_NonEmptyObjCFinallyStmt : testcase :=
  {| ts_lang := LObjC; ts_path := $"input.m"; ts_code := [];
     ts_comments := []; ts_conf := [];
     ts_tops := [(toplevel 0 (TFunction false), (Node 0 [] (FunctionDecl {| f_name := $"m"; f_method := None; f_isDefinition := true; f_bodyLines := (1)%Z |} [] (Some (Node 1 [] (CompoundStmt [(Node 2 [] (ObjCAtTryStmt (Node 3 [] (CompoundStmt [(Node 4 [] NullStmt)])) [(Node 5 [] (ObjCAtCatchStmt None (Node 6 [] (CompoundStmt [(Node 7 [] NullStmt)]))))] (Some (Node 8 [] (ObjCAtFinallyStmt (Node 9 [] (CompoundStmt [(Node 10 [] NullStmt)])))))))]))))))];
     ts_locs := [(1,1,1,58); (1,10,1,58); (1,12,1,56); (1,17,1,21); (1,19,1,19); (1,23,1,41); (1,37,1,41); (1,39,1,39); (1,43,1,56); (1,52,1,56); (1,54,1,54)]%Z;
     ts_evals := []; ts_same := []; ts_decls := []; ts_parents := [] |}.
Example EmptyFinallyStatement_NonEmptyObjCFinallyStmt_holds : sorted_violations_of (shippedRule sh_EmptyFinallyStatement) EmptyFinallyStatement_NonEmptyObjCFinallyStmt = Some [].
Proof. vm_compute. reflexivity. Qed.

Definition EmptyFinallyStatement_EmptyObjCFinallyWithEmptyCompoundStmt : testcase :=
  {| ts_lang := LObjC; ts_path := $"input.m"; ts_code := [];
     ts_comments := []; ts_conf := [];
     ts_tops := [(toplevel 0 (TFunction false), (Node 0 [] (FunctionDecl {| f_name := $"m"; f_method := None; f_isDefinition := true; f_bodyLines := (1)%Z |} [] (Some (Node 1 [] (CompoundStmt [(Node 2 [] (ObjCAtTryStmt (Node 3 [] (CompoundStmt [(Node 4 [] NullStmt)])) [(Node 5 [] (ObjCAtCatchStmt None (Node 6 [] (CompoundStmt [(Node 7 [] NullStmt)]))))] (Some (Node 8 [] (ObjCAtFinallyStmt (Node 9 [] (CompoundStmt [])))))))]))))))];
     ts_locs := [(1,1,1,55); (1,10,1,55); (1,12,1,53); (1,17,1,21); (1,19,1,19); (1,23,1,41); (1,37,1,41); (1,39,1,39); (1,43,1,53); (1,52,1,53)]%Z;
     ts_evals := []; ts_same := []; ts_decls := []; ts_parents := [] |}.
Example EmptyFinallyStatement_EmptyObjCFinallyWithEmptyCompoundStmt_holds : nth_violation (shippedRule sh_EmptyFinallyStatement) EmptyFinallyStatement_EmptyObjCFinallyWithEmptyCompoundStmt 0 = Some (1, 52, 1, 53, $"")%Z.
Proof. vm_compute. reflexivity. Qed.

(** ** oclint-rules/test/empty/EmptyForStatementRuleTest.cpp *)

Definition EmptyForStatement_GoodForStatement : testcase :=
  {| ts_lang := LC; ts_path := $"input.c"; ts_code := [];
     ts_comments := []; ts_conf := [];
     ts_tops := [(toplevel 0 (TFunction false), (Node 0 [] (FunctionDecl {| f_name := $"aMethod"; f_method := None; f_isDefinition := true; f_bodyLines := (1)%Z |} [] (Some (Node 1 [] (CompoundStmt [(Node 2 [] (ForStmt None [] None None (Node 3 [] (CompoundStmt [(Node 4 [] NullStmt)]))))]))))))];
     ts_locs := [(1,1,1,31); (1,16,1,31); (1,18,1,29); (1,27,1,29); (1,28,1,28)]%Z;
     ts_evals := []; ts_same := []; ts_decls := []; ts_parents := [] |}.
Example EmptyForStatement_GoodForStatement_holds : sorted_violations_of (shippedRule sh_EmptyForStatement) EmptyForStatement_GoodForStatement = Some [].
Proof. vm_compute. reflexivity. Qed.

Definition EmptyForStatement_ForStatementWithEmptyComponent : testcase :=
  {| ts_lang := LC; ts_path := $"input.c"; ts_code := [];
     ts_comments := []; ts_conf := [];
     ts_tops := [(toplevel 0 (TFunction false), (Node 0 [] (FunctionDecl {| f_name := $"aMethod"; f_method := None; f_isDefinition := true; f_bodyLines := (1)%Z |} [] (Some (Node 1 [] (CompoundStmt [(Node 2 [] (ForStmt None [] None None (Node 3 [] (CompoundStmt []))))]))))))];
     ts_locs := [(1,1,1,30); (1,16,1,30); (1,18,1,28); (1,27,1,28)]%Z;
     ts_evals := []; ts_same := []; ts_decls := []; ts_parents := [] |}.
Example EmptyForStatement_ForStatementWithEmptyComponent_holds : nth_violation (shippedRule sh_EmptyForStatement) EmptyForStatement_ForStatementWithEmptyComponent 0 = Some (1, 27, 1, 28, $"")%Z.
Proof. vm_compute. reflexivity. Qed.

Definition EmptyForStatement_ForStatementWithNullStmt : testcase :=
  {| ts_lang := LC; ts_path := $"input.c"; ts_code := [];
     ts_comments := []; ts_conf := [];
     ts_tops := [(toplevel 0 (TFunction false), (Node 0 [] (FunctionDecl {| f_name := $"aMethod"; f_method := None; f_isDefinition := true; f_bodyLines := (2)%Z |} [] (Some (Node 1 [] (CompoundStmt [(Node 2 [] (ForStmt None [] None None (Node 3 [] NullStmt)))]))))))];
     ts_locs := [(1,1,2,3); (1,16,2,3); (1,18,2,1); (2,1,2,1)]%Z;
     ts_evals := []; ts_same := []; ts_decls := []; ts_parents := [] |}.
Example EmptyForStatement_ForStatementWithNullStmt_holds : nth_violation (shippedRule sh_EmptyForStatement) EmptyForStatement_ForStatementWithNullStmt 0 = Some (2, 1, 2, 1, $"")%Z.
Proof. vm_compute. reflexivity. Qed.

Definition EmptyForStatement_GoodObjcForEachStatement : testcase :=
  {| ts_lang := LObjC; ts_path := $"input.m"; ts_code := [];
     ts_comments := []; ts_conf := [];
     ts_tops := [(toplevel 0 (TFunction false), (Node 0 [] (FunctionDecl {| f_name := $"aMethod"; f_method := None; f_isDefinition := true; f_bodyLines := (1)%Z |} [] (Some (Node 1 [] (CompoundStmt [(Node 2 [] (DeclStmt [(Node 3 [] (VarDecl {| v_isParm := false; v_name := $"a"; v_used := true; v_referenced := true; v_local := true; v_staticMember := false; v_private := false; v_unusedAttr := false; v_defaultArg := false; v_canonicalType := $"struct objc_object *"; v_inTemplate := false; v_contexts := [CxFunction true true false] |} None))])); (Node 4 [] (ObjCForCollectionStmt (Node 5 [] (DeclStmt [(Node 6 [] (VarDecl {| v_isParm := false; v_name := $"it"; v_used := false; v_referenced := false; v_local := true; v_staticMember := false; v_private := false; v_unusedAttr := false; v_defaultArg := false; v_canonicalType := $"struct objc_object *"; v_inTemplate := false; v_contexts := [CxFunction true true false] |} None))])) (Node 7 $"id" (ImplicitCastExpr CK_LValueToRValue (Node 8 $"id" (DeclRefExpr 3 $"a" false)))) (Node 9 [] (CompoundStmt [(Node 10 [] NullStmt)]))))]))))))];
     ts_locs := [(1,1,1,45); (1,16,1,45); (1,18,1,22); (1,18,1,21); (1,24,1,43); (1,29,1,32); (1,29,1,32); (1,38,1,38); (1,38,1,38); (1,41,1,43); (1,42,1,42)]%Z;
     ts_evals := []; ts_same := []; ts_decls := []; ts_parents := [] |}.
Example EmptyForStatement_GoodObjcForEachStatement_holds : sorted_violations_of (shippedRule sh_EmptyForStatement) EmptyForStatement_GoodObjcForEachStatement = Some [].
Proof. vm_compute. reflexivity. Qed.

Definition EmptyForStatement_ObjcForEachStatementWithEmptyComponent : testcase :=
  {| ts_lang := LObjC; ts_path := $"input.m"; ts_code := [];
     ts_comments := []; ts_conf := [];
     ts_tops := [(toplevel 0 (TFunction false), (Node 0 [] (FunctionDecl {| f_name := $"aMethod"; f_method := None; f_isDefinition := true; f_bodyLines := (1)%Z |} [] (Some (Node 1 [] (CompoundStmt [(Node 2 [] (DeclStmt [(Node 3 [] (VarDecl {| v_isParm := false; v_name := $"a"; v_used := true; v_referenced := true; v_local := true; v_staticMember := false; v_private := false; v_unusedAttr := false; v_defaultArg := false; v_canonicalType := $"struct objc_object *"; v_inTemplate := false; v_contexts := [CxFunction true true false] |} None))])); (Node 4 [] (ObjCForCollectionStmt (Node 5 [] (DeclStmt [(Node 6 [] (VarDecl {| v_isParm := false; v_name := $"it"; v_used := false; v_referenced := false; v_local := true; v_staticMember := false; v_private := false; v_unusedAttr := false; v_defaultArg := false; v_canonicalType := $"struct objc_object *"; v_inTemplate := false; v_contexts := [CxFunction true true false] |} None))])) (Node 7 $"id" (ImplicitCastExpr CK_LValueToRValue (Node 8 $"id" (DeclRefExpr 3 $"a" false)))) (Node 9 [] (CompoundStmt []))))]))))))];
     ts_locs := [(1,1,1,44); (1,16,1,44); (1,18,1,22); (1,18,1,21); (1,24,1,42); (1,29,1,32); (1,29,1,32); (1,38,1,38); (1,38,1,38); (1,41,1,42)]%Z;
     ts_evals := []; ts_same := []; ts_decls := []; ts_parents := [] |}.
Example EmptyForStatement_ObjcForEachStatementWithEmptyComponent_holds : nth_violation (shippedRule sh_EmptyForStatement) EmptyForStatement_ObjcForEachStatementWithEmptyComponent 0 = Some (1, 41, 1, 42, $"")%Z.
Proof. vm_compute. reflexivity. Qed.

Definition EmptyForStatement_ObjcForEachStatementWithNullStmt : testcase :=
  {| ts_lang := LObjC; ts_path := $"input.m"; ts_code := [];
     ts_comments := []; ts_conf := [];
     ts_tops := [(toplevel 0 (TFunction false), (Node 0 [] (FunctionDecl {| f_name := $"aMethod"; f_method := None; f_isDefinition := true; f_bodyLines := (2)%Z |} [] (Some (Node 1 [] (CompoundStmt [(Node 2 [] (DeclStmt [(Node 3 [] (VarDecl {| v_isParm := false; v_name := $"a"; v_used := true; v_referenced := true; v_local := true; v_staticMember := false; v_private := false; v_unusedAttr := false; v_defaultArg := false; v_canonicalType := $"struct objc_object *"; v_inTemplate := false; v_contexts := [CxFunction true true false] |} None))])); (Node 4 [] (ObjCForCollectionStmt (Node 5 [] (DeclStmt [(Node 6 [] (VarDecl {| v_isParm := false; v_name := $"it"; v_used := false; v_referenced := false; v_local := true; v_staticMember := false; v_private := false; v_unusedAttr := false; v_defaultArg := false; v_canonicalType := $"struct objc_object *"; v_inTemplate := false; v_contexts := [CxFunction true true false] |} None))])) (Node 7 $"id" (ImplicitCastExpr CK_LValueToRValue (Node 8 $"id" (DeclRefExpr 3 $"a" false)))) (Node 9 [] NullStmt)))]))))))];
     ts_locs := [(1,1,2,3); (1,16,2,3); (1,18,1,22); (1,18,1,21); (1,24,2,1); (1,29,1,32); (1,29,1,32); (1,38,1,38); (1,38,1,38); (2,1,2,1)]%Z;
     ts_evals := []; ts_same := []; ts_decls := []; ts_parents := [] |}.
Example EmptyForStatement_ObjcForEachStatementWithNullStmt_holds : nth_violation (shippedRule sh_EmptyForStatement) EmptyForStatement_ObjcForEachStatementWithNullStmt 0 = Some (2, 1, 2, 1, $"")%Z.
Proof. vm_compute. reflexivity. Qed.

(** ** oclint-rules/test/empty/EmptyIfStatementRuleTest.cpp *)

Definition EmptyIfStatement_GoodIfStatement : testcase :=
  {| ts_lang := LC; ts_path := $"input.c"; ts_code := [];
     ts_comments := []; ts_conf := [];
     ts_tops := [(toplevel 0 (TFunction false), (Node 0 [] (FunctionDecl {| f_name := $"aMethod"; f_method := None; f_isDefinition := true; f_bodyLines := (1)%Z |} [] (Some (Node 1 [] (CompoundStmt [(Node 2 [] (IfStmt [] (Node 3 [] (IntegerLiteral (1)%Z)) (Node 4 [] (CompoundStmt [(Node 5 [] NullStmt)])) None))]))))))];
     ts_locs := [(1,1,1,29); (1,16,1,29); (1,18,1,27); (1,22,1,22); (1,25,1,27); (1,26,1,26)]%Z;
     ts_evals := [(3, true)]; ts_same := []; ts_decls := []; ts_parents := [] |}.
Example EmptyIfStatement_GoodIfStatement_holds : sorted_violations_of (shippedRule sh_EmptyIfStatement) EmptyIfStatement_GoodIfStatement = Some [].
Proof. vm_compute. reflexivity. Qed.

Definition EmptyIfStatement_IfStatementWithEmptyComponent : testcase :=
  {| ts_lang := LC; ts_path := $"input.c"; ts_code := [];
     ts_comments := []; ts_conf := [];
     ts_tops := [(toplevel 0 (TFunction false), (Node 0 [] (FunctionDecl {| f_name := $"aMethod"; f_method := None; f_isDefinition := true; f_bodyLines := (1)%Z |} [] (Some (Node 1 [] (CompoundStmt [(Node 2 [] (IfStmt [] (Node 3 [] (IntegerLiteral (1)%Z)) (Node 4 [] (CompoundStmt [])) None))]))))))];
     ts_locs := [(1,1,1,28); (1,16,1,28); (1,18,1,26); (1,22,1,22); (1,25,1,26)]%Z;
     ts_evals := [(3, true)]; ts_same := []; ts_decls := []; ts_parents := [] |}.
Example EmptyIfStatement_IfStatementWithEmptyComponent_holds : nth_violation (shippedRule sh_EmptyIfStatement) EmptyIfStatement_IfStatementWithEmptyComponent 0 = Some (1, 25, 1, 26, $"")%Z.
Proof. vm_compute. reflexivity. Qed.

Definition EmptyIfStatement_IfStatementWithNull : testcase :=
  {| ts_lang := LC; ts_path := $"input.c"; ts_code := [];
     ts_comments := []; ts_conf := [];
     ts_tops := [(toplevel 0 (TFunction false), (Node 0 [] (FunctionDecl {| f_name := $"aMethod"; f_method := None; f_isDefinition := true; f_bodyLines := (2)%Z |} [] (Some (Node 1 [] (CompoundStmt [(Node 2 [] (IfStmt [] (Node 3 [] (IntegerLiteral (1)%Z)) (Node 4 [] NullStmt) None))]))))))];
     ts_locs := [(1,1,2,3); (1,16,2,3); (1,18,2,1); (1,22,1,22); (2,1,2,1)]%Z;
     ts_evals := [(3, true)]; ts_same := []; ts_decls := []; ts_parents := [] |}.
Example EmptyIfStatement_IfStatementWithNull_holds : nth_violation (shippedRule sh_EmptyIfStatement) EmptyIfStatement_IfStatementWithNull 0 = Some (2, 1, 2, 1, $"")%Z.
Proof. vm_compute. reflexivity. Qed.

(** ** oclint-rules/test/empty/EmptySwitchStatementRuleTest.cpp *)

Definition EmptySwitchStatement_GoodSwitchStatement : testcase :=
  {| ts_lang := LC; ts_path := $"input.c"; ts_code := [];
     ts_comments := []; ts_conf := [];
     ts_tops := [(toplevel 0 (TFunction false), (Node 0 [] (FunctionDecl {| f_name := $"m"; f_method := None; f_isDefinition := true; f_bodyLines := (1)%Z |} [] (Some (Node 1 [] (CompoundStmt [(Node 2 [] (DeclStmt [(Node 3 [] (VarDecl {| v_isParm := false; v_name := $"i"; v_used := true; v_referenced := true; v_local := true; v_staticMember := false; v_private := false; v_unusedAttr := false; v_defaultArg := false; v_canonicalType := $"int"; v_inTemplate := false; v_contexts := [CxFunction true true false] |} None))])); (Node 4 [] (SwitchStmt [] (Node 5 [] (ImplicitCastExpr CK_LValueToRValue (Node 6 [] (DeclRefExpr 3 $"i" false)))) (Node 7 [] (CompoundStmt [(Node 8 [] NullStmt)])) false))]))))))];
     ts_locs := [(1,1,1,34); (1,10,1,34); (1,12,1,17); (1,12,1,16); (1,19,1,32); (1,27,1,27); (1,27,1,27); (1,30,1,32); (1,31,1,31)]%Z;
     ts_evals := []; ts_same := []; ts_decls := []; ts_parents := [] |}.
Example EmptySwitchStatement_GoodSwitchStatement_holds : sorted_violations_of (shippedRule sh_EmptySwitchStatement) EmptySwitchStatement_GoodSwitchStatement = Some [].
Proof. vm_compute. reflexivity. Qed.

Definition EmptySwitchStatement_SwitchStatementWithEmptyComponent : testcase :=
  {| ts_lang := LC; ts_path := $"input.c"; ts_code := [];
     ts_comments := []; ts_conf := [];
     ts_tops := [(toplevel 0 (TFunction false), (Node 0 [] (FunctionDecl {| f_name := $"m"; f_method := None; f_isDefinition := true; f_bodyLines := (1)%Z |} [] (Some (Node 1 [] (CompoundStmt [(Node 2 [] (DeclStmt [(Node 3 [] (VarDecl {| v_isParm := false; v_name := $"i"; v_used := true; v_referenced := true; v_local := true; v_staticMember := false; v_private := false; v_unusedAttr := false; v_defaultArg := false; v_canonicalType := $"int"; v_inTemplate := false; v_contexts := [CxFunction true true false] |} None))])); (Node 4 [] (SwitchStmt [] (Node 5 [] (ImplicitCastExpr CK_LValueToRValue (Node 6 [] (DeclRefExpr 3 $"i" false)))) (Node 7 [] (CompoundStmt [])) false))]))))))];
     ts_locs := [(1,1,1,33); (1,10,1,33); (1,12,1,17); (1,12,1,16); (1,19,1,31); (1,27,1,27); (1,27,1,27); (1,30,1,31)]%Z;
     ts_evals := []; ts_same := []; ts_decls := []; ts_parents := [] |}.
Example EmptySwitchStatement_SwitchStatementWithEmptyComponent_holds : nth_violation (shippedRule sh_EmptySwitchStatement) EmptySwitchStatement_SwitchStatementWithEmptyComponent 0 = Some (1, 30, 1, 31, $"")%Z.
Proof. vm_compute. reflexivity. Qed.

(** ** oclint-rules/test/empty/EmptyTryStatementRuleTest.cpp *)

Definition EmptyTryStatement_NonEmptyCXXTryStmt : testcase :=
  {| ts_lang := LCXX; ts_path := $"input.cpp"; ts_code := [];
     ts_comments := []; ts_conf := [];
     ts_tops := [(toplevel 0 (TFunction false), (Node 0 [] (FunctionDecl {| f_name := $"m"; f_method := None; f_isDefinition := true; f_bodyLines := (1)%Z |} [] (Some (Node 1 [] (CompoundStmt [(Node 2 [] (CXXTryStmt (Node 3 [] (CompoundStmt [(Node 4 [] NullStmt)])) [(Node 5 [] (CXXCatchStmt None (Node 6 [] (CompoundStmt [(Node 7 [] NullStmt)]))))]))]))))))];
     ts_locs := [(1,1,1,39); (1,10,1,39); (1,12,1,37); (1,16,1,20); (1,18,1,18); (1,22,1,37); (1,33,1,37); (1,35,1,35)]%Z;
     ts_evals := []; ts_same := []; ts_decls := []; ts_parents := [] |}.
Example EmptyTryStatement_NonEmptyCXXTryStmt_holds : sorted_violations_of (shippedRule sh_EmptyTryStatement) EmptyTryStatement_NonEmptyCXXTryStmt = Some [].
Proof. vm_compute. reflexivity. Qed.

Definition EmptyTryStatement_EmptyCXXTryWithEmptyCompoundStmt : testcase :=
  {| ts_lang := LCXX; ts_path := $"input.cpp"; ts_code := [];
     ts_comments := []; ts_conf := [];
     ts_tops := [(toplevel 0 (TFunction false), (Node 0 [] (FunctionDecl {| f_name := $"m"; f_method := None; f_isDefinition := true; f_bodyLines := (1)%Z |} [] (Some (Node 1 [] (CompoundStmt [(Node 2 [] (CXXTryStmt (Node 3 [] (CompoundStmt [])) [(Node 4 [] (CXXCatchStmt None (Node 5 [] (CompoundStmt [(Node 6 [] NullStmt)]))))]))]))))))];
     ts_locs := [(1,1,1,36); (1,10,1,36); (1,12,1,34); (1,16,1,17); (1,19,1,34); (1,30,1,34); (1,32,1,32)]%Z;
     ts_evals := []; ts_same := []; ts_decls := []; ts_parents := [] |}.
Example EmptyTryStatement_EmptyCXXTryWithEmptyCompoundStmt_holds : nth_violation (shippedRule sh_EmptyTryStatement) EmptyTryStatement_EmptyCXXTryWithEmptyCompoundStmt 0 = Some (1, 16, 1, 17, $"")%Z.
Proof. vm_compute. reflexivity. Qed.

Definition EmptyTryStatement_NonEmptyObjCTryStmt : testcase :=
  {| ts_lang := LObjC; ts_path := $"input.m"; ts_code := [];
     ts_comments := []; ts_conf := [];
     ts_tops := [(toplevel 0 (TFunction false), (Node 0 [] (FunctionDecl {| f_name := $"m"; f_method := None; f_isDefinition := true; f_bodyLines := (1)%Z |} [] (Some (Node 1 [] (CompoundStmt [(Node 2 [] (ObjCAtTryStmt (Node 3 [] (CompoundStmt [(Node 4 [] NullStmt)])) [(Node 5 [] (ObjCAtCatchStmt None (Node 6 [] (CompoundStmt [(Node 7 [] NullStmt)]))))] None))]))))))];
     ts_locs := [(1,1,1,43); (1,10,1,43); (1,12,1,41); (1,17,1,21); (1,19,1,19); (1,23,1,41); (1,37,1,41); (1,39,1,39)]%Z;
     ts_evals := []; ts_same := []; ts_decls := []; ts_parents := [] |}.
Example EmptyTryStatement_NonEmptyObjCTryStmt_holds : sorted_violations_of (shippedRule sh_EmptyTryStatement) EmptyTryStatement_NonEmptyObjCTryStmt = Some [].
Proof. vm_compute. reflexivity. Qed.

Definition EmptyTryStatement_EmptyObjCTryWithEmptyCompoundStmt : testcase :=
  {| ts_lang := LObjC; ts_path := $"input.m"; ts_code := [];
     ts_comments := []; ts_conf := [];
     ts_tops := [(toplevel 0 (TFunction false), (Node 0 [] (FunctionDecl {| f_name := $"m"; f_method := None; f_isDefinition := true; f_bodyLines := (1)%Z |} [] (Some (Node 1 [] (CompoundStmt [(Node 2 [] (ObjCAtTryStmt (Node 3 [] (CompoundStmt [])) [(Node 4 [] (ObjCAtCatchStmt None (Node 5 [] (CompoundStmt [(Node 6 [] NullStmt)]))))] None))]))))))];
     ts_locs := [(1,1,1,40); (1,10,1,40); (1,12,1,38); (1,17,1,18); (1,20,1,38); (1,34,1,38); (1,36,1,36)]%Z;
     ts_evals := []; ts_same := []; ts_decls := []; ts_parents := [] |}.
Example EmptyTryStatement_EmptyObjCTryWithEmptyCompoundStmt_holds : nth_violation (shippedRule sh_EmptyTryStatement) EmptyTryStatement_EmptyObjCTryWithEmptyCompoundStmt 0 = Some (1, 17, 1, 18, $"")%Z.
Proof. vm_compute. reflexivity. Qed.

(** ** oclint-rules/test/empty/EmptyWhileStatementRuleTest.cpp *)

Definition EmptyWhileStatement_GoodWhileStatement : testcase :=
  {| ts_lang := LC; ts_path := $"input.c"; ts_code := [];
     ts_comments := []; ts_conf := [];
     ts_tops := [(toplevel 0 (TFunction false), (Node 0 [] (FunctionDecl {| f_name := $"m"; f_method := None; f_isDefinition := true; f_bodyLines := (1)%Z |} [] (Some (Node 1 [] (CompoundStmt [(Node 2 [] (WhileStmt [] (Node 3 [] (IntegerLiteral (1)%Z)) (Node 4 [] (CompoundStmt [(Node 5 [] NullStmt)]))))]))))))];
     ts_locs := [(1,1,1,25); (1,10,1,25); (1,12,1,23); (1,18,1,18); (1,21,1,23); (1,22,1,22)]%Z;
     ts_evals := []; ts_same := []; ts_decls := []; ts_parents := [] |}.
Example EmptyWhileStatement_GoodWhileStatement_holds : sorted_violations_of (shippedRule sh_EmptyWhileStatement) EmptyWhileStatement_GoodWhileStatement = Some [].
Proof. vm_compute. reflexivity. Qed.

Definition EmptyWhileStatement_WhileStatementWithEmptyComponent : testcase :=
  {| ts_lang := LC; ts_path := $"input.c"; ts_code := [];
     ts_comments := []; ts_conf := [];
     ts_tops := [(toplevel 0 (TFunction false), (Node 0 [] (FunctionDecl {| f_name := $"m"; f_method := None; f_isDefinition := true; f_bodyLines := (1)%Z |} [] (Some (Node 1 [] (CompoundStmt [(Node 2 [] (WhileStmt [] (Node 3 [] (IntegerLiteral (1)%Z)) (Node 4 [] (CompoundStmt []))))]))))))];
     ts_locs := [(1,1,1,24); (1,10,1,24); (1,12,1,22); (1,18,1,18); (1,21,1,22)]%Z;
     ts_evals := []; ts_same := []; ts_decls := []; ts_parents := [] |}.
Example EmptyWhileStatement_WhileStatementWithEmptyComponent_holds : nth_violation (shippedRule sh_EmptyWhileStatement) EmptyWhileStatement_WhileStatementWithEmptyComponent 0 = Some (1, 21, 1, 22, $"")%Z.
Proof. vm_compute. reflexivity. Qed.

Definition EmptyWhileStatement_WhileStatementWithNullStmt : testcase :=
  {| ts_lang := LC; ts_path := $"input.c"; ts_code := [];
     ts_comments := []; ts_conf := [];
     ts_tops := [(toplevel 0 (TFunction false), (Node 0 [] (FunctionDecl {| f_name := $"m"; f_method := None; f_isDefinition := true; f_bodyLines := (2)%Z |} [] (Some (Node 1 [] (CompoundStmt [(Node 2 [] (WhileStmt [] (Node 3 [] (IntegerLiteral (1)%Z)) (Node 4 [] NullStmt)))]))))))];
     ts_locs := [(1,1,2,3); (1,10,2,3); (1,12,2,1); (1,18,1,18); (2,1,2,1)]%Z;
     ts_evals := []; ts_same := []; ts_decls := []; ts_parents := [] |}.
Example EmptyWhileStatement_WhileStatementWithNullStmt_holds : nth_violation (shippedRule sh_EmptyWhileStatement) EmptyWhileStatement_WhileStatementWithNullStmt 0 = Some (2, 1, 2, 1, $"")%Z.
Proof. vm_compute. reflexivity. Qed.

