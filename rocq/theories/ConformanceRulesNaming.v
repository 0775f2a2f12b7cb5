(** * OCLint's own unit tests of oclint-rules/test/naming, as examples about the model

    Written by tools/conformance/emit.py; do not edit. *)
From Verif Require Import Base ModelConfig ModelSource ModelAST ModelRuleTable ConformanceBase.

(** ** oclint-rules/test/naming/LongVariableNameRuleTest.cpp *)

Definition LongVariableName_NoVar : testcase :=
  {| ts_lang := LC; ts_path := $"input.c"; ts_code := [];
     ts_comments := []; ts_conf := [($"LONG_VARIABLE_NAME", $"3")];
     ts_tops := [(toplevel 0 (TFunction false), (Node 0 [] (FunctionDecl {| f_name := $"aMethod"; f_method := None; f_isDefinition := true; f_bodyLines := (1)%Z |} [] (Some (Node 1 [] (CompoundStmt []))))))];
     ts_locs := [(1,1,1,18); (1,16,1,18)]%Z;
     ts_evals := []; ts_same := []; ts_decls := []; ts_parents := [] |}.
Example LongVariableName_NoVar_holds : sorted_violations_of (shippedRule sh_LongVariableName) LongVariableName_NoVar = Some [].
Proof. vm_compute. reflexivity. Qed.

Definition LongVariableName_OneCharName : testcase :=
  {| ts_lang := LC; ts_path := $"input.c"; ts_code := [];
     ts_comments := []; ts_conf := [($"LONG_VARIABLE_NAME", $"3")];
     ts_tops := [(toplevel 0 (TFunction false), (Node 0 [] (FunctionDecl {| f_name := $"aMethod"; f_method := None; f_isDefinition := true; f_bodyLines := (1)%Z |} [(Node 1 [] (VarDecl {| v_isParm := true; v_name := $"i"; v_used := false; v_referenced := false; v_local := false; v_staticMember := false; v_private := false; v_unusedAttr := false; v_defaultArg := false; v_canonicalType := $"int"; v_inTemplate := false; v_contexts := [CxFunction true true false] |} None))] (Some (Node 2 [] (CompoundStmt []))))))];
     ts_locs := [(1,1,1,22); (1,14,1,18); (1,21,1,22)]%Z;
     ts_evals := []; ts_same := []; ts_decls := []; ts_parents := [] |}.
Example LongVariableName_OneCharName_holds : sorted_violations_of (shippedRule sh_LongVariableName) LongVariableName_OneCharName = Some [].
Proof. vm_compute. reflexivity. Qed.

Definition LongVariableName_TwoCharsName : testcase :=
  {| ts_lang := LC; ts_path := $"input.c"; ts_code := [];
     ts_comments := []; ts_conf := [($"LONG_VARIABLE_NAME", $"3")];
     ts_tops := [(toplevel 0 (TFunction false), (Node 0 [] (FunctionDecl {| f_name := $"aMethod"; f_method := None; f_isDefinition := true; f_bodyLines := (1)%Z |} [] (Some (Node 1 [] (CompoundStmt [(Node 2 [] (DeclStmt [(Node 3 [] (VarDecl {| v_isParm := false; v_name := $"ii"; v_used := false; v_referenced := false; v_local := true; v_staticMember := false; v_private := false; v_unusedAttr := false; v_defaultArg := false; v_canonicalType := $"int"; v_inTemplate := false; v_contexts := [CxFunction true true false] |} None))]))]))))))];
     ts_locs := [(1,1,1,26); (1,16,1,26); (1,18,1,24); (1,18,1,22)]%Z;
     ts_evals := []; ts_same := []; ts_decls := []; ts_parents := [] |}.
Example LongVariableName_TwoCharsName_holds : sorted_violations_of (shippedRule sh_LongVariableName) LongVariableName_TwoCharsName = Some [].
Proof. vm_compute. reflexivity. Qed.

Definition LongVariableName_ThreeCharsName : testcase :=
  {| ts_lang := LC; ts_path := $"input.c"; ts_code := [];
     ts_comments := []; ts_conf := [($"LONG_VARIABLE_NAME", $"3")];
     ts_tops := [(toplevel 0 (TFunction false), (Node 0 [] (FunctionDecl {| f_name := $"aMethod"; f_method := None; f_isDefinition := true; f_bodyLines := (1)%Z |} [] (Some (Node 1 [] (CompoundStmt [(Node 2 [] (DeclStmt [(Node 3 [] (VarDecl {| v_isParm := false; v_name := $"iii"; v_used := false; v_referenced := false; v_local := true; v_staticMember := false; v_private := false; v_unusedAttr := false; v_defaultArg := false; v_canonicalType := $"int"; v_inTemplate := false; v_contexts := [CxFunction true true false] |} None))]))]))))))];
     ts_locs := [(1,1,1,27); (1,16,1,27); (1,18,1,25); (1,18,1,22)]%Z;
     ts_evals := []; ts_same := []; ts_decls := []; ts_parents := [] |}.
Example LongVariableName_ThreeCharsName_holds : sorted_violations_of (shippedRule sh_LongVariableName) LongVariableName_ThreeCharsName = Some [].
Proof. vm_compute. reflexivity. Qed.

Definition LongVariableName_FourCharsName : testcase :=
  {| ts_lang := LC; ts_path := $"input.c"; ts_code := [];
     ts_comments := []; ts_conf := [($"LONG_VARIABLE_NAME", $"3")];
     ts_tops := [(toplevel 0 (TFunction false), (Node 0 [] (FunctionDecl {| f_name := $"aMethod"; f_method := None; f_isDefinition := true; f_bodyLines := (1)%Z |} [(Node 1 [] (VarDecl {| v_isParm := true; v_name := $"iiii"; v_used := false; v_referenced := false; v_local := false; v_staticMember := false; v_private := false; v_unusedAttr := false; v_defaultArg := false; v_canonicalType := $"int"; v_inTemplate := false; v_contexts := [CxFunction true true false] |} None))] (Some (Node 2 [] (CompoundStmt []))))))];
     ts_locs := [(1,1,1,25); (1,14,1,18); (1,24,1,25)]%Z;
     ts_evals := []; ts_same := []; ts_decls := []; ts_parents := [] |}.
Example LongVariableName_FourCharsName_holds : nth_violation (shippedRule sh_LongVariableName) LongVariableName_FourCharsName 0 = Some (1, 14, 1, 18, $"Length of variable name `iiii` is 4, which is longer than the threshold of 3")%Z.
Proof. vm_compute. reflexivity. Qed.

Definition LongVariableName_FiveCharsName : testcase :=
  {| ts_lang := LC; ts_path := $"input.c"; ts_code := [];
     ts_comments := []; ts_conf := [($"LONG_VARIABLE_NAME", $"3")];
     ts_tops := [(toplevel 0 (TFunction false), (Node 0 [] (FunctionDecl {| f_name := $"aMethod"; f_method := None; f_isDefinition := true; f_bodyLines := (1)%Z |} [] (Some (Node 1 [] (CompoundStmt [(Node 2 [] (DeclStmt [(Node 3 [] (VarDecl {| v_isParm := false; v_name := $"iiiii"; v_used := false; v_referenced := false; v_local := true; v_staticMember := false; v_private := false; v_unusedAttr := false; v_defaultArg := false; v_canonicalType := $"int"; v_inTemplate := false; v_contexts := [CxFunction true true false] |} None))]))]))))))];
     ts_locs := [(1,1,1,29); (1,16,1,29); (1,18,1,27); (1,18,1,22)]%Z;
     ts_evals := []; ts_same := []; ts_decls := []; ts_parents := [] |}.
Example LongVariableName_FiveCharsName_holds : nth_violation (shippedRule sh_LongVariableName) LongVariableName_FiveCharsName 0 = Some (1, 18, 1, 22, $"Length of variable name `iiiii` is 5, which is longer than the threshold of 3")%Z.
Proof. vm_compute. reflexivity. Qed.

Definition LongVariableName_FifteenCharsName : testcase :=
  {| ts_lang := LC; ts_path := $"input.c"; ts_code := [];
     ts_comments := []; ts_conf := [($"LONG_VARIABLE_NAME", $"3")];
     ts_tops := [(toplevel 0 (TFunction false), (Node 0 [] (FunctionDecl {| f_name := $"aMethod"; f_method := None; f_isDefinition := true; f_bodyLines := (1)%Z |} [] (Some (Node 1 [] (CompoundStmt [(Node 2 [] (DeclStmt [(Node 3 [] (VarDecl {| v_isParm := false; v_name := $"iiiiiiiiiiiiiii"; v_used := false; v_referenced := false; v_local := true; v_staticMember := false; v_private := false; v_unusedAttr := false; v_defaultArg := false; v_canonicalType := $"int"; v_inTemplate := false; v_contexts := [CxFunction true true false] |} None))]))]))))))];
     ts_locs := [(1,1,1,39); (1,16,1,39); (1,18,1,37); (1,18,1,22)]%Z;
     ts_evals := []; ts_same := []; ts_decls := []; ts_parents := [] |}.
Example LongVariableName_FifteenCharsName_holds : nth_violation (shippedRule sh_LongVariableName) LongVariableName_FifteenCharsName 0 = Some (1, 18, 1, 22, $"Length of variable name `iiiiii...iii` is 15, which is longer than the threshold of 3")%Z.
Proof. vm_compute. reflexivity. Qed.

(** ** oclint-rules/test/naming/ShortVariableNameRuleTest.cpp *)

Definition ShortVariableName_C_NoVar : testcase :=
  {| ts_lang := LC; ts_path := $"input.c"; ts_code := [];
     ts_comments := []; ts_conf := [($"SHORT_VARIABLE_NAME", $"3")];
     ts_tops := [(toplevel 0 (TFunction false), (Node 0 [] (FunctionDecl {| f_name := $"aMethod"; f_method := None; f_isDefinition := true; f_bodyLines := (1)%Z |} [] (Some (Node 1 [] (CompoundStmt []))))))];
     ts_locs := [(1,1,1,18); (1,16,1,18)]%Z;
     ts_evals := []; ts_same := []; ts_decls := []; ts_parents := [] |}.
Example ShortVariableName_C_NoVar_holds : sorted_violations_of (shippedRule sh_ShortVariableName) ShortVariableName_C_NoVar = Some [].
Proof. vm_compute. reflexivity. Qed.

Definition ShortVariableName_C_OneCharName : testcase :=
  {| ts_lang := LC; ts_path := $"input.c"; ts_code := [];
     ts_comments := []; ts_conf := [($"SHORT_VARIABLE_NAME", $"3")];
     ts_tops := [(toplevel 0 (TFunction false), (Node 0 [] (FunctionDecl {| f_name := $"aMethod"; f_method := None; f_isDefinition := true; f_bodyLines := (1)%Z |} [(Node 1 [] (VarDecl {| v_isParm := true; v_name := $"i"; v_used := false; v_referenced := false; v_local := false; v_staticMember := false; v_private := false; v_unusedAttr := false; v_defaultArg := false; v_canonicalType := $"int"; v_inTemplate := false; v_contexts := [CxFunction true true false] |} None))] (Some (Node 2 [] (CompoundStmt []))))))];
     ts_locs := [(1,1,1,22); (1,14,1,18); (1,21,1,22)]%Z;
     ts_evals := []; ts_same := []; ts_decls := []; ts_parents := [] |}.
Example ShortVariableName_C_OneCharName_holds : nth_violation (shippedRule sh_ShortVariableName) ShortVariableName_C_OneCharName 0 = Some (1, 14, 1, 18, $"Length of variable name `i` is 1, which is shorter than the threshold of 3")%Z.
Proof. vm_compute. reflexivity. Qed.

Definition ShortVariableName_C_TwoCharsName : testcase :=
  {| ts_lang := LC; ts_path := $"input.c"; ts_code := [];
     ts_comments := []; ts_conf := [($"SHORT_VARIABLE_NAME", $"3")];
     ts_tops := [(toplevel 0 (TFunction false), (Node 0 [] (FunctionDecl {| f_name := $"aMethod"; f_method := None; f_isDefinition := true; f_bodyLines := (1)%Z |} [] (Some (Node 1 [] (CompoundStmt [(Node 2 [] (DeclStmt [(Node 3 [] (VarDecl {| v_isParm := false; v_name := $"ii"; v_used := false; v_referenced := false; v_local := true; v_staticMember := false; v_private := false; v_unusedAttr := false; v_defaultArg := false; v_canonicalType := $"int"; v_inTemplate := false; v_contexts := [CxFunction true true false] |} None))]))]))))))];
     ts_locs := [(1,1,1,26); (1,16,1,26); (1,18,1,24); (1,18,1,22)]%Z;
     ts_evals := []; ts_same := []; ts_decls := []; ts_parents := [] |}.
Example ShortVariableName_C_TwoCharsName_holds : nth_violation (shippedRule sh_ShortVariableName) ShortVariableName_C_TwoCharsName 0 = Some (1, 18, 1, 22, $"Length of variable name `ii` is 2, which is shorter than the threshold of 3")%Z.
Proof. vm_compute. reflexivity. Qed.

Definition ShortVariableName_C_ThreeCharsName : testcase :=
  {| ts_lang := LC; ts_path := $"input.c"; ts_code := [];
     ts_comments := []; ts_conf := [($"SHORT_VARIABLE_NAME", $"3")];
     ts_tops := [(toplevel 0 (TFunction false), (Node 0 [] (FunctionDecl {| f_name := $"aMethod"; f_method := None; f_isDefinition := true; f_bodyLines := (1)%Z |} [] (Some (Node 1 [] (CompoundStmt [(Node 2 [] (DeclStmt [(Node 3 [] (VarDecl {| v_isParm := false; v_name := $"iii"; v_used := false; v_referenced := false; v_local := true; v_staticMember := false; v_private := false; v_unusedAttr := false; v_defaultArg := false; v_canonicalType := $"int"; v_inTemplate := false; v_contexts := [CxFunction true true false] |} None))]))]))))))];
     ts_locs := [(1,1,1,27); (1,16,1,27); (1,18,1,25); (1,18,1,22)]%Z;
     ts_evals := []; ts_same := []; ts_decls := []; ts_parents := [] |}.
Example ShortVariableName_C_ThreeCharsName_holds : sorted_violations_of (shippedRule sh_ShortVariableName) ShortVariableName_C_ThreeCharsName = Some [].
Proof. vm_compute. reflexivity. Qed.

Definition ShortVariableName_C_FourCharsName : testcase :=
  {| ts_lang := LC; ts_path := $"input.c"; ts_code := [];
     ts_comments := []; ts_conf := [($"SHORT_VARIABLE_NAME", $"3")];
     ts_tops := [(toplevel 0 (TFunction false), (Node 0 [] (FunctionDecl {| f_name := $"aMethod"; f_method := None; f_isDefinition := true; f_bodyLines := (1)%Z |} [] (Some (Node 1 [] (CompoundStmt [(Node 2 [] (DeclStmt [(Node 3 [] (VarDecl {| v_isParm := false; v_name := $"iiii"; v_used := false; v_referenced := false; v_local := true; v_staticMember := false; v_private := false; v_unusedAttr := false; v_defaultArg := false; v_canonicalType := $"int"; v_inTemplate := false; v_contexts := [CxFunction true true false] |} None))]))]))))))];
     ts_locs := [(1,1,1,28); (1,16,1,28); (1,18,1,26); (1,18,1,22)]%Z;
     ts_evals := []; ts_same := []; ts_decls := []; ts_parents := [] |}.
Example ShortVariableName_C_FourCharsName_holds : sorted_violations_of (shippedRule sh_ShortVariableName) ShortVariableName_C_FourCharsName = Some [].
Proof. vm_compute. reflexivity. Qed.

Definition ShortVariableName_Cpp_NoVar : testcase :=
  {| ts_lang := LCXX; ts_path := $"input.cpp"; ts_code := [];
     ts_comments := []; ts_conf := [($"SHORT_VARIABLE_NAME", $"3")];
     ts_tops := [(toplevel 0 (TFunction false), (Node 0 [] (FunctionDecl {| f_name := $"aMethod"; f_method := None; f_isDefinition := true; f_bodyLines := (1)%Z |} [] (Some (Node 1 [] (CompoundStmt []))))))];
     ts_locs := [(1,1,1,18); (1,16,1,18)]%Z;
     ts_evals := []; ts_same := []; ts_decls := []; ts_parents := [] |}.
Example ShortVariableName_Cpp_NoVar_holds : sorted_violations_of (shippedRule sh_ShortVariableName) ShortVariableName_Cpp_NoVar = Some [].
Proof. vm_compute. reflexivity. Qed.

Definition ShortVariableName_Cpp_OneCharName : testcase :=
  {| ts_lang := LCXX; ts_path := $"input.cpp"; ts_code := [];
     ts_comments := []; ts_conf := [($"SHORT_VARIABLE_NAME", $"3")];
     ts_tops := [(toplevel 0 (TFunction false), (Node 0 [] (FunctionDecl {| f_name := $"aMethod"; f_method := None; f_isDefinition := true; f_bodyLines := (1)%Z |} [(Node 1 [] (VarDecl {| v_isParm := true; v_name := $"i"; v_used := false; v_referenced := false; v_local := false; v_staticMember := false; v_private := false; v_unusedAttr := false; v_defaultArg := false; v_canonicalType := $"int"; v_inTemplate := false; v_contexts := [CxFunction true true false] |} None))] (Some (Node 2 [] (CompoundStmt []))))))];
     ts_locs := [(1,1,1,22); (1,14,1,18); (1,21,1,22)]%Z;
     ts_evals := []; ts_same := []; ts_decls := []; ts_parents := [] |}.
Example ShortVariableName_Cpp_OneCharName_holds : nth_violation (shippedRule sh_ShortVariableName) ShortVariableName_Cpp_OneCharName 0 = Some (1, 14, 1, 18, $"Length of variable name `i` is 1, which is shorter than the threshold of 3")%Z.
Proof. vm_compute. reflexivity. Qed.

Definition ShortVariableName_Cpp_TwoCharsName : testcase :=
  {| ts_lang := LCXX; ts_path := $"input.cpp"; ts_code := [];
     ts_comments := []; ts_conf := [($"SHORT_VARIABLE_NAME", $"3")];
     ts_tops := [(toplevel 0 (TFunction false), (Node 0 [] (FunctionDecl {| f_name := $"aMethod"; f_method := None; f_isDefinition := true; f_bodyLines := (1)%Z |} [] (Some (Node 1 [] (CompoundStmt [(Node 2 [] (DeclStmt [(Node 3 [] (VarDecl {| v_isParm := false; v_name := $"ii"; v_used := false; v_referenced := false; v_local := true; v_staticMember := false; v_private := false; v_unusedAttr := false; v_defaultArg := false; v_canonicalType := $"int"; v_inTemplate := false; v_contexts := [CxFunction true true false] |} None))]))]))))))];
     ts_locs := [(1,1,1,26); (1,16,1,26); (1,18,1,24); (1,18,1,22)]%Z;
     ts_evals := []; ts_same := []; ts_decls := []; ts_parents := [] |}.
Example ShortVariableName_Cpp_TwoCharsName_holds : nth_violation (shippedRule sh_ShortVariableName) ShortVariableName_Cpp_TwoCharsName 0 = Some (1, 18, 1, 22, $"Length of variable name `ii` is 2, which is shorter than the threshold of 3")%Z.
Proof. vm_compute. reflexivity. Qed.

Definition ShortVariableName_Cpp_ThreeCharsName : testcase :=
  {| ts_lang := LCXX; ts_path := $"input.cpp"; ts_code := [];
     ts_comments := []; ts_conf := [($"SHORT_VARIABLE_NAME", $"3")];
     ts_tops := [(toplevel 0 (TFunction false), (Node 0 [] (FunctionDecl {| f_name := $"aMethod"; f_method := None; f_isDefinition := true; f_bodyLines := (1)%Z |} [] (Some (Node 1 [] (CompoundStmt [(Node 2 [] (DeclStmt [(Node 3 [] (VarDecl {| v_isParm := false; v_name := $"iii"; v_used := false; v_referenced := false; v_local := true; v_staticMember := false; v_private := false; v_unusedAttr := false; v_defaultArg := false; v_canonicalType := $"int"; v_inTemplate := false; v_contexts := [CxFunction true true false] |} None))]))]))))))];
     ts_locs := [(1,1,1,27); (1,16,1,27); (1,18,1,25); (1,18,1,22)]%Z;
     ts_evals := []; ts_same := []; ts_decls := []; ts_parents := [] |}.
Example ShortVariableName_Cpp_ThreeCharsName_holds : sorted_violations_of (shippedRule sh_ShortVariableName) ShortVariableName_Cpp_ThreeCharsName = Some [].
Proof. vm_compute. reflexivity. Qed.

Definition ShortVariableName_Cpp_FourCharsName : testcase :=
  {| ts_lang := LCXX; ts_path := $"input.cpp"; ts_code := [];
     ts_comments := []; ts_conf := [($"SHORT_VARIABLE_NAME", $"3")];
     ts_tops := [(toplevel 0 (TFunction false), (Node 0 [] (FunctionDecl {| f_name := $"aMethod"; f_method := None; f_isDefinition := true; f_bodyLines := (1)%Z |} [] (Some (Node 1 [] (CompoundStmt [(Node 2 [] (DeclStmt [(Node 3 [] (VarDecl {| v_isParm := false; v_name := $"iiii"; v_used := false; v_referenced := false; v_local := true; v_staticMember := false; v_private := false; v_unusedAttr := false; v_defaultArg := false; v_canonicalType := $"int"; v_inTemplate := false; v_contexts := [CxFunction true true false] |} None))]))]))))))];
     ts_locs := [(1,1,1,28); (1,16,1,28); (1,18,1,26); (1,18,1,22)]%Z;
     ts_evals := []; ts_same := []; ts_decls := []; ts_parents := [] |}.
Example ShortVariableName_Cpp_FourCharsName_holds : sorted_violations_of (shippedRule sh_ShortVariableName) ShortVariableName_Cpp_FourCharsName = Some [].
Proof. vm_compute. reflexivity. Qed.

Definition ShortVariableName_ObjC_NoVar : testcase :=
  {| ts_lang := LObjC; ts_path := $"input.m"; ts_code := [];
     ts_comments := []; ts_conf := [($"SHORT_VARIABLE_NAME", $"3")];
     ts_tops := [(toplevel 0 (TFunction false), (Node 0 [] (FunctionDecl {| f_name := $"aMethod"; f_method := None; f_isDefinition := true; f_bodyLines := (1)%Z |} [] (Some (Node 1 [] (CompoundStmt []))))))];
     ts_locs := [(1,1,1,18); (1,16,1,18)]%Z;
     ts_evals := []; ts_same := []; ts_decls := []; ts_parents := [] |}.
Example ShortVariableName_ObjC_NoVar_holds : sorted_violations_of (shippedRule sh_ShortVariableName) ShortVariableName_ObjC_NoVar = Some [].
Proof. vm_compute. reflexivity. Qed.

Definition ShortVariableName_ObjC_OneCharName : testcase :=
  {| ts_lang := LObjC; ts_path := $"input.m"; ts_code := [];
     ts_comments := []; ts_conf := [($"SHORT_VARIABLE_NAME", $"3")];
     ts_tops := [(toplevel 0 (TFunction false), (Node 0 [] (FunctionDecl {| f_name := $"aMethod"; f_method := None; f_isDefinition := true; f_bodyLines := (1)%Z |} [(Node 1 [] (VarDecl {| v_isParm := true; v_name := $"i"; v_used := false; v_referenced := false; v_local := false; v_staticMember := false; v_private := false; v_unusedAttr := false; v_defaultArg := false; v_canonicalType := $"struct objc_object *"; v_inTemplate := false; v_contexts := [CxFunction true true false] |} None))] (Some (Node 2 [] (CompoundStmt []))))))];
     ts_locs := [(1,1,1,21); (1,14,1,17); (1,20,1,21)]%Z;
     ts_evals := []; ts_same := []; ts_decls := []; ts_parents := [] |}.
Example ShortVariableName_ObjC_OneCharName_holds : nth_violation (shippedRule sh_ShortVariableName) ShortVariableName_ObjC_OneCharName 0 = Some (1, 14, 1, 17, $"Length of variable name `i` is 1, which is shorter than the threshold of 3")%Z.
Proof. vm_compute. reflexivity. Qed.

Definition ShortVariableName_ObjC_TwoCharsName : testcase :=
  {| ts_lang := LObjC; ts_path := $"input.m"; ts_code := [];
     ts_comments := []; ts_conf := [($"SHORT_VARIABLE_NAME", $"3")];
     ts_tops := [(toplevel 0 (TFunction false), (Node 0 [] (FunctionDecl {| f_name := $"aMethod"; f_method := None; f_isDefinition := true; f_bodyLines := (1)%Z |} [] (Some (Node 1 [] (CompoundStmt [(Node 2 [] (DeclStmt [(Node 3 [] (VarDecl {| v_isParm := false; v_name := $"ii"; v_used := false; v_referenced := false; v_local := true; v_staticMember := false; v_private := false; v_unusedAttr := false; v_defaultArg := false; v_canonicalType := $"struct objc_object *"; v_inTemplate := false; v_contexts := [CxFunction true true false] |} None))]))]))))))];
     ts_locs := [(1,1,1,25); (1,16,1,25); (1,18,1,23); (1,18,1,21)]%Z;
     ts_evals := []; ts_same := []; ts_decls := []; ts_parents := [] |}.
Example ShortVariableName_ObjC_TwoCharsName_holds : nth_violation (shippedRule sh_ShortVariableName) ShortVariableName_ObjC_TwoCharsName 0 = Some (1, 18, 1, 21, $"Length of variable name `ii` is 2, which is shorter than the threshold of 3")%Z.
Proof. vm_compute. reflexivity. Qed.

Definition ShortVariableName_ObjC_ThreeCharsName : testcase :=
  {| ts_lang := LObjC; ts_path := $"input.m"; ts_code := [];
     ts_comments := []; ts_conf := [($"SHORT_VARIABLE_NAME", $"3")];
     ts_tops := [(toplevel 0 (TFunction false), (Node 0 [] (FunctionDecl {| f_name := $"aMethod"; f_method := None; f_isDefinition := true; f_bodyLines := (1)%Z |} [] (Some (Node 1 [] (CompoundStmt [(Node 2 [] (DeclStmt [(Node 3 [] (VarDecl {| v_isParm := false; v_name := $"iii"; v_used := false; v_referenced := false; v_local := true; v_staticMember := false; v_private := false; v_unusedAttr := false; v_defaultArg := false; v_canonicalType := $"struct objc_object *"; v_inTemplate := false; v_contexts := [CxFunction true true false] |} None))]))]))))))];
     ts_locs := [(1,1,1,26); (1,16,1,26); (1,18,1,24); (1,18,1,21)]%Z;
     ts_evals := []; ts_same := []; ts_decls := []; ts_parents := [] |}.
Example ShortVariableName_ObjC_ThreeCharsName_holds : sorted_violations_of (shippedRule sh_ShortVariableName) ShortVariableName_ObjC_ThreeCharsName = Some [].
Proof. vm_compute. reflexivity. Qed.

Definition ShortVariableName_ObjC_FourCharsName : testcase :=
  {| ts_lang := LObjC; ts_path := $"input.m"; ts_code := [];
     ts_comments := []; ts_conf := [($"SHORT_VARIABLE_NAME", $"3")];
     ts_tops := [(toplevel 0 (TFunction false), (Node 0 [] (FunctionDecl {| f_name := $"aMethod"; f_method := None; f_isDefinition := true; f_bodyLines := (1)%Z |} [] (Some (Node 1 [] (CompoundStmt [(Node 2 [] (DeclStmt [(Node 3 [] (VarDecl {| v_isParm := false; v_name := $"iiii"; v_used := false; v_referenced := false; v_local := true; v_staticMember := false; v_private := false; v_unusedAttr := false; v_defaultArg := false; v_canonicalType := $"struct objc_object *"; v_inTemplate := false; v_contexts := [CxFunction true true false] |} None))]))]))))))];
     ts_locs := [(1,1,1,27); (1,16,1,27); (1,18,1,25); (1,18,1,21)]%Z;
     ts_evals := []; ts_same := []; ts_decls := []; ts_parents := [] |}.
Example ShortVariableName_ObjC_FourCharsName_holds : sorted_violations_of (shippedRule sh_ShortVariableName) ShortVariableName_ObjC_FourCharsName = Some [].
Proof. vm_compute. reflexivity. Qed.

Definition ShortVariableName_IgnoreVariableInCXXForInit : testcase :=
  {| ts_lang := LCXX; ts_path := $"input.cpp"; ts_code := [];
     ts_comments := []; ts_conf := [($"SHORT_VARIABLE_NAME", $"3")];
     ts_tops := [(toplevel 0 (TFunction false), (Node 0 [] (FunctionDecl {| f_name := $"aMethod"; f_method := None; f_isDefinition := true; f_bodyLines := (1)%Z |} [] (Some (Node 1 [] (CompoundStmt [(Node 2 [] (ForStmt (Some (Node 3 [] (DeclStmt [(Node 4 [] (VarDecl {| v_isParm := false; v_name := $"i"; v_used := false; v_referenced := false; v_local := true; v_staticMember := false; v_private := false; v_unusedAttr := false; v_defaultArg := false; v_canonicalType := $"int"; v_inTemplate := false; v_contexts := [CxFunction true true false] |} (Some (Node 5 [] (IntegerLiteral (0)%Z)))))]))) [] None None (Node 6 [] (CompoundStmt []))))]))))))];
     ts_locs := [(1,1,1,37); (1,16,1,37); (1,18,1,35); (1,22,1,31); (1,22,1,30); (1,30,1,30); (1,34,1,35)]%Z;
     ts_evals := []; ts_same := []; ts_decls := []; ts_parents := [] |}.
Example ShortVariableName_IgnoreVariableInCXXForInit_holds : sorted_violations_of (shippedRule sh_ShortVariableName) ShortVariableName_IgnoreVariableInCXXForInit = Some [].
Proof. vm_compute. reflexivity. Qed.

Definition ShortVariableName_IgnoreVariableInCXXForEachInit : testcase :=
  {| ts_lang := LCXX; ts_path := $"input.cpp"; ts_code := [];
     ts_comments := []; ts_conf := [($"SHORT_VARIABLE_NAME", $"3")];
     ts_tops := [(toplevel 0 (TFunction false), (Node 0 [] (FunctionDecl {| f_name := $"aMethod"; f_method := None; f_isDefinition := true; f_bodyLines := (1)%Z |} [] (Some (Node 1 [] (CompoundStmt [(Node 2 [] (DeclStmt [(Node 3 [] (VarDecl {| v_isParm := false; v_name := $"anArray"; v_used := true; v_referenced := true; v_local := true; v_staticMember := false; v_private := false; v_unusedAttr := false; v_defaultArg := false; v_canonicalType := $"int[100]"; v_inTemplate := false; v_contexts := [CxFunction true true false] |} None))])); (Node 4 [] (CXXForRangeStmt None (Node 5 [] (DeclStmt [(Node 6 [] (VarDecl {| v_isParm := false; v_name := $"it"; v_used := false; v_referenced := false; v_local := true; v_staticMember := false; v_private := false; v_unusedAttr := false; v_defaultArg := false; v_canonicalType := $"int"; v_inTemplate := false; v_contexts := [CxFunction true true false] |} (Some (Node 7 [] (OtherExpr [])))))])) (Node 8 [] (DeclRefExpr 3 $"anArray" false)) (Node 9 [] (CompoundStmt []))))]))))))];
     ts_locs := [(1,1,1,61); (1,16,1,61); (1,18,1,34); (1,18,1,33); (1,36,1,59); (1,40,1,45); (1,40,1,48); (1,48,1,48); (1,50,1,50); (1,58,1,59)]%Z;
     ts_evals := []; ts_same := []; ts_decls := []; ts_parents := [] |}.
Example ShortVariableName_IgnoreVariableInCXXForEachInit_holds : sorted_violations_of (shippedRule sh_ShortVariableName) ShortVariableName_IgnoreVariableInCXXForEachInit = Some [].
Proof. vm_compute. reflexivity. Qed.

Definition ShortVariableName_IgnoreVariableInObjCForInit : testcase :=
  {| ts_lang := LObjC; ts_path := $"input.m"; ts_code := [];
     ts_comments := []; ts_conf := [($"SHORT_VARIABLE_NAME", $"3")];
     ts_tops := [(toplevel 0 (TFunction false), (Node 0 [] (FunctionDecl {| f_name := $"aMethod"; f_method := None; f_isDefinition := true; f_bodyLines := (1)%Z |} [] (Some (Node 1 [] (CompoundStmt [(Node 2 [] (ForStmt (Some (Node 3 [] (DeclStmt [(Node 4 [] (VarDecl {| v_isParm := false; v_name := $"i"; v_used := false; v_referenced := false; v_local := true; v_staticMember := false; v_private := false; v_unusedAttr := false; v_defaultArg := false; v_canonicalType := $"int"; v_inTemplate := false; v_contexts := [CxFunction true true false] |} (Some (Node 5 $"int" (IntegerLiteral (0)%Z)))))]))) [] None None (Node 6 [] (CompoundStmt []))))]))))))];
     ts_locs := [(1,1,1,37); (1,16,1,37); (1,18,1,35); (1,22,1,31); (1,22,1,30); (1,30,1,30); (1,34,1,35)]%Z;
     ts_evals := []; ts_same := []; ts_decls := []; ts_parents := [] |}.
Example ShortVariableName_IgnoreVariableInObjCForInit_holds : sorted_violations_of (shippedRule sh_ShortVariableName) ShortVariableName_IgnoreVariableInObjCForInit = Some [].
Proof. vm_compute. reflexivity. Qed.

Definition ShortVariableName_IgnoreVariableInObjCForEachInit : testcase :=
  {| ts_lang := LObjC; ts_path := $"input.m"; ts_code := [];
     ts_comments := []; ts_conf := [($"SHORT_VARIABLE_NAME", $"3")];
     ts_tops := [(toplevel 0 (TFunction false), (Node 0 [] (FunctionDecl {| f_name := $"aMethod"; f_method := None; f_isDefinition := true; f_bodyLines := (1)%Z |} [] (Some (Node 1 [] (CompoundStmt [(Node 2 [] (DeclStmt [(Node 3 [] (VarDecl {| v_isParm := false; v_name := $"anArray"; v_used := true; v_referenced := true; v_local := true; v_staticMember := false; v_private := false; v_unusedAttr := false; v_defaultArg := false; v_canonicalType := $"struct objc_object *"; v_inTemplate := false; v_contexts := [CxFunction true true false] |} None))])); (Node 4 [] (ObjCForCollectionStmt (Node 5 [] (DeclStmt [(Node 6 [] (VarDecl {| v_isParm := false; v_name := $"it"; v_used := false; v_referenced := false; v_local := true; v_staticMember := false; v_private := false; v_unusedAttr := false; v_defaultArg := false; v_canonicalType := $"struct objc_object *"; v_inTemplate := false; v_contexts := [CxFunction true true false] |} None))])) (Node 7 $"id" (ImplicitCastExpr CK_LValueToRValue (Node 8 $"id" (DeclRefExpr 3 $"anArray" false)))) (Node 9 [] (CompoundStmt []))))]))))))];
     ts_locs := [(1,1,1,54); (1,16,1,54); (1,18,1,28); (1,18,1,21); (1,30,1,52); (1,34,1,37); (1,34,1,37); (1,43,1,43); (1,43,1,43); (1,51,1,52)]%Z;
     ts_evals := []; ts_same := []; ts_decls := []; ts_parents := [] |}.
Example ShortVariableName_IgnoreVariableInObjCForEachInit_holds : sorted_violations_of (shippedRule sh_ShortVariableName) ShortVariableName_IgnoreVariableInObjCForEachInit = Some [].
Proof. vm_compute. reflexivity. Qed.

Definition ShortVariableName_IgnoreMultipleVariablesInCXXForInit : testcase :=
  {| ts_lang := LCXX; ts_path := $"input.cpp"; ts_code := [];
     ts_comments := []; ts_conf := [($"SHORT_VARIABLE_NAME", $"3")];
     ts_tops := [(toplevel 0 (TFunction false), (Node 0 [] (FunctionDecl {| f_name := $"aMethod"; f_method := None; f_isDefinition := true; f_bodyLines := (1)%Z |} [] (Some (Node 1 [] (CompoundStmt [(Node 2 [] (ForStmt (Some (Node 3 [] (DeclStmt [(Node 4 [] (VarDecl {| v_isParm := false; v_name := $"i"; v_used := false; v_referenced := false; v_local := true; v_staticMember := false; v_private := false; v_unusedAttr := false; v_defaultArg := false; v_canonicalType := $"int"; v_inTemplate := false; v_contexts := [CxFunction true true false] |} (Some (Node 5 [] (IntegerLiteral (0)%Z))))); (Node 6 [] (VarDecl {| v_isParm := false; v_name := $"ie"; v_used := false; v_referenced := false; v_local := true; v_staticMember := false; v_private := false; v_unusedAttr := false; v_defaultArg := false; v_canonicalType := $"int"; v_inTemplate := false; v_contexts := [CxFunction true true false] |} (Some (Node 7 [] (IntegerLiteral (1)%Z)))))]))) [] None None (Node 8 [] (CompoundStmt []))))]))))))];
     ts_locs := [(1,1,1,45); (1,16,1,45); (1,18,1,43); (1,22,1,39); (1,22,1,30); (1,30,1,30); (1,22,1,38); (1,38,1,38); (1,42,1,43)]%Z;
     ts_evals := []; ts_same := []; ts_decls := []; ts_parents := [] |}.
Example ShortVariableName_IgnoreMultipleVariablesInCXXForInit_holds : sorted_violations_of (shippedRule sh_ShortVariableName) ShortVariableName_IgnoreMultipleVariablesInCXXForInit = Some [].
Proof. vm_compute. reflexivity. Qed.

Definition ShortVariableName_NestedForLoopForCXX : testcase :=
  {| ts_lang := LCXX; ts_path := $"input.cpp"; ts_code := [];
     ts_comments := []; ts_conf := [($"SHORT_VARIABLE_NAME", $"3")];
     ts_tops := [(toplevel 0 (TFunction false), (Node 0 [] (FunctionDecl {| f_name := $"aMethod"; f_method := None; f_isDefinition := true; f_bodyLines := (1)%Z |} [] (Some (Node 1 [] (CompoundStmt [(Node 2 [] (DeclStmt [(Node 3 [] (VarDecl {| v_isParm := false; v_name := $"anArray"; v_used := true; v_referenced := true; v_local := true; v_staticMember := false; v_private := false; v_unusedAttr := false; v_defaultArg := false; v_canonicalType := $"int[100]"; v_inTemplate := false; v_contexts := [CxFunction true true false] |} None))])); (Node 4 [] (ForStmt (Some (Node 5 [] (DeclStmt [(Node 6 [] (VarDecl {| v_isParm := false; v_name := $"i"; v_used := false; v_referenced := false; v_local := true; v_staticMember := false; v_private := false; v_unusedAttr := false; v_defaultArg := false; v_canonicalType := $"int"; v_inTemplate := false; v_contexts := [CxFunction true true false] |} (Some (Node 7 [] (IntegerLiteral (0)%Z)))))]))) [] None None (Node 8 [] (CompoundStmt [(Node 9 [] (ForStmt (Some (Node 10 [] (DeclStmt [(Node 11 [] (VarDecl {| v_isParm := false; v_name := $"j"; v_used := false; v_referenced := false; v_local := true; v_staticMember := false; v_private := false; v_unusedAttr := false; v_defaultArg := false; v_canonicalType := $"int"; v_inTemplate := false; v_contexts := [CxFunction true true false] |} (Some (Node 12 [] (IntegerLiteral (0)%Z))))); (Node 13 [] (VarDecl {| v_isParm := false; v_name := $"je"; v_used := false; v_referenced := false; v_local := true; v_staticMember := false; v_private := false; v_unusedAttr := false; v_defaultArg := false; v_canonicalType := $"int"; v_inTemplate := false; v_contexts := [CxFunction true true false] |} (Some (Node 14 [] (IntegerLiteral (1)%Z)))))]))) [] None None (Node 15 [] (CompoundStmt [(Node 16 [] (CXXForRangeStmt None (Node 17 [] (DeclStmt [(Node 18 [] (VarDecl {| v_isParm := false; v_name := $"k"; v_used := false; v_referenced := false; v_local := true; v_staticMember := false; v_private := false; v_unusedAttr := false; v_defaultArg := false; v_canonicalType := $"int"; v_inTemplate := false; v_contexts := [CxFunction true true false] |} (Some (Node 19 [] (OtherExpr [])))))])) (Node 20 [] (DeclRefExpr 3 $"anArray" false)) (Node 21 [] (CompoundStmt []))))]))))]))))]))))))];
     ts_locs := [(1,1,1,107); (1,16,1,107); (1,18,1,34); (1,18,1,33); (1,36,1,105); (1,40,1,49); (1,40,1,48); (1,48,1,48); (1,52,1,105); (1,54,1,103); (1,58,1,75); (1,58,1,66); (1,66,1,66); (1,58,1,74); (1,74,1,74); (1,78,1,103); (1,80,1,101); (1,84,1,88); (1,84,1,90); (1,90,1,90); (1,92,1,92); (1,100,1,101)]%Z;
     ts_evals := []; ts_same := []; ts_decls := []; ts_parents := [] |}.
Example ShortVariableName_NestedForLoopForCXX_holds : sorted_violations_of (shippedRule sh_ShortVariableName) ShortVariableName_NestedForLoopForCXX = Some [].
Proof. vm_compute. reflexivity. Qed.

Definition ShortVariableName_NestedForLoopForObjC : testcase :=
  {| ts_lang := LObjC; ts_path := $"input.m"; ts_code := [];
     ts_comments := []; ts_conf := [($"SHORT_VARIABLE_NAME", $"3")];
     ts_tops := [(toplevel 0 (TFunction false), (Node 0 [] (FunctionDecl {| f_name := $"aMethod"; f_method := None; f_isDefinition := true; f_bodyLines := (1)%Z |} [] (Some (Node 1 [] (CompoundStmt [(Node 2 [] (DeclStmt [(Node 3 [] (VarDecl {| v_isParm := false; v_name := $"anArray"; v_used := true; v_referenced := true; v_local := true; v_staticMember := false; v_private := false; v_unusedAttr := false; v_defaultArg := false; v_canonicalType := $"struct objc_object *"; v_inTemplate := false; v_contexts := [CxFunction true true false] |} None))])); (Node 4 [] (ForStmt (Some (Node 5 [] (DeclStmt [(Node 6 [] (VarDecl {| v_isParm := false; v_name := $"i"; v_used := false; v_referenced := false; v_local := true; v_staticMember := false; v_private := false; v_unusedAttr := false; v_defaultArg := false; v_canonicalType := $"int"; v_inTemplate := false; v_contexts := [CxFunction true true false] |} (Some (Node 7 $"int" (IntegerLiteral (0)%Z)))))]))) [] None None (Node 8 [] (CompoundStmt [(Node 9 [] (ForStmt (Some (Node 10 [] (DeclStmt [(Node 11 [] (VarDecl {| v_isParm := false; v_name := $"j"; v_used := false; v_referenced := false; v_local := true; v_staticMember := false; v_private := false; v_unusedAttr := false; v_defaultArg := false; v_canonicalType := $"int"; v_inTemplate := false; v_contexts := [CxFunction true true false] |} (Some (Node 12 $"int" (IntegerLiteral (0)%Z))))); (Node 13 [] (VarDecl {| v_isParm := false; v_name := $"je"; v_used := false; v_referenced := false; v_local := true; v_staticMember := false; v_private := false; v_unusedAttr := false; v_defaultArg := false; v_canonicalType := $"int"; v_inTemplate := false; v_contexts := [CxFunction true true false] |} (Some (Node 14 $"int" (IntegerLiteral (1)%Z)))))]))) [] None None (Node 15 [] (CompoundStmt [(Node 16 [] (ObjCForCollectionStmt (Node 17 [] (DeclStmt [(Node 18 [] (VarDecl {| v_isParm := false; v_name := $"k"; v_used := false; v_referenced := false; v_local := true; v_staticMember := false; v_private := false; v_unusedAttr := false; v_defaultArg := false; v_canonicalType := $"struct objc_object *"; v_inTemplate := false; v_contexts := [CxFunction true true false] |} None))])) (Node 19 $"id" (ImplicitCastExpr CK_LValueToRValue (Node 20 $"id" (DeclRefExpr 3 $"anArray" false)))) (Node 21 [] (CompoundStmt []))))]))))]))))]))))))];
     ts_locs := [(1,1,1,101); (1,16,1,101); (1,18,1,28); (1,18,1,21); (1,30,1,99); (1,34,1,43); (1,34,1,42); (1,42,1,42); (1,46,1,99); (1,48,1,97); (1,52,1,69); (1,52,1,60); (1,60,1,60); (1,52,1,68); (1,68,1,68); (1,72,1,97); (1,74,1,95); (1,78,1,81); (1,78,1,81); (1,86,1,86); (1,86,1,86); (1,94,1,95)]%Z;
     ts_evals := []; ts_same := []; ts_decls := []; ts_parents := [] |}.
Example ShortVariableName_NestedForLoopForObjC_holds : sorted_violations_of (shippedRule sh_ShortVariableName) ShortVariableName_NestedForLoopForObjC = Some [].
Proof. vm_compute. reflexivity. Qed.

Definition ShortVariableName_IgnoreVariableInCXXException : testcase :=
  {| ts_lang := LCXX; ts_path := $"input.cpp"; ts_code := [];
     ts_comments := []; ts_conf := [($"SHORT_VARIABLE_NAME", $"3")];
     ts_tops := [(toplevel 0 (TFunction false), (Node 0 [] (FunctionDecl {| f_name := $"aMethod"; f_method := None; f_isDefinition := true; f_bodyLines := (1)%Z |} [] (Some (Node 1 [] (CompoundStmt [(Node 2 [] (CXXTryStmt (Node 3 [] (CompoundStmt [(Node 4 [] NullStmt)])) [(Node 5 [] (CXXCatchStmt (Some (Node 6 [] (VarDecl {| v_isParm := false; v_name := $"ex"; v_used := false; v_referenced := false; v_local := true; v_staticMember := false; v_private := false; v_unusedAttr := false; v_defaultArg := false; v_canonicalType := $"int"; v_inTemplate := false; v_contexts := [CxFunction true true false] |} None))) (Node 7 [] (CompoundStmt [(Node 8 [] NullStmt)]))))]))]))))))];
     ts_locs := [(1,1,1,45); (1,16,1,45); (1,18,1,43); (1,22,1,24); (1,23,1,23); (1,26,1,43); (1,33,1,37); (1,41,1,43); (1,42,1,42)]%Z;
     ts_evals := []; ts_same := []; ts_decls := []; ts_parents := [] |}.
Example ShortVariableName_IgnoreVariableInCXXException_holds : sorted_violations_of (shippedRule sh_ShortVariableName) ShortVariableName_IgnoreVariableInCXXException = Some [].
Proof. vm_compute. reflexivity. Qed.

Definition ShortVariableName_IgnoreVariableInObjCException : testcase :=
  {| ts_lang := LObjC; ts_path := $"input.m"; ts_code := [];
     ts_comments := []; ts_conf := [($"SHORT_VARIABLE_NAME", $"3")];
     ts_tops := [(toplevel 0 (TOther), (Node 0 [] (OtherDecl []))); (toplevel 1 (TFunction false), (Node 1 [] (FunctionDecl {| f_name := $"aMethod"; f_method := None; f_isDefinition := true; f_bodyLines := (1)%Z |} [] (Some (Node 2 [] (CompoundStmt [(Node 3 [] (ObjCAtTryStmt (Node 4 [] (CompoundStmt [(Node 5 [] NullStmt)])) [(Node 6 [] (ObjCAtCatchStmt None (Node 7 [] (CompoundStmt [(Node 8 [] NullStmt)]))))] None))]))))))];
     ts_locs := [(1,1,1,8); (1,21,1,76); (1,36,1,76); (1,38,1,74); (1,43,1,45); (1,44,1,44); (1,47,1,74); (1,72,1,74); (1,73,1,73)]%Z;
     ts_evals := []; ts_same := []; ts_decls := []; ts_parents := [] |}.
Example ShortVariableName_IgnoreVariableInObjCException_holds : sorted_violations_of (shippedRule sh_ShortVariableName) ShortVariableName_IgnoreVariableInObjCException = Some [].
Proof. vm_compute. reflexivity. Qed.

Definition ShortVariableName_IgnoreMultipleVariablesInObjCException : testcase :=
  {| ts_lang := LObjC; ts_path := $"input.m"; ts_code := [];
     ts_comments := []; ts_conf := [($"SHORT_VARIABLE_NAME", $"3")];
     ts_tops := [(toplevel 0 (TFunction false), (Node 0 [] (FunctionDecl {| f_name := $"aMethod"; f_method := None; f_isDefinition := true; f_bodyLines := (1)%Z |} [] (Some (Node 1 [] (CompoundStmt [(Node 2 [] (ObjCAtTryStmt (Node 3 [] (CompoundStmt [(Node 4 [] NullStmt)])) [(Node 5 [] (ObjCAtCatchStmt None (Node 6 [] (CompoundStmt [(Node 7 [] NullStmt)])))); (Node 8 [] (ObjCAtCatchStmt None (Node 9 [] (CompoundStmt [(Node 10 [] NullStmt)]))))] None))]))))))];
     ts_locs := [(1,1,1,64); (1,16,1,64); (1,18,1,62); (1,23,1,25); (1,24,1,24); (1,27,1,44); (1,42,1,44); (1,43,1,43); (1,46,1,62); (1,60,1,62); (1,61,1,61)]%Z;
     ts_evals := []; ts_same := []; ts_decls := []; ts_parents := [] |}.
Example ShortVariableName_IgnoreMultipleVariablesInObjCException_holds : sorted_violations_of (shippedRule sh_ShortVariableName) ShortVariableName_IgnoreMultipleVariablesInObjCException = Some [].
Proof. vm_compute. reflexivity. Qed.

Definition ShortVariableName_ShortVariableInsideCatchBlock : testcase :=
  {| ts_lang := LObjC; ts_path := $"input.m"; ts_code := [];
     ts_comments := []; ts_conf := [($"SHORT_VARIABLE_NAME", $"3")];
     ts_tops := [(toplevel 0 (TFunction false), (Node 0 [] (FunctionDecl {| f_name := $"aMethod"; f_method := None; f_isDefinition := true; f_bodyLines := (1)%Z |} [] (Some (Node 1 [] (CompoundStmt [(Node 2 [] (ObjCAtTryStmt (Node 3 [] (CompoundStmt [(Node 4 [] NullStmt)])) [(Node 5 [] (ObjCAtCatchStmt None (Node 6 [] (CompoundStmt [(Node 7 [] NullStmt)])))); (Node 8 [] (ObjCAtCatchStmt None (Node 9 [] (CompoundStmt [(Node 10 [] (DeclStmt [(Node 11 [] (VarDecl {| v_isParm := false; v_name := $"i"; v_used := false; v_referenced := false; v_local := true; v_staticMember := false; v_private := false; v_unusedAttr := false; v_defaultArg := false; v_canonicalType := $"struct objc_object *"; v_inTemplate := false; v_contexts := [CxFunction true true false] |} None))]))]))))] None))]))))))];
     ts_locs := [(1,1,1,70); (1,16,1,70); (1,18,1,68); (1,23,1,25); (1,24,1,24); (1,27,1,44); (1,42,1,44); (1,43,1,43); (1,46,1,68); (1,60,1,68); (1,62,1,66); (1,62,1,65)]%Z;
     ts_evals := []; ts_same := []; ts_decls := []; ts_parents := [] |}.
Example ShortVariableName_ShortVariableInsideCatchBlock_holds : nth_violation (shippedRule sh_ShortVariableName) ShortVariableName_ShortVariableInsideCatchBlock 0 = Some (1, 62, 1, 65, $"Length of variable name `i` is 1, which is shorter than the threshold of 3")%Z.
Proof. vm_compute. reflexivity. Qed.

