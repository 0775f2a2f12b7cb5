(** * OCLint's own unit tests of oclint-rules/test/abstract, as examples about the model

    Written by tools/conformance/emit.py; do not edit. *)
From Verif Require Import Base ModelConfig ModelSource ModelAST ModelRuleTable ConformanceBase.

(** ** oclint-rules/test/abstract/CUDASupportTest.cpp *)

Definition ImplicitNoCUDA_RunOnC : testcase :=
  {| ts_lang := LC; ts_path := $"input.c"; ts_code := [];
     ts_comments := []; ts_conf := [];
     ts_tops := [(toplevel 0 (TFunction false), (Node 0 [] (FunctionDecl {| f_name := $"a"; f_method := None; f_isDefinition := true; f_bodyLines := (1)%Z |} [] (Some (Node 1 [] (CompoundStmt []))))))];
     ts_locs := [(1,1,1,11); (1,10,1,11)]%Z;
     ts_evals := []; ts_same := []; ts_decls := []; ts_parents := [] |}.
Example ImplicitNoCUDA_RunOnC_holds : nth_violation implicitNoCUDARule ImplicitNoCUDA_RunOnC 0 = Some (1, 1, 1, 11, $"")%Z.
Proof. vm_compute. reflexivity. Qed.

Definition ImplicitNoCUDA_RunOnCXX : testcase :=
  {| ts_lang := LCXX; ts_path := $"input.cpp"; ts_code := [];
     ts_comments := []; ts_conf := [];
     ts_tops := [(toplevel 0 (TFunction false), (Node 0 [] (FunctionDecl {| f_name := $"a"; f_method := None; f_isDefinition := true; f_bodyLines := (1)%Z |} [] (Some (Node 1 [] (CompoundStmt []))))))];
     ts_locs := [(1,1,1,11); (1,10,1,11)]%Z;
     ts_evals := []; ts_same := []; ts_decls := []; ts_parents := [] |}.
Example ImplicitNoCUDA_RunOnCXX_holds : nth_violation implicitNoCUDARule ImplicitNoCUDA_RunOnCXX 0 = Some (1, 1, 1, 11, $"")%Z.
Proof. vm_compute. reflexivity. Qed.

Definition ImplicitNoCUDA_RunOnCXX11 : testcase :=
  {| ts_lang := LCXX; ts_path := $"input.cpp"; ts_code := [];
     ts_comments := []; ts_conf := [];
     ts_tops := [(toplevel 0 (TFunction false), (Node 0 [] (FunctionDecl {| f_name := $"a"; f_method := None; f_isDefinition := true; f_bodyLines := (1)%Z |} [] (Some (Node 1 [] (CompoundStmt []))))))];
     ts_locs := [(1,1,1,11); (1,10,1,11)]%Z;
     ts_evals := []; ts_same := []; ts_decls := []; ts_parents := [] |}.
Example ImplicitNoCUDA_RunOnCXX11_holds : nth_violation implicitNoCUDARule ImplicitNoCUDA_RunOnCXX11 0 = Some (1, 1, 1, 11, $"")%Z.
Proof. vm_compute. reflexivity. Qed.

Definition ImplicitNoCUDA_RunOnCUDA : testcase :=
  {| ts_lang := LCUDA; ts_path := $"input.cu"; ts_code := [];
     ts_comments := []; ts_conf := [];
     ts_tops := [(toplevel 0 (TFunction true), (Node 0 [] (FunctionDecl {| f_name := $"kernel"; f_method := None; f_isDefinition := true; f_bodyLines := (1)%Z |} [] (Some (Node 1 [] (CompoundStmt [])))))); (toplevel 2 (TFunction false), (Node 2 [] (FunctionDecl {| f_name := $"host"; f_method := None; f_isDefinition := true; f_bodyLines := (1)%Z |} [] (Some (Node 3 [] (CompoundStmt []))))))];
     ts_locs := [(1,1,1,27); (1,26,1,27); (1,29,1,42); (1,41,1,42)]%Z;
     ts_evals := []; ts_same := []; ts_decls := []; ts_parents := [] |}.
Example ImplicitNoCUDA_RunOnCUDA_holds : nth_violation implicitNoCUDARule ImplicitNoCUDA_RunOnCUDA 0 = Some (1, 29, 1, 42, $"")%Z.
Proof. vm_compute. reflexivity. Qed.

Definition ExplicitCUDA_RunOnCHostFunctions : testcase :=
  {| ts_lang := LC; ts_path := $"input.c"; ts_code := [];
     ts_comments := []; ts_conf := [];
     ts_tops := [(toplevel 0 (TFunction false), (Node 0 [] (FunctionDecl {| f_name := $"a"; f_method := None; f_isDefinition := true; f_bodyLines := (1)%Z |} [] (Some (Node 1 [] (CompoundStmt []))))))];
     ts_locs := [(1,1,1,11); (1,10,1,11)]%Z;
     ts_evals := []; ts_same := []; ts_decls := []; ts_parents := [] |}.
Example ExplicitCUDA_RunOnCHostFunctions_holds : nth_violation (explicitCUDARule (CUDA_HOST)%N) ExplicitCUDA_RunOnCHostFunctions 0 = Some (1, 1, 1, 11, $"")%Z.
Proof. vm_compute. reflexivity. Qed.

Definition ExplicitCUDA_RunOnCXXHostFunctions : testcase :=
  {| ts_lang := LCXX; ts_path := $"input.cpp"; ts_code := [];
     ts_comments := []; ts_conf := [];
     ts_tops := [(toplevel 0 (TFunction false), (Node 0 [] (FunctionDecl {| f_name := $"a"; f_method := None; f_isDefinition := true; f_bodyLines := (1)%Z |} [] (Some (Node 1 [] (CompoundStmt []))))))];
     ts_locs := [(1,1,1,11); (1,10,1,11)]%Z;
     ts_evals := []; ts_same := []; ts_decls := []; ts_parents := [] |}.
Example ExplicitCUDA_RunOnCXXHostFunctions_holds : nth_violation (explicitCUDARule (CUDA_HOST)%N) ExplicitCUDA_RunOnCXXHostFunctions 0 = Some (1, 1, 1, 11, $"")%Z.
Proof. vm_compute. reflexivity. Qed.

Definition ExplicitCUDA_RunOnCUDAHostFunctions : testcase :=
  {| ts_lang := LCUDA; ts_path := $"input.cu"; ts_code := [];
     ts_comments := []; ts_conf := [];
     ts_tops := [(toplevel 0 (TFunction true), (Node 0 [] (FunctionDecl {| f_name := $"kernel"; f_method := None; f_isDefinition := true; f_bodyLines := (1)%Z |} [] (Some (Node 1 [] (CompoundStmt []))))))];
     ts_locs := [(1,1,1,27); (1,26,1,27)]%Z;
     ts_evals := []; ts_same := []; ts_decls := []; ts_parents := [] |}.
Example ExplicitCUDA_RunOnCUDAHostFunctions_holds : sorted_violations_of (explicitCUDARule (CUDA_HOST)%N) ExplicitCUDA_RunOnCUDAHostFunctions = Some [].
Proof. vm_compute. reflexivity. Qed.

Definition ExplicitCUDA_RunOnCUDAHostFunctions_2 : testcase :=
  {| ts_lang := LCUDA; ts_path := $"input.cu"; ts_code := [];
     ts_comments := []; ts_conf := [];
     ts_tops := [(toplevel 0 (TFunction false), (Node 0 [] (FunctionDecl {| f_name := $"host"; f_method := None; f_isDefinition := true; f_bodyLines := (1)%Z |} [] (Some (Node 1 [] (CompoundStmt []))))))];
     ts_locs := [(1,1,1,14); (1,13,1,14)]%Z;
     ts_evals := []; ts_same := []; ts_decls := []; ts_parents := [] |}.
Example ExplicitCUDA_RunOnCUDAHostFunctions_2_holds : nth_violation (explicitCUDARule (CUDA_HOST)%N) ExplicitCUDA_RunOnCUDAHostFunctions_2 0 = Some (1, 1, 1, 14, $"")%Z.
Proof. vm_compute. reflexivity. Qed.

Definition ExplicitCUDA_RunOnCUDAHostFunctions_3 : testcase :=
  {| ts_lang := LCUDA; ts_path := $"input.cu"; ts_code := [];
     ts_comments := []; ts_conf := [];
     ts_tops := [(toplevel 0 (TFunction true), (Node 0 [] (FunctionDecl {| f_name := $"kernel"; f_method := None; f_isDefinition := true; f_bodyLines := (1)%Z |} [] (Some (Node 1 [] (CompoundStmt [])))))); (toplevel 2 (TFunction false), (Node 2 [] (FunctionDecl {| f_name := $"host"; f_method := None; f_isDefinition := true; f_bodyLines := (1)%Z |} [] (Some (Node 3 [] (CompoundStmt []))))))];
     ts_locs := [(1,1,1,27); (1,26,1,27); (1,29,1,42); (1,41,1,42)]%Z;
     ts_evals := []; ts_same := []; ts_decls := []; ts_parents := [] |}.
Example ExplicitCUDA_RunOnCUDAHostFunctions_3_holds : nth_violation (explicitCUDARule (CUDA_HOST)%N) ExplicitCUDA_RunOnCUDAHostFunctions_3 0 = Some (1, 29, 1, 42, $"")%Z.
Proof. vm_compute. reflexivity. Qed.

Definition ExplicitCUDA_RunOnCGlobalFunctions : testcase :=
  {| ts_lang := LC; ts_path := $"input.c"; ts_code := [];
     ts_comments := []; ts_conf := [];
     ts_tops := [(toplevel 0 (TFunction false), (Node 0 [] (FunctionDecl {| f_name := $"a"; f_method := None; f_isDefinition := true; f_bodyLines := (1)%Z |} [] (Some (Node 1 [] (CompoundStmt []))))))];
     ts_locs := [(1,1,1,11); (1,10,1,11)]%Z;
     ts_evals := []; ts_same := []; ts_decls := []; ts_parents := [] |}.
Example ExplicitCUDA_RunOnCGlobalFunctions_holds : sorted_violations_of (explicitCUDARule (CUDA_GLOBAL)%N) ExplicitCUDA_RunOnCGlobalFunctions = Some [].
Proof. vm_compute. reflexivity. Qed.

Definition ExplicitCUDA_RunOnCXXGlobalFunctions : testcase :=
  {| ts_lang := LCXX; ts_path := $"input.cpp"; ts_code := [];
     ts_comments := []; ts_conf := [];
     ts_tops := [(toplevel 0 (TFunction false), (Node 0 [] (FunctionDecl {| f_name := $"a"; f_method := None; f_isDefinition := true; f_bodyLines := (1)%Z |} [] (Some (Node 1 [] (CompoundStmt []))))))];
     ts_locs := [(1,1,1,11); (1,10,1,11)]%Z;
     ts_evals := []; ts_same := []; ts_decls := []; ts_parents := [] |}.
Example ExplicitCUDA_RunOnCXXGlobalFunctions_holds : sorted_violations_of (explicitCUDARule (CUDA_GLOBAL)%N) ExplicitCUDA_RunOnCXXGlobalFunctions = Some [].
Proof. vm_compute. reflexivity. Qed.

Definition ExplicitCUDA_RunOnCUDAGlobalFunctions : testcase :=
  {| ts_lang := LCUDA; ts_path := $"input.cu"; ts_code := [];
     ts_comments := []; ts_conf := [];
     ts_tops := [(toplevel 0 (TFunction true), (Node 0 [] (FunctionDecl {| f_name := $"kernel"; f_method := None; f_isDefinition := true; f_bodyLines := (1)%Z |} [] (Some (Node 1 [] (CompoundStmt []))))))];
     ts_locs := [(1,1,1,27); (1,26,1,27)]%Z;
     ts_evals := []; ts_same := []; ts_decls := []; ts_parents := [] |}.
Example ExplicitCUDA_RunOnCUDAGlobalFunctions_holds : nth_violation (explicitCUDARule (CUDA_GLOBAL)%N) ExplicitCUDA_RunOnCUDAGlobalFunctions 0 = Some (1, 1, 1, 27, $"")%Z.
Proof. vm_compute. reflexivity. Qed.

Definition ExplicitCUDA_RunOnCUDAGlobalFunctions_2 : testcase :=
  {| ts_lang := LCUDA; ts_path := $"input.cu"; ts_code := [];
     ts_comments := []; ts_conf := [];
     ts_tops := [(toplevel 0 (TFunction false), (Node 0 [] (FunctionDecl {| f_name := $"host"; f_method := None; f_isDefinition := true; f_bodyLines := (1)%Z |} [] (Some (Node 1 [] (CompoundStmt []))))))];
     ts_locs := [(1,1,1,14); (1,13,1,14)]%Z;
     ts_evals := []; ts_same := []; ts_decls := []; ts_parents := [] |}.
Example ExplicitCUDA_RunOnCUDAGlobalFunctions_2_holds : sorted_violations_of (explicitCUDARule (CUDA_GLOBAL)%N) ExplicitCUDA_RunOnCUDAGlobalFunctions_2 = Some [].
Proof. vm_compute. reflexivity. Qed.

Definition ExplicitCUDA_RunOnCUDAGlobalFunctions_3 : testcase :=
  {| ts_lang := LCUDA; ts_path := $"input.cu"; ts_code := [];
     ts_comments := []; ts_conf := [];
     ts_tops := [(toplevel 0 (TFunction true), (Node 0 [] (FunctionDecl {| f_name := $"kernel"; f_method := None; f_isDefinition := true; f_bodyLines := (1)%Z |} [] (Some (Node 1 [] (CompoundStmt [])))))); (toplevel 2 (TFunction false), (Node 2 [] (FunctionDecl {| f_name := $"host"; f_method := None; f_isDefinition := true; f_bodyLines := (1)%Z |} [] (Some (Node 3 [] (CompoundStmt []))))))];
     ts_locs := [(1,1,1,27); (1,26,1,27); (1,29,1,42); (1,41,1,42)]%Z;
     ts_evals := []; ts_same := []; ts_decls := []; ts_parents := [] |}.
Example ExplicitCUDA_RunOnCUDAGlobalFunctions_3_holds : nth_violation (explicitCUDARule (CUDA_GLOBAL)%N) ExplicitCUDA_RunOnCUDAGlobalFunctions_3 0 = Some (1, 1, 1, 27, $"")%Z.
Proof. vm_compute. reflexivity. Qed.

Definition ExplicitCUDA_RunOnCBoth : testcase :=
  {| ts_lang := LC; ts_path := $"input.c"; ts_code := [];
     ts_comments := []; ts_conf := [];
     ts_tops := [(toplevel 0 (TFunction false), (Node 0 [] (FunctionDecl {| f_name := $"a"; f_method := None; f_isDefinition := true; f_bodyLines := (1)%Z |} [] (Some (Node 1 [] (CompoundStmt []))))))];
     ts_locs := [(1,1,1,11); (1,10,1,11)]%Z;
     ts_evals := []; ts_same := []; ts_decls := []; ts_parents := [] |}.
Example ExplicitCUDA_RunOnCBoth_holds : nth_violation (explicitCUDARule (CUDA_HOST + CUDA_GLOBAL)%N) ExplicitCUDA_RunOnCBoth 0 = Some (1, 1, 1, 11, $"")%Z.
Proof. vm_compute. reflexivity. Qed.

Definition ExplicitCUDA_RunOnCXXBoth : testcase :=
  {| ts_lang := LCXX; ts_path := $"input.cpp"; ts_code := [];
     ts_comments := []; ts_conf := [];
     ts_tops := [(toplevel 0 (TFunction false), (Node 0 [] (FunctionDecl {| f_name := $"a"; f_method := None; f_isDefinition := true; f_bodyLines := (1)%Z |} [] (Some (Node 1 [] (CompoundStmt []))))))];
     ts_locs := [(1,1,1,11); (1,10,1,11)]%Z;
     ts_evals := []; ts_same := []; ts_decls := []; ts_parents := [] |}.
Example ExplicitCUDA_RunOnCXXBoth_holds : nth_violation (explicitCUDARule (CUDA_HOST + CUDA_GLOBAL)%N) ExplicitCUDA_RunOnCXXBoth 0 = Some (1, 1, 1, 11, $"")%Z.
Proof. vm_compute. reflexivity. Qed.

Definition ExplicitCUDA_RunOnCUDABoth : testcase :=
  {| ts_lang := LCUDA; ts_path := $"input.cu"; ts_code := [];
     ts_comments := []; ts_conf := [];
     ts_tops := [(toplevel 0 (TFunction true), (Node 0 [] (FunctionDecl {| f_name := $"kernel"; f_method := None; f_isDefinition := true; f_bodyLines := (1)%Z |} [] (Some (Node 1 [] (CompoundStmt []))))))];
     ts_locs := [(1,1,1,27); (1,26,1,27)]%Z;
     ts_evals := []; ts_same := []; ts_decls := []; ts_parents := [] |}.
Example ExplicitCUDA_RunOnCUDABoth_holds : nth_violation (explicitCUDARule (CUDA_HOST + CUDA_GLOBAL)%N) ExplicitCUDA_RunOnCUDABoth 0 = Some (1, 1, 1, 27, $"")%Z.
Proof. vm_compute. reflexivity. Qed.

Definition ExplicitCUDA_RunOnCUDABoth_2 : testcase :=
  {| ts_lang := LCUDA; ts_path := $"input.cu"; ts_code := [];
     ts_comments := []; ts_conf := [];
     ts_tops := [(toplevel 0 (TFunction false), (Node 0 [] (FunctionDecl {| f_name := $"host"; f_method := None; f_isDefinition := true; f_bodyLines := (1)%Z |} [] (Some (Node 1 [] (CompoundStmt []))))))];
     ts_locs := [(1,1,1,14); (1,13,1,14)]%Z;
     ts_evals := []; ts_same := []; ts_decls := []; ts_parents := [] |}.
Example ExplicitCUDA_RunOnCUDABoth_2_holds : nth_violation (explicitCUDARule (CUDA_HOST + CUDA_GLOBAL)%N) ExplicitCUDA_RunOnCUDABoth_2 0 = Some (1, 1, 1, 14, $"")%Z.
Proof. vm_compute. reflexivity. Qed.

Definition ExplicitCUDA_RunOnCUDABoth_3 : testcase :=
  {| ts_lang := LCUDA; ts_path := $"input.cu"; ts_code := [];
     ts_comments := []; ts_conf := [];
     ts_tops := [(toplevel 0 (TFunction true), (Node 0 [] (FunctionDecl {| f_name := $"kernel"; f_method := None; f_isDefinition := true; f_bodyLines := (1)%Z |} [] (Some (Node 1 [] (CompoundStmt [])))))); (toplevel 2 (TFunction false), (Node 2 [] (FunctionDecl {| f_name := $"host"; f_method := None; f_isDefinition := true; f_bodyLines := (1)%Z |} [] (Some (Node 3 [] (CompoundStmt []))))))];
     ts_locs := [(1,1,1,27); (1,26,1,27); (1,29,1,42); (1,41,1,42)]%Z;
     ts_evals := []; ts_same := []; ts_decls := []; ts_parents := [] |}.
Example ExplicitCUDA_RunOnCUDABoth_3_holds : nth_violation (explicitCUDARule (CUDA_HOST + CUDA_GLOBAL)%N) ExplicitCUDA_RunOnCUDABoth_3 0 = Some (1, 1, 1, 27, $"")%Z.
Proof. vm_compute. reflexivity. Qed.

Definition ExplicitCUDA_RunOnCUDABoth_4 : testcase :=
  {| ts_lang := LCUDA; ts_path := $"input.cu"; ts_code := [];
     ts_comments := []; ts_conf := [];
     ts_tops := [(toplevel 0 (TFunction true), (Node 0 [] (FunctionDecl {| f_name := $"kernel"; f_method := None; f_isDefinition := true; f_bodyLines := (1)%Z |} [] (Some (Node 1 [] (CompoundStmt [])))))); (toplevel 2 (TFunction false), (Node 2 [] (FunctionDecl {| f_name := $"host"; f_method := None; f_isDefinition := true; f_bodyLines := (1)%Z |} [] (Some (Node 3 [] (CompoundStmt []))))))];
     ts_locs := [(1,1,1,27); (1,26,1,27); (1,29,1,42); (1,41,1,42)]%Z;
     ts_evals := []; ts_same := []; ts_decls := []; ts_parents := [] |}.
Example ExplicitCUDA_RunOnCUDABoth_4_holds : nth_violation (explicitCUDARule (CUDA_HOST + CUDA_GLOBAL)%N) ExplicitCUDA_RunOnCUDABoth_4 1 = Some (1, 29, 1, 42, $"")%Z.
Proof. vm_compute. reflexivity. Qed.

(** ** oclint-rules/test/abstract/LanguageSelectionTest.cpp *)

Definition DefaultAST_RunOnC : testcase :=
  {| ts_lang := LC; ts_path := $"input.c"; ts_code := [];
     ts_comments := []; ts_conf := [];
     ts_tops := [(toplevel 0 (TFunction false), (Node 0 [] (FunctionDecl {| f_name := $"a"; f_method := None; f_isDefinition := true; f_bodyLines := (1)%Z |} [] (Some (Node 1 [] (CompoundStmt []))))))];
     ts_locs := [(1,1,1,11); (1,10,1,11)]%Z;
     ts_evals := []; ts_same := []; ts_decls := []; ts_parents := [] |}.
Example DefaultAST_RunOnC_holds : nth_violation defaultASTRule DefaultAST_RunOnC 0 = Some (1, 1, 1, 11, $"")%Z.
Proof. vm_compute. reflexivity. Qed.

Definition DefaultAST_RunOnCXX : testcase :=
  {| ts_lang := LCXX; ts_path := $"input.cpp"; ts_code := [];
     ts_comments := []; ts_conf := [];
     ts_tops := [(toplevel 0 (TFunction false), (Node 0 [] (FunctionDecl {| f_name := $"a"; f_method := None; f_isDefinition := true; f_bodyLines := (1)%Z |} [] (Some (Node 1 [] (CompoundStmt []))))))];
     ts_locs := [(1,1,1,11); (1,10,1,11)]%Z;
     ts_evals := []; ts_same := []; ts_decls := []; ts_parents := [] |}.
Example DefaultAST_RunOnCXX_holds : nth_violation defaultASTRule DefaultAST_RunOnCXX 0 = Some (1, 1, 1, 11, $"")%Z.
Proof. vm_compute. reflexivity. Qed.

Definition DefaultAST_RunOnCXX11 : testcase :=
  {| ts_lang := LCXX; ts_path := $"input.cpp"; ts_code := [];
     ts_comments := []; ts_conf := [];
     ts_tops := [(toplevel 0 (TFunction false), (Node 0 [] (FunctionDecl {| f_name := $"a"; f_method := None; f_isDefinition := true; f_bodyLines := (1)%Z |} [] (Some (Node 1 [] (CompoundStmt []))))))];
     ts_locs := [(1,1,1,11); (1,10,1,11)]%Z;
     ts_evals := []; ts_same := []; ts_decls := []; ts_parents := [] |}.
Example DefaultAST_RunOnCXX11_holds : nth_violation defaultASTRule DefaultAST_RunOnCXX11 0 = Some (1, 1, 1, 11, $"")%Z.
Proof. vm_compute. reflexivity. Qed.

Definition DefaultAST_RunOnObjC : testcase :=
  {| ts_lang := LObjC; ts_path := $"input.m"; ts_code := [];
     ts_comments := []; ts_conf := [];
     ts_tops := [(toplevel 0 (TFunction false), (Node 0 [] (FunctionDecl {| f_name := $"a"; f_method := None; f_isDefinition := true; f_bodyLines := (1)%Z |} [] (Some (Node 1 [] (CompoundStmt []))))))];
     ts_locs := [(1,1,1,11); (1,10,1,11)]%Z;
     ts_evals := []; ts_same := []; ts_decls := []; ts_parents := [] |}.
Example DefaultAST_RunOnObjC_holds : nth_violation defaultASTRule DefaultAST_RunOnObjC 0 = Some (1, 1, 1, 11, $"")%Z.
Proof. vm_compute. reflexivity. Qed.

Definition COnlyAST_RunOnC : testcase :=
  {| ts_lang := LC; ts_path := $"input.c"; ts_code := [];
     ts_comments := []; ts_conf := [];
     ts_tops := [(toplevel 0 (TFunction false), (Node 0 [] (FunctionDecl {| f_name := $"a"; f_method := None; f_isDefinition := true; f_bodyLines := (1)%Z |} [] (Some (Node 1 [] (CompoundStmt []))))))];
     ts_locs := [(1,1,1,11); (1,10,1,11)]%Z;
     ts_evals := []; ts_same := []; ts_decls := []; ts_parents := [] |}.
Example COnlyAST_RunOnC_holds : nth_violation (languageSelectionASTRule (LANG_C)%N) COnlyAST_RunOnC 0 = Some (1, 1, 1, 11, $"")%Z.
Proof. vm_compute. reflexivity. Qed.

Definition COnlyAST_RunOnCXX : testcase :=
  {| ts_lang := LCXX; ts_path := $"input.cpp"; ts_code := [];
     ts_comments := []; ts_conf := [];
     ts_tops := [(toplevel 0 (TFunction false), (Node 0 [] (FunctionDecl {| f_name := $"a"; f_method := None; f_isDefinition := true; f_bodyLines := (1)%Z |} [] (Some (Node 1 [] (CompoundStmt []))))))];
     ts_locs := [(1,1,1,11); (1,10,1,11)]%Z;
     ts_evals := []; ts_same := []; ts_decls := []; ts_parents := [] |}.
Example COnlyAST_RunOnCXX_holds : sorted_violations_of (languageSelectionASTRule (LANG_C)%N) COnlyAST_RunOnCXX = Some [].
Proof. vm_compute. reflexivity. Qed.

Definition COnlyAST_RunOnCXX11 : testcase :=
  {| ts_lang := LCXX; ts_path := $"input.cpp"; ts_code := [];
     ts_comments := []; ts_conf := [];
     ts_tops := [(toplevel 0 (TFunction false), (Node 0 [] (FunctionDecl {| f_name := $"a"; f_method := None; f_isDefinition := true; f_bodyLines := (1)%Z |} [] (Some (Node 1 [] (CompoundStmt []))))))];
     ts_locs := [(1,1,1,11); (1,10,1,11)]%Z;
     ts_evals := []; ts_same := []; ts_decls := []; ts_parents := [] |}.
Example COnlyAST_RunOnCXX11_holds : sorted_violations_of (languageSelectionASTRule (LANG_C)%N) COnlyAST_RunOnCXX11 = Some [].
Proof. vm_compute. reflexivity. Qed.

Definition COnlyAST_RunOnObjC : testcase :=
  {| ts_lang := LObjC; ts_path := $"input.m"; ts_code := [];
     ts_comments := []; ts_conf := [];
     ts_tops := [(toplevel 0 (TFunction false), (Node 0 [] (FunctionDecl {| f_name := $"a"; f_method := None; f_isDefinition := true; f_bodyLines := (1)%Z |} [] (Some (Node 1 [] (CompoundStmt []))))))];
     ts_locs := [(1,1,1,11); (1,10,1,11)]%Z;
     ts_evals := []; ts_same := []; ts_decls := []; ts_parents := [] |}.
Example COnlyAST_RunOnObjC_holds : sorted_violations_of (languageSelectionASTRule (LANG_C)%N) COnlyAST_RunOnObjC = Some [].
Proof. vm_compute. reflexivity. Qed.

Definition CXXOnlyAST_RunOnC : testcase :=
  {| ts_lang := LC; ts_path := $"input.c"; ts_code := [];
     ts_comments := []; ts_conf := [];
     ts_tops := [(toplevel 0 (TFunction false), (Node 0 [] (FunctionDecl {| f_name := $"a"; f_method := None; f_isDefinition := true; f_bodyLines := (1)%Z |} [] (Some (Node 1 [] (CompoundStmt []))))))];
     ts_locs := [(1,1,1,11); (1,10,1,11)]%Z;
     ts_evals := []; ts_same := []; ts_decls := []; ts_parents := [] |}.
Example CXXOnlyAST_RunOnC_holds : sorted_violations_of (languageSelectionASTRule (LANG_CXX)%N) CXXOnlyAST_RunOnC = Some [].
Proof. vm_compute. reflexivity. Qed.

Definition CXXOnlyAST_RunOnCXX : testcase :=
  {| ts_lang := LCXX; ts_path := $"input.cpp"; ts_code := [];
     ts_comments := []; ts_conf := [];
     ts_tops := [(toplevel 0 (TFunction false), (Node 0 [] (FunctionDecl {| f_name := $"a"; f_method := None; f_isDefinition := true; f_bodyLines := (1)%Z |} [] (Some (Node 1 [] (CompoundStmt []))))))];
     ts_locs := [(1,1,1,11); (1,10,1,11)]%Z;
     ts_evals := []; ts_same := []; ts_decls := []; ts_parents := [] |}.
Example CXXOnlyAST_RunOnCXX_holds : nth_violation (languageSelectionASTRule (LANG_CXX)%N) CXXOnlyAST_RunOnCXX 0 = Some (1, 1, 1, 11, $"")%Z.
Proof. vm_compute. reflexivity. Qed.

Definition CXXOnlyAST_RunOnCXX11 : testcase :=
  {| ts_lang := LCXX; ts_path := $"input.cpp"; ts_code := [];
     ts_comments := []; ts_conf := [];
     ts_tops := [(toplevel 0 (TFunction false), (Node 0 [] (FunctionDecl {| f_name := $"a"; f_method := None; f_isDefinition := true; f_bodyLines := (1)%Z |} [] (Some (Node 1 [] (CompoundStmt []))))))];
     ts_locs := [(1,1,1,11); (1,10,1,11)]%Z;
     ts_evals := []; ts_same := []; ts_decls := []; ts_parents := [] |}.
Example CXXOnlyAST_RunOnCXX11_holds : nth_violation (languageSelectionASTRule (LANG_CXX)%N) CXXOnlyAST_RunOnCXX11 0 = Some (1, 1, 1, 11, $"")%Z.
Proof. vm_compute. reflexivity. Qed.

Definition CXXOnlyAST_RunOnObjC : testcase :=
  {| ts_lang := LObjC; ts_path := $"input.m"; ts_code := [];
     ts_comments := []; ts_conf := [];
     ts_tops := [(toplevel 0 (TFunction false), (Node 0 [] (FunctionDecl {| f_name := $"a"; f_method := None; f_isDefinition := true; f_bodyLines := (1)%Z |} [] (Some (Node 1 [] (CompoundStmt []))))))];
     ts_locs := [(1,1,1,11); (1,10,1,11)]%Z;
     ts_evals := []; ts_same := []; ts_decls := []; ts_parents := [] |}.
Example CXXOnlyAST_RunOnObjC_holds : sorted_violations_of (languageSelectionASTRule (LANG_CXX)%N) CXXOnlyAST_RunOnObjC = Some [].
Proof. vm_compute. reflexivity. Qed.

Definition ObjCOnlyAST_RunOnC : testcase :=
  {| ts_lang := LC; ts_path := $"input.c"; ts_code := [];
     ts_comments := []; ts_conf := [];
     ts_tops := [(toplevel 0 (TFunction false), (Node 0 [] (FunctionDecl {| f_name := $"a"; f_method := None; f_isDefinition := true; f_bodyLines := (1)%Z |} [] (Some (Node 1 [] (CompoundStmt []))))))];
     ts_locs := [(1,1,1,11); (1,10,1,11)]%Z;
     ts_evals := []; ts_same := []; ts_decls := []; ts_parents := [] |}.
Example ObjCOnlyAST_RunOnC_holds : sorted_violations_of (languageSelectionASTRule (LANG_OBJC)%N) ObjCOnlyAST_RunOnC = Some [].
Proof. vm_compute. reflexivity. Qed.

Definition ObjCOnlyAST_RunOnCXX : testcase :=
  {| ts_lang := LCXX; ts_path := $"input.cpp"; ts_code := [];
     ts_comments := []; ts_conf := [];
     ts_tops := [(toplevel 0 (TFunction false), (Node 0 [] (FunctionDecl {| f_name := $"a"; f_method := None; f_isDefinition := true; f_bodyLines := (1)%Z |} [] (Some (Node 1 [] (CompoundStmt []))))))];
     ts_locs := [(1,1,1,11); (1,10,1,11)]%Z;
     ts_evals := []; ts_same := []; ts_decls := []; ts_parents := [] |}.
Example ObjCOnlyAST_RunOnCXX_holds : sorted_violations_of (languageSelectionASTRule (LANG_OBJC)%N) ObjCOnlyAST_RunOnCXX = Some [].
Proof. vm_compute. reflexivity. Qed.

Definition ObjCOnlyAST_RunOnCXX11 : testcase :=
  {| ts_lang := LCXX; ts_path := $"input.cpp"; ts_code := [];
     ts_comments := []; ts_conf := [];
     ts_tops := [(toplevel 0 (TFunction false), (Node 0 [] (FunctionDecl {| f_name := $"a"; f_method := None; f_isDefinition := true; f_bodyLines := (1)%Z |} [] (Some (Node 1 [] (CompoundStmt []))))))];
     ts_locs := [(1,1,1,11); (1,10,1,11)]%Z;
     ts_evals := []; ts_same := []; ts_decls := []; ts_parents := [] |}.
Example ObjCOnlyAST_RunOnCXX11_holds : sorted_violations_of (languageSelectionASTRule (LANG_OBJC)%N) ObjCOnlyAST_RunOnCXX11 = Some [].
Proof. vm_compute. reflexivity. Qed.

Definition ObjCOnlyAST_RunOnObjC : testcase :=
  {| ts_lang := LObjC; ts_path := $"input.m"; ts_code := [];
     ts_comments := []; ts_conf := [];
     ts_tops := [(toplevel 0 (TFunction false), (Node 0 [] (FunctionDecl {| f_name := $"a"; f_method := None; f_isDefinition := true; f_bodyLines := (1)%Z |} [] (Some (Node 1 [] (CompoundStmt []))))))];
     ts_locs := [(1,1,1,11); (1,10,1,11)]%Z;
     ts_evals := []; ts_same := []; ts_decls := []; ts_parents := [] |}.
Example ObjCOnlyAST_RunOnObjC_holds : nth_violation (languageSelectionASTRule (LANG_OBJC)%N) ObjCOnlyAST_RunOnObjC 0 = Some (1, 1, 1, 11, $"")%Z.
Proof. vm_compute. reflexivity. Qed.

Definition MultipleLanguagesSupportAST_RunOnC : testcase :=
  {| ts_lang := LC; ts_path := $"input.c"; ts_code := [];
     ts_comments := []; ts_conf := [];
     ts_tops := [(toplevel 0 (TFunction false), (Node 0 [] (FunctionDecl {| f_name := $"a"; f_method := None; f_isDefinition := true; f_bodyLines := (1)%Z |} [] (Some (Node 1 [] (CompoundStmt []))))))];
     ts_locs := [(1,1,1,11); (1,10,1,11)]%Z;
     ts_evals := []; ts_same := []; ts_decls := []; ts_parents := [] |}.
Example MultipleLanguagesSupportAST_RunOnC_holds : nth_violation (languageSelectionASTRule (LANG_C + LANG_OBJC)%N) MultipleLanguagesSupportAST_RunOnC 0 = Some (1, 1, 1, 11, $"")%Z.
Proof. vm_compute. reflexivity. Qed.

Definition MultipleLanguagesSupportAST_RunOnCXX : testcase :=
  {| ts_lang := LCXX; ts_path := $"input.cpp"; ts_code := [];
     ts_comments := []; ts_conf := [];
     ts_tops := [(toplevel 0 (TFunction false), (Node 0 [] (FunctionDecl {| f_name := $"a"; f_method := None; f_isDefinition := true; f_bodyLines := (1)%Z |} [] (Some (Node 1 [] (CompoundStmt []))))))];
     ts_locs := [(1,1,1,11); (1,10,1,11)]%Z;
     ts_evals := []; ts_same := []; ts_decls := []; ts_parents := [] |}.
Example MultipleLanguagesSupportAST_RunOnCXX_holds : sorted_violations_of (languageSelectionASTRule (LANG_C + LANG_OBJC)%N) MultipleLanguagesSupportAST_RunOnCXX = Some [].
Proof. vm_compute. reflexivity. Qed.

Definition MultipleLanguagesSupportAST_RunOnCXX11 : testcase :=
  {| ts_lang := LCXX; ts_path := $"input.cpp"; ts_code := [];
     ts_comments := []; ts_conf := [];
     ts_tops := [(toplevel 0 (TFunction false), (Node 0 [] (FunctionDecl {| f_name := $"a"; f_method := None; f_isDefinition := true; f_bodyLines := (1)%Z |} [] (Some (Node 1 [] (CompoundStmt []))))))];
     ts_locs := [(1,1,1,11); (1,10,1,11)]%Z;
     ts_evals := []; ts_same := []; ts_decls := []; ts_parents := [] |}.
Example MultipleLanguagesSupportAST_RunOnCXX11_holds : sorted_violations_of (languageSelectionASTRule (LANG_C + LANG_OBJC)%N) MultipleLanguagesSupportAST_RunOnCXX11 = Some [].
Proof. vm_compute. reflexivity. Qed.

Definition MultipleLanguagesSupportAST_RunOnObjC : testcase :=
  {| ts_lang := LObjC; ts_path := $"input.m"; ts_code := [];
     ts_comments := []; ts_conf := [];
     ts_tops := [(toplevel 0 (TFunction false), (Node 0 [] (FunctionDecl {| f_name := $"a"; f_method := None; f_isDefinition := true; f_bodyLines := (1)%Z |} [] (Some (Node 1 [] (CompoundStmt []))))))];
     ts_locs := [(1,1,1,11); (1,10,1,11)]%Z;
     ts_evals := []; ts_same := []; ts_decls := []; ts_parents := [] |}.
Example MultipleLanguagesSupportAST_RunOnObjC_holds : nth_violation (languageSelectionASTRule (LANG_C + LANG_OBJC)%N) MultipleLanguagesSupportAST_RunOnObjC 0 = Some (1, 1, 1, 11, $"")%Z.
Proof. vm_compute. reflexivity. Qed.

(** ** oclint-rules/test/abstract/MacroLocationTest.cpp *)

Definition DefaultAST_WithoutMacro : testcase :=
  {| ts_lang := LC; ts_path := $"input.c"; ts_code := [];
     ts_comments := []; ts_conf := [];
     ts_tops := [(toplevel 0 (TOther), (Node 0 [] (VarDecl {| v_isParm := false; v_name := $"a"; v_used := false; v_referenced := false; v_local := false; v_staticMember := false; v_private := false; v_unusedAttr := false; v_defaultArg := false; v_canonicalType := $"int"; v_inTemplate := false; v_contexts := [] |} (Some (Node 1 [] (BinaryOperator BO_Other (Node 2 [] (IntegerLiteral (1)%Z)) (Node 3 [] (IntegerLiteral (1)%Z))))))))];
     ts_locs := [(1,1,1,11); (1,9,1,11); (1,9,1,9); (1,11,1,11)]%Z;
     ts_evals := []; ts_same := []; ts_decls := []; ts_parents := [] |}.
Example DefaultAST_WithoutMacro_holds : nth_violation defaultASTRule2 DefaultAST_WithoutMacro 0 = Some (1, 9, 1, 11, $"")%Z.
Proof. vm_compute. reflexivity. Qed.

(** ** oclint-rules/test/abstract/TagBasedViolationTest.cpp *)

Definition FindAllCompoundStmt_NumberBasedViolation : testcase :=
  {| ts_lang := LC; ts_path := $"input.c"; ts_code := [];
     ts_comments := []; ts_conf := [];
     ts_tops := [(toplevel 0 (TFunction false), (Node 0 [] (FunctionDecl {| f_name := $"a"; f_method := None; f_isDefinition := true; f_bodyLines := (1)%Z |} [] (Some (Node 1 [] (CompoundStmt []))))))];
     ts_locs := [(1,1,1,11); (1,10,1,11)]%Z;
     ts_evals := []; ts_same := []; ts_decls := []; ts_parents := [] |}.
Example FindAllCompoundStmt_NumberBasedViolation_holds : nth_violation findAllCompoundStmtRule FindAllCompoundStmt_NumberBasedViolation 0 = Some (1, 10, 1, 11, $"1")%Z.
Proof. vm_compute. reflexivity. Qed.

Definition FindAllCompoundStmt_OneSingleTagBasedViolation : testcase :=
  {| ts_lang := LC; ts_path := $"input.c"; ts_code := [];
     ts_comments := []; ts_conf := [];
     ts_tops := [(toplevel 0 (TFunction false), (Node 0 [] (FunctionDecl {| f_name := $"a"; f_method := None; f_isDefinition := true; f_bodyLines := (1)%Z |} [] (Some (Node 1 [] (CompoundStmt []))))))];
     ts_locs := [(1,1,1,11); (1,10,1,11)]%Z;
     ts_evals := []; ts_same := []; ts_decls := []; ts_parents := [] |}.
Example FindAllCompoundStmt_OneSingleTagBasedViolation_holds : sorted_violations_of findAllCompoundStmtRule FindAllCompoundStmt_OneSingleTagBasedViolation = Some [(1, 10, 1, 11, $"1")%Z].
Proof. vm_compute. reflexivity. Qed.

Definition FindAllCompoundStmt_NestedViolations : testcase :=
  {| ts_lang := LC; ts_path := $"input.c"; ts_code := [];
     ts_comments := []; ts_conf := [];
     ts_tops := [(toplevel 0 (TFunction false), (Node 0 [] (FunctionDecl {| f_name := $"a"; f_method := None; f_isDefinition := true; f_bodyLines := (1)%Z |} [] (Some (Node 1 [] (CompoundStmt [(Node 2 [] (CompoundStmt []))]))))))];
     ts_locs := [(1,1,1,13); (1,10,1,13); (1,11,1,12)]%Z;
     ts_evals := []; ts_same := []; ts_decls := []; ts_parents := [] |}.
Example FindAllCompoundStmt_NestedViolations_holds : sorted_violations_of findAllCompoundStmtRule FindAllCompoundStmt_NestedViolations = Some [(1, 10, 1, 13, $"1")%Z; (1, 11, 1, 12, $"2")%Z].
Proof. vm_compute. reflexivity. Qed.

Definition FindAllCompoundStmt_ParallelViolations : testcase :=
  {| ts_lang := LC; ts_path := $"input.c"; ts_code := [];
     ts_comments := []; ts_conf := [];
     ts_tops := [(toplevel 0 (TFunction false), (Node 0 [] (FunctionDecl {| f_name := $"a"; f_method := None; f_isDefinition := true; f_bodyLines := (1)%Z |} [] (Some (Node 1 [] (CompoundStmt [(Node 2 [] (CompoundStmt [])); (Node 3 [] (CompoundStmt []))]))))))];
     ts_locs := [(1,1,1,15); (1,10,1,15); (1,11,1,12); (1,13,1,14)]%Z;
     ts_evals := []; ts_same := []; ts_decls := []; ts_parents := [] |}.
Example FindAllCompoundStmt_ParallelViolations_holds : sorted_violations_of findAllCompoundStmtRule FindAllCompoundStmt_ParallelViolations = Some [(1, 10, 1, 15, $"1")%Z; (1, 11, 1, 12, $"2")%Z; (1, 13, 1, 14, $"3")%Z].
Proof. vm_compute. reflexivity. Qed.

