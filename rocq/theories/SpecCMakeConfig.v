(** * Specification for C147: how everything is compiled *)
From Verif Require Import Base ModelScaffold ModelCMake ModelCMakeConfig SpecCMake.

Definition text (given : variables) (k : str) : str := match given k with Some x => x | None => [] end.
Definition asks (given : variables) (k : str) (b : bool) : Prop := if b then on given k else off given k.
(** LLVM's own configuration leaves these alone. *)
Definition leaves (e : surroundings) (l : list str) : Prop := forall k v w, In k l -> e_llvm e v = Some w -> w k = v k.
Definition says_clang (id : str) (b : bool) : Prop := if b then exists x y, id = x ++ $"Clang" ++ y else forall x y, id <> x ++ $"Clang" ++ y.

(** For the compiler. *)
Definition compiler_flags (doc release clang apple : bool) (given : variables) : str :=
  (if doc then $"-DDOCGEN " else []) ++ (if release then $"-O3 -DNDEBUG " else $"-O0 -g ")
  ++ $"-std=c++17 " ++ text given $"CMAKE_CXX_LINKER_FLAGS" ++ $" -fno-rtti -fPIC "
  ++ (if clang then $"-fcolor-diagnostics" else text given $"CMAKE_CXX_FLAGS")
  ++ (if apple then $" -fvisibility-inlines-hidden" else []).
(** For the linker. *)
Definition linker_flags (release : bool) (given : variables) : str :=
  (if release then $"-s " else $"-g ") ++ text given $"CMAKE_CXX_LINKER_FLAGS" ++ $" -fno-rtti".
(** Where libraries are looked for at run time: relative to the program. *)
Definition library_path (apple unix : bool) (given : variables) : option str :=
  if apple then Some $"@executable_path/../lib" else if unix then Some $"$ORIGIN/../lib" else given $"CMAKE_INSTALL_RPATH".
