(** * Which rules look at which languages, by public name *)
From Verif Require Import Base ModelSource SpecSource.

Definition objc_rules : list str :=
  [$"broken nil check"; $"misplaced nil check"; $"throw exception from finally block"; $"missing hash method";
   $"missing call to base method"; $"calling protected method"; $"missing abstract method implementation";
   $"use boxed expression"; $"use container literal"; $"use number literal"; $"use object subscripting";
   $"redundant nil check"].
Definition cxx_rules : list str :=
  [$"base class destructor should be virtual or protected"; $"destructor of virtual class";
   $"avoid default arguments on virtual methods"; $"unnecessary null check for dealloc"].
Definition c_cxx_rules : list str := [$"broken null check"; $"misplaced null check"].
Definition meant_for (name : str) (l : language) : Prop :=
  (In name objc_rules -> l = ObjC) /\ (In name cxx_rules -> l = Cxx) /\ (In name c_cxx_rules -> l <> ObjC).
(** In CUDA units the code is told apart instead. *)
Definition kernel_only (name : str) : Prop := name = $"branch divergence".
Definition kernels_too (name : str) : Prop := kernel_only name \/ name = $"high cyclomatic complexity".
