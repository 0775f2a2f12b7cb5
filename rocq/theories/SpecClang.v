(** * What fetching LLVM is to leave, said without the script *)
From Coq Require Import Permutation.
From Verif Require Import Base ModelClang.

(** Every path has one entry, and the parents of an entry are directories. *)
Definition real_tree (t : tree) : Prop :=
  NoDup (map fst t) /\ forall p n e, In (p ++ [n], e) t -> p = [] \/ In (p, Dir) t.

(** The static libraries of LLVM and clang. *)
Definition library (n : str) : Prop := exists m, n = $"libclang" ++ m ++ $".a" \/ n = $"libLLVM" ++ m ++ $".a".
Definition at_lib (n : str) : list str := [$"lib"; n].
Definition backup_of (n : str) : list str := [$"lib"; n ++ $".bc_backup"].

(** What runs a kernel or machine of that name, in any case of letters. *)
Definition lower (c : ascii) : ascii :=
  match find (fun uc => Ascii.eqb (fst uc) c)
    (combine (list_ascii_of_string "ABCDEFGHIJKLMNOPQRSTUVWXYZ") (list_ascii_of_string "abcdefghijklmnopqrstuvwxyz")) with
  | Some (_, l) => l
  | None => c
  end.
Definition begins (a t : str) : Prop := exists r, map lower t = a ++ r.
Definition has (a t : str) : Prop := exists l r, map lower t = l ++ a ++ r.
Definition mac (env : surroundings) : Prop := begins $"darwin" (c_kernel env).
Definition arm (env : surroundings) : Prop := begins $"aarch64" (c_arch env) \/ begins $"arm64" (c_arch env).

(** The llc that is used: the installed one, else that of the PATH, else on macOS that of Homebrew. *)
Definition llc_used (env : surroundings) (t : tree) (llc : str) : Prop :=
  (exists e, In ([$"bin"; $"llc"], e) t) /\ llc = c_root env ++ $"/build/llvm-install/bin/llc"
  \/ ~ (exists e, In ([$"bin"; $"llc"], e) t)
     /\ (c_which env = Some llc
         \/ c_which env = None /\ mac env
            /\ exists before after,
                 [$"/opt/homebrew/opt/llvm@21/bin/llc"; $"/opt/homebrew/opt/llvm/bin/llc";
                  $"/usr/local/opt/llvm@21/bin/llc"; $"/usr/local/opt/llvm/bin/llc"] = before ++ llc :: after
                 /\ c_elsewhere env llc = true /\ forall p, In p before -> c_elsewhere env p = false).

(** A member of a library is replaced by what llc made of it, or kept if llc made nothing of it. *)
Definition translates env llc (b b' : str) : Prop := exists k, c_llc env llc k b = (true, Some b').
Definition refuses env llc (b : str) : Prop := exists k, fst (c_llc env llc k b) = false \/ snd (c_llc env llc k b) = None.
Definition member_done env llc (m m' : str * str) : Prop :=
  fst m' = fst m /\ (translates env llc (snd m) (snd m') \/ snd m' = snd m /\ refuses env llc (snd m)).
(** The same members, in any order. *)
Definition same_members env llc (ms ms' : list (str * str)) : Prop :=
  exists l, Forall2 (member_done env llc) ms l /\ Permutation l ms'.

(** The members that survive unpacking and packing: of those of one name the last, if the name is
    that of an object and begins with no dot. *)
Definition object_name (n : str) : Prop := exists c r, n = c :: r ++ $".o" /\ c <> "."%char.
Definition kept (ms k : list (str * str)) : Prop :=
  NoDup (map fst k)
  /\ forall m, In m k <-> object_name (fst m) /\ exists before after, ms = before ++ m :: after /\ ~ In (fst m) (map fst after).
(** A library that was converted.  (Nothing is said of members with the names the script uses.) *)
Definition tame (ms : list (str * str)) : Prop := forall m, In m ms -> forall r, fst m <> r ++ $".native".
Definition conversion env t (ms ms' : list (str * str)) : Prop :=
  tame ms -> exists llc k, llc_used env t llc /\ kept ms k /\ same_members env llc k ms'.
(** Libraries of which nothing is lost. *)
Definition ordinary (ms : list (str * str)) : Prop :=
  NoDup (map fst ms) /\ forall m, In m ms -> object_name (fst m).

(** The tools work: every library is unpacked and packed, and every object is translated. *)
Definition tools_work (env : surroundings) : Prop :=
  forall k, c_ar_x env k = true /\ fst (fst (c_ar_r env k)) = true /\ forall llc b, exists b', c_llc env llc k b = (true, Some b').

(** Of the library [n] of [t1] nothing is lost in [t]: it is there as it was, or the backup is, or
    the converted library. *)
Definition not_lost env t1 t (n : str) : Prop :=
  forall e, In (at_lib n, e) t1 ->
    In (at_lib n, e) t \/ In (backup_of n, e) t
    \/ exists ms ms', e = Lib ms /\ In (at_lib n, Lib ms') t /\ conversion env t1 ms ms'.

(** What is removed on macOS. *)
Definition bundled_cxx (p : list str) : Prop :=
  (exists r, p = [$"lib"; $"libc++" ++ r] \/ p = [$"lib"; $"libunwind" ++ r])
  \/ (exists r, p = $"include" :: $"c++" :: r)
  \/ exists e r, p = $"include" :: e :: $"c++" :: r /\ (has $"apple" e \/ has $"darwin" e).
(** The paths that converting may change. *)
Definition touched (p : list str) : Prop := exists n, library n /\ (p = at_lib n \/ p = backup_of n).

(** What is downloaded and unpacked. *)
Definition release_file (env : surroundings) (f : str) : Prop :=
  mac env /\ f = $"LLVM-21.1.8-macOS-ARM64.tar.xz"
  \/ ~ mac env /\ arm env /\ f = $"LLVM-21.1.8-Linux-ARM64.tar.xz"
  \/ ~ mac env /\ ~ arm env /\ f = $"LLVM-21.1.8-Linux-X64.tar.xz".
Definition download (f : str) : str :=
  $"curl -L -o prebuilt.tar.xz https://github.com/llvm/llvm-project/releases/download/llvmorg-21.1.8/" ++ f.
Definition unpack (env : surroundings) : str :=
  $"tar xf prebuilt.tar.xz -C " ++ c_root env ++ $"/build/llvm-install --strip-components=1".

(** A run of the script in a directory where [t0] is installed. *)
Definition run (env : surroundings) (clean skip_convert : bool) (t0 : tree) : result unit * proc :=
  clang env clean skip_convert {| s_tree := t0; s_moments := []; s_ops := 0; s_calls := [] |}.
