(** * Specification vocabulary for bundling *)
From Verif Require Import Base SpecInstall.

(** Like [leads], through at most [k] symbolic links. *)
Inductive within (fs : filesystem) : nat -> list str -> list str -> list str -> Prop :=
| w_here : forall k d, within fs k d [] d
| w_up : forall k d ns t, within fs k (removelast d) ns t -> within fs k d ($".." :: ns) t
| w_down : forall k d n ns t, n <> $".." -> fs (d ++ [n]) = Some Directory -> within fs k (d ++ [n]) ns t ->
    within fs k d (n :: ns) t
| w_file : forall k d n x c, n <> $".." -> fs (d ++ [n]) = Some (Regular x c) -> within fs k d [n] (d ++ [n])
| w_link : forall k d n to ns t, n <> $".." -> fs (d ++ [n]) = Some (Symlink to) ->
    within fs k (if absolute to then [] else d) (names to ++ ns) t -> within fs (S k) d (n :: ns) t.
(** The system gives up after forty. *)
Definition reaches (fs : filesystem) (ns t : list str) : Prop := within fs 40 [] ns t.
(** [e], a file or directory, is at [t]. *)
Definition holds (fs : filesystem) (t : list str) (e : entry) : Prop := t = [] /\ e = Directory \/ t <> [] /\ fs t = Some e.
(** Under the name [r] the tree at [src] shows [e]. *)
Definition shows (fs : filesystem) (src r : list str) (e : entry) : Prop :=
  ~ In $".." r /\ exists t, reaches fs (src ++ r) t /\ holds fs t e.

(** [q] is one of the places [ts] or below one. *)
Definition below (t q : list str) : Prop := exists r, q = t ++ r.
Definition off (ts : list (list str)) (q : list str) : Prop := forall t, In t ts -> ~ below t q.
(** The two differ at and below [ts] at most. *)
Definition same_off (ts : list (list str)) (fs fs' : filesystem) : Prop := forall q, off ts q -> fs' q = fs q.
(** Neither the way to [t] nor the tree [src] depends on what is at or below [ts]. *)
Definition way (fs : filesystem) (ts : list (list str)) (ns t : list str) : Prop :=
  off ts t /\ is_directory fs t /\ forall fs', same_off ts fs fs' -> reaches fs' ns t.
Definition independent (fs : filesystem) (ts : list (list str)) (src : list str) : Prop :=
  forall fs', same_off ts fs fs' -> forall r e, shows fs' src r e <-> shows fs src r e.

(** [a] is the first [k] lines of [c]. *)
Inductive head_lines : nat -> str -> str -> Prop :=
| h_none : forall c, head_lines 0 c []
| h_end : forall k, head_lines (S k) [] []
| h_last : forall k l, l <> [] -> ~ In NL l -> head_lines (S k) l l
| h_line : forall k l c a, ~ In NL l -> head_lines k c a -> head_lines (S k) (l ++ NL :: c) (l ++ NL :: a).

(** ** What belongs into a bundle *)
Record kind := {
  k_root : list str;      (* the names of the checkout *)
  k_llvm : list str;      (* the names of the LLVM installation *)
  k_docgen : bool;        (* for generating the documentation only *)
  k_dev : option str;     (* the development version it also answers to *)
  k_mac : bool;           (* made on macOS *)
  k_intel : bool
}.
(** What [uname] answers begins, in small letters, with [a]. *)
Definition small (c : ascii) : ascii :=
  if ("A" <=? c)%char && (c <=? "Z")%char then ascii_of_nat (nat_of_ascii c + 32) else c.
Definition answers (a uname : str) : Prop := exists rest, map small uname = a ++ rest.
Definition built (k : kind) (rest : list str) : list str := k_root k ++ $"build" :: rest.
Definition full (k : kind) : Prop := k_docgen k = false.
Section Contents.
Variable fs : filesystem.
Variable k : kind.
(** The text of the licence of LLVM, if there is one: that of the installation, else that of the
    sources. *)
Inductive llvm_licence : option str -> Prop :=
| ll_installed : forall x c, shows fs (k_llvm k ++ [$"LICENSE.TXT"]) [] (Regular x c) -> llvm_licence (Some c)
| ll_sources : forall x c, (forall e, ~ shows fs (k_llvm k ++ [$"LICENSE.TXT"]) [] e) ->
    shows fs (k_root k ++ [$"llvm"; $"LICENSE.TXT"]) [] (Regular x c) -> llvm_licence (Some c)
| ll_none : (forall e, ~ shows fs (k_llvm k ++ [$"LICENSE.TXT"]) [] e) ->
    (forall e, ~ shows fs (k_root k ++ [$"llvm"; $"LICENSE.TXT"]) [] e) -> llvm_licence None.
(** The scripts that come along when they are there. *)
Inductive script : str -> entry -> Prop :=
| s_json : forall x c, full k ->
    shows fs (k_root k ++ [$"oclint-json-compilation-database"; $"oclint-json-compilation-database"]) [] (Regular x c) ->
    script $"oclint-json-compilation-database" (Regular x c)
| s_xcode : forall x c, full k -> k_mac k = true ->
    shows fs (k_root k ++ [$"oclint-xcodebuild"; $"oclint-xcodebuild"]) [] (Regular x c) ->
    script $"oclint-xcodebuild" (Regular x c).
Inductive belongs : list str -> entry -> Prop :=
| b_itself : belongs [] Directory
| b_licence : forall x own, shows fs (k_root k ++ [$"LICENSE"]) [] (Regular x own) -> llvm_licence None ->
    belongs [$"LICENSE"] (Regular false own)
| b_licences : forall x own c a, shows fs (k_root k ++ [$"LICENSE"]) [] (Regular x own) -> llvm_licence (Some c) ->
    head_lines 44 c a -> belongs [$"LICENSE"] (Regular false (own ++ NL :: a))
| b_programs : forall r e, shows fs (built k [$"oclint-driver"; $"bin"]) r e ->
    (forall n e', script n e' -> r <> [n]) -> belongs ($"bin" :: r) e
| b_name : belongs [$"bin"; $"oclint"] (Symlink $"oclint-26.02")
| b_dev_name : forall v, k_dev k = Some v -> belongs [$"bin"; $"oclint-" ++ v] (Symlink $"oclint-26.02")
| b_script : forall n e, script n e -> belongs [$"bin"; n] e
| b_lib : belongs [$"lib"] Directory
| b_lib_oclint : belongs [$"lib"; $"oclint"] Directory
| b_rules : forall r e, shows fs (built k [$"oclint-rules"; $"rules.dl"]) r e -> belongs ($"lib" :: $"oclint" :: $"rules" :: r) e
| b_reporters : forall r e, full k -> shows fs (built k [$"oclint-reporters"; $"reporters.dl"]) r e ->
    belongs ($"lib" :: $"oclint" :: $"reporters" :: r) e
| b_headers : forall r e, full k -> shows fs (k_llvm k ++ [$"lib"; $"clang"]) r e -> belongs ($"lib" :: $"clang" :: r) e
| b_include : full k -> k_mac k = true -> k_intel k = true -> belongs [$"include"] Directory
| b_cxx : forall r e, full k -> k_mac k = true -> k_intel k = true -> shows fs (k_llvm k ++ [$"include"; $"c++"]) r e ->
    belongs ($"include" :: $"c++" :: r) e.
End Contents.
(** All that is read. *)
Definition sources (k : kind) : list (list str) :=
  [k_root k ++ [$"LICENSE"]; k_llvm k ++ [$"LICENSE.TXT"]; k_root k ++ [$"llvm"; $"LICENSE.TXT"];
   built k [$"oclint-driver"; $"bin"]; built k [$"oclint-rules"; $"rules.dl"]; built k [$"oclint-reporters"; $"reporters.dl"];
   k_llvm k ++ [$"lib"; $"clang"]; k_llvm k ++ [$"include"; $"c++"];
   k_root k ++ [$"oclint-json-compilation-database"; $"oclint-json-compilation-database"];
   k_root k ++ [$"oclint-xcodebuild"; $"oclint-xcodebuild"]].
