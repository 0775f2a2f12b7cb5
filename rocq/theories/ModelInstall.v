(** * Model of oclint-driver: where the executable believes it is installed *)
From Verif Require Import Base ModelOptions.

(** ** The path functions of LLVM (llvm/lib/Support/Path.cpp, POSIX style) that
    Options.cpp:190-204 calls.  A leading "//" (a root name for LLVM) is taken as a plain root. *)
Definition is_slash (c : ascii) : bool := ascii_eqb c "/"%char.
Definition starts_slash (p : str) : bool := match p with c :: _ => is_slash c | [] => false end.
Definition ends_slash (p : str) : bool := starts_slash (rev p).
Fixpoint strip_leading (p : str) : str :=
  match p with c :: p' => if is_slash c then strip_leading p' else p | [] => [] end.
Definition strip_trailing (p : str) : str := rev (strip_leading (rev p)).
(** Start of the last component. *)
Definition filename_pos (p : str) : nat :=
  if ends_slash p then length p - 1
  else match rfind_char "/"%char p with Some i => S i | None => 0 end.
(** [path::filename]: "." behind a trailing slash, "/" for the root. *)
Definition filename (p : str) : str :=
  if ends_slash p then (if is_nil (strip_trailing p) then $"/" else $".")
  else skipn (filename_pos p) p.
(** [path::parent_path] *)
Definition parent_path (p : str) : str :=
  let d := strip_trailing (firstn (filename_pos p) p) in
  if is_nil d && starts_slash p && negb (ends_slash p) then $"/" else d.
(** [path::append] of one component *)
Definition path_append (d p : str) : str :=
  if is_nil d then p
  else if ends_slash d then d ++ strip_leading p
  else if starts_slash p then d ++ p
  else d ++ $"/" ++ p.
(** [fs::make_absolute]; without a current directory the path stays as it is. *)
Definition make_absolute (cwd : option str) (p : str) : str :=
  if starts_slash p then p else match cwd with Some d => path_append d p | None => p end.
(** [sys::findProgramByName] (llvm/lib/Support/Unix/Program.inc): the entries of PATH in order,
    empty ones skipped; [can_execute] answers for regular files with permission. *)
Fixpoint find_in_path (can_execute : str -> bool) (name : str) (dirs : list str) : option str :=
  match dirs with
  | [] => None
  | d :: dirs' =>
      if is_nil d then find_in_path can_execute name dirs'
      else if can_execute (path_append d name) then Some (path_append d name)
      else find_in_path can_execute name dirs'
  end.
Definition findProgramByName (can_execute : str -> bool) (dirs : list str) (name : str) : option str :=
  if existsb is_slash name then Some name else find_in_path can_execute name dirs.

(** Options.cpp:190-204.  [argv] is argv[0], [dirs] the entries of PATH. *)
Definition preserveExecutablePath (can_execute : str -> bool) (dirs : list str) (cwd : option str) (argv : str) : str :=
  let installedPath :=
    if str_eqb (filename argv) argv then
      match findProgramByName can_execute dirs (filename argv) with
      | Some intermediatePath => intermediatePath
      | None => argv
      end
    else argv in
  parent_path (make_absolute cwd installedPath).

(** Options.cpp:206-209: the environment of a process started as [argv].  [pwd]: the current
    directory as LLVM's [fs::current_path] gives it ($PWD when that names the current directory),
    [cwd]: as getcwd gives it (Options.cpp:181-188). *)
Definition started (can_execute : str -> bool) (dirs : list str) (pwd cwd home : option str) (argv : str) : penv :=
  {| en_cwd := cwd; en_home := home; en_bin := preserveExecutablePath can_execute dirs pwd argv |}.
