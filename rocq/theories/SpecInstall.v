(** * Specification vocabulary for installations: file systems and names in them *)
From Verif Require Import Base ModelConfig ModelFilter ModelOptions ModelMain SpecResults.

Inductive entry :=
| Directory
| Regular (executable : bool) (content : str)
| Symlink (target : str).
(** A file system: what the names lead to, counted from the root; the root itself is []. *)
Definition filesystem := list str -> option entry.

(** The names in a path: its parts between slashes, except empty ones and ".". *)
Fixpoint parts (p : str) : list str :=
  match p with
  | [] => [[]]
  | c :: p' => if ascii_eqb c "/"%char then [] :: parts p'
               else match parts p' with l :: ls => (c :: l) :: ls | [] => [[c]] end
  end.
Definition is_name (n : str) : bool := negb (is_nil n) && negb (str_eqb n $".").
Definition names (p : str) : list str := filter is_name (parts p).
Definition absolute (p : str) : bool := match p with c :: _ => ascii_eqb c "/"%char | [] => false end.

(** From the directory [d] the names [ns] lead to [t]: ".." goes up, links are followed. *)
Inductive leads (fs : filesystem) : list str -> list str -> list str -> Prop :=
| l_here : forall d, leads fs d [] d
| l_up : forall d ns t, leads fs (removelast d) ns t -> leads fs d ($".." :: ns) t
| l_down : forall d n ns t, n <> $".." -> fs (d ++ [n]) = Some Directory -> leads fs (d ++ [n]) ns t ->
    leads fs d (n :: ns) t
| l_file : forall d n x c, n <> $".." -> fs (d ++ [n]) = Some (Regular x c) -> leads fs d [n] (d ++ [n])
| l_link : forall d n to ns t, n <> $".." -> fs (d ++ [n]) = Some (Symlink to) ->
    leads fs (if absolute to then [] else d) (names to ++ ns) t -> leads fs d (n :: ns) t.
(** In a process whose current directory is [cwd], the path [p] names [t]. *)
Definition opens (fs : filesystem) (cwd : list str) (p : str) (t : list str) : Prop :=
  p <> [] /\ leads fs (if absolute p then [] else cwd) (names p) t.
Definition is_directory (fs : filesystem) (t : list str) : Prop := t = [] \/ fs t = Some Directory.
(** A path to a program that can be executed. *)
Definition runnable (fs : filesystem) (cwd : list str) (p : str) : Prop :=
  exists t c, opens fs cwd p t /\ fs t = Some (Regular true c).

(** The path executed when the user types [a]: [a] itself if it has a slash, else the first
    executable file of that name in the directories of PATH ([] is the current directory). *)
Definition in_directory (d n : str) : str := if is_nil d then $"./" ++ n else d ++ $"/" ++ n.
Inductive executed (fs : filesystem) (cwd : list str) (PATH : list str) (a : str) : str -> Prop :=
| by_path : In "/"%char a -> runnable fs cwd a -> executed fs cwd PATH a a
| by_name : forall before d after, ~ In "/"%char a -> PATH = before ++ d :: after ->
    (forall e, In e before -> ~ runnable fs cwd (in_directory e a)) -> runnable fs cwd (in_directory d a) ->
    executed fs cwd PATH a (in_directory d a).
(** [f] names something in the directory [dir]. *)
Definition lies_in (f dir : str) : Prop :=
  exists n, n <> [] /\ ~ In "/"%char n /\ (f = dir ++ $"/" ++ n /\ dir <> [] \/ f = $"/" ++ n /\ dir = $"/").

(** ** What the loaders see of a file system *)
Definition lists_directories (fs : filesystem) (cwd : list str) (w : world) : Prop :=
  forall p, match w_list w p with
  | Some es => exists t, opens fs cwd p t /\ is_directory fs t
                 /\ forall n, In n es <-> n = $"." \/ n = $".." \/ fs (t ++ [n]) <> None
  | None => forall t, opens fs cwd p t -> ~ is_directory fs t
  end.
(** [lib]: the rules that a library of the given contents registers. *)
Definition opens_libraries (fs : filesystem) (cwd : list str) (lib : str -> option (list nat)) (w : world) : Prop :=
  forall p, match w_rulelib w p with
  | Some rs => exists t x c, opens fs cwd p t /\ fs t = Some (Regular x c) /\ lib c = Some rs
  | None => forall t x c, opens fs cwd p t -> fs t = Some (Regular x c) -> lib c = None
  end.
(** Names of a directory are neither empty nor "." or "..", and contain no slash. *)
Definition sane (fs : filesystem) : Prop :=
  forall d n e, fs (d ++ [n]) = Some e -> is_name n = true /\ n <> $".." /\ ~ In "/"%char n.
