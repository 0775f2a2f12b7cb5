(** * Model of oclint-scripts/clang: fetching LLVM and making its libraries linkable

    The script unpacks a prebuilt LLVM, replaces the bitcode objects in its static libraries by
    native ones and, on macOS, removes its C++ library.  The directory it installs to is a list of
    its entries, by the names that lead to them; what the programs curl, tar, ar and llc do is given.
    Left out: [print]; the deletion of a directory tree is one step. *)
From Verif Require Import Base ModelScaffold.

(** What a path leads to: a directory, a static library, or some other file. *)
Inductive file := Dir | Plain (bytes : str) | Lib (members : list (str * str)).
Definition tree := list (list str * file).

Fixpoint path_eqb (a b : list str) : bool :=
  match a, b with
  | [], [] => true
  | x :: a', y :: b' => str_eqb x y && path_eqb a' b'
  | _, _ => false
  end.
(** [p] is [d] or below it. *)
Fixpoint under_dir (d p : list str) : bool :=
  match d, p with
  | [], _ => true
  | x :: d', y :: p' => str_eqb x y && under_dir d' p'
  | _, _ => false
  end.
Fixpoint get (t : tree) (p : list str) : option file :=
  match t with
  | [] => None
  | (q, e) :: t' => if path_eqb q p then Some e else get t' p
  end.
Definition drop (t : tree) (p : list str) : tree := filter (fun qe => negb (path_eqb (fst qe) p)) t.
Definition drop_tree (t : tree) (d : list str) : tree := filter (fun qe => negb (under_dir d (fst qe))) t.
Definition put (t : tree) (p : list str) (e : file) : tree := (p, e) :: drop t p.
Definition exists_ (t : tree) (p : list str) : bool := match get t p with Some _ => true | None => false end.
(** The names in a directory. *)
Fixpoint name_in (d p : list str) : option str :=
  match d, p with
  | [], [n] => Some n
  | x :: d', y :: p' => if str_eqb x y then name_in d' p' else None
  | _, _ => None
  end.
Definition listdir (t : tree) (d : list str) : list str :=
  flat_map (fun qe => match name_in d (fst qe) with Some n => [n] | None => [] end) t.

(** [glob] with one star in the pattern: the text before and after it.  A leading star matches no
    name that begins with a dot. *)
Definition ends_with (suffix n : str) : bool := prefixb (rev suffix) (rev n).
Definition glob_match (before after n : str) : bool :=
  prefixb before n && ends_with after (skipn (length before) n)
  && negb (is_nil before && prefixb $"." n).

(** The surroundings.  The n-th operation raises an exception if [c_raises] says so. *)
Record surroundings := {
  c_root : str;                                 (* path.root_dir *)
  c_kernel : str; c_arch : str;                 (* platform.uname() *)
  c_which : option str;                         (* shutil.which('llc') *)
  c_elsewhere : str -> bool;                    (* os.path.exists outside the installation *)
  c_raises : nat -> bool;
  c_curl : nat -> Z;                            (* return codes *)
  c_tar : nat -> tree -> Z * tree;              (* and what is in the directory then *)
  c_ar_x : nat -> bool;                         (* does [ar x] of a library succeed? *)
  c_llc : str -> nat -> str -> bool * option str;   (* llc, given an object: success; the file it wrote *)
  c_ar_r : nat -> bool * option str * option str    (* [ar r]: success; what is at the path meanwhile, and after a failure *)
}.
(** The script's process: the installation, what it was at each moment from the unpacking on, how
    many operations there were, and the commands run with [process.call]. *)
Record proc := { s_tree : tree; s_moments : list tree; s_ops : nat; s_calls : list str }.
Inductive result (A : Type) := Ok (a : A) | Exits (code : Z).
Arguments Ok {A} a. Arguments Exits {A} code.
Definition M (A : Type) : Type := proc -> result A * proc.
Definition ret {A} (a : A) : M A := fun s => (Ok a, s).
Definition bind {A B} (m : M A) (f : A -> M B) : M B :=
  fun s => match m s with (Ok a, s') => f a s' | (Exits c, s') => (Exits c, s') end.
Definition seq (m n : M unit) : M unit := bind m (fun _ => n).
Notation "m ;; n" := (seq m n) (at level 61, right associativity).
Notation "'do' x <- m ;; f" := (bind m (fun x => f)) (at level 61, x name, m at level 60, right associativity).
Definition when (b : bool) (m : M unit) : M unit := if b then m else ret tt.
(** An exception that nobody catches. *)
Definition raise {A} : M A := fun s => (Exits 1, s).
Definition installed : M tree := fun s => (Ok (s_tree s), s).
Fixpoint each {A} (l : list A) (f : A -> M unit) : M unit :=
  match l with [] => ret tt | a :: l' => f a;; each l' f end.

Section Script.
Variable env : surroundings.

(** One operation: its number, or an exception. *)
Definition operation : M nat :=
  fun s => let s' := {| s_tree := s_tree s; s_moments := s_moments s; s_ops := S (s_ops s); s_calls := s_calls s |} in
           if c_raises env (s_ops s) then (Exits 1, s') else (Ok (s_ops s), s').
(** The installation changes. *)
Definition becomes (t : tree) : M unit :=
  fun s => (Ok tt, {| s_tree := t; s_moments := s_moments s ++ [t]; s_ops := s_ops s; s_calls := s_calls s |}).
(** [os.rename] of a file *)
Definition rename (src dst : list str) : M unit :=
  do t <- installed;;
  match get t src, get t dst with
  | None, _ | Some Dir, _ | _, Some Dir => raise
  | Some e, _ => do _ <- operation;; becomes (put (drop t src) dst e)
  end.
(** [os.remove] *)
Definition remove (p : list str) : M unit :=
  do t <- installed;;
  match get t p with
  | None | Some Dir => raise
  | Some _ => do _ <- operation;; becomes (drop t p)
  end.
(** [shutil.rmtree] *)
Definition rmtree (p : list str) : M unit :=
  do t <- installed;;
  match get t p with
  | Some Dir => do _ <- operation;; becomes (drop_tree t p)
  | _ => raise
  end.
(** [glob.glob] in a directory of the installation *)
Definition glob (d : list str) (before after : str) : M (list str) :=
  do t <- installed;; ret (filter (glob_match before after) (listdir t d)).
(** oclintscripts/process.py:8-11 *)
Definition call (cmd : str) (k : nat -> Z) : M unit :=
  do n <- operation;;
  fun s => let s' := {| s_tree := s_tree s; s_moments := s_moments s; s_ops := s_ops s; s_calls := s_calls s ++ [cmd] |} in
           if (k n =? 0)%Z then (Ok tt, s') else (Exits (k n), s').

(** oclintscripts/environment.py:11-12, 17-18, 26-30 *)
Definition is_darwin : bool := prefixb $"darwin" (map tolower (c_kernel env)).
Definition is_aarch64_or_arm64 : bool :=
  prefixb $"aarch64" (map tolower (c_arch env)) || prefixb $"arm64" (map tolower (c_arch env)).

(** oclintscripts/path.py:9, 17-18, 42-43, 72-74 *)
Definition clang_build_dir : str := c_root env ++ $"/build/llvm".
Definition clang_install_dir : str := c_root env ++ $"/build/llvm-install".
Definition releases : str := $"https://github.com/llvm/llvm-project/releases/download/llvmorg-21.1.8/".
Definition clang_prebuilt_binary_for_macos_arm64 : str := releases ++ $"LLVM-21.1.8-macOS-ARM64.tar.xz".
Definition clang_prebuilt_binary_for_ubuntu_amd64 : str := releases ++ $"LLVM-21.1.8-Linux-X64.tar.xz".
Definition clang_prebuilt_binary_for_ubuntu_aarch64 : str := releases ++ $"LLVM-21.1.8-Linux-ARM64.tar.xz".

(** clang:26-36.  The temporary directory is a list of its files. *)
Definition tempdir := list (str * str).
Fixpoint tget (d : tempdir) (n : str) : option str :=
  match d with [] => None | (m, b) :: d' => if str_eqb m n then Some b else tget d' n end.
Definition tdrop (d : tempdir) (n : str) : tempdir := filter (fun mb => negb (str_eqb (fst mb) n)) d.
Definition tput (d : tempdir) (n b : str) : tempdir := (n, b) :: tdrop d n.
Definition try_convert_to_native (llc obj : str) (d : tempdir) : M (bool * tempdir) :=
  let native := obj ++ $".native" in
  do n <- operation;;
  let (ok, out) := c_llc env llc n (match tget d obj with Some b => b | None => [] end) in
  let d1 := match out with Some b => tput d native b | None => d end in
  match ok, tget d1 native with
  | true, Some b => do _ <- operation;; ret (true, tput (tdrop d1 native) obj b)
  | _, _ => ret (false, d1)
  end.

(** clang:38-63 *)
Definition homebrew_paths : list str :=
  [$"/opt/homebrew/opt/llvm@21/bin/llc"; $"/opt/homebrew/opt/llvm/bin/llc";
   $"/usr/local/opt/llvm@21/bin/llc"; $"/usr/local/opt/llvm/bin/llc"].
Definition find_llc (t : tree) : option str :=
  if exists_ t [$"bin"; $"llc"] then Some (clang_install_dir ++ $"/bin/llc")
  else match c_which env with
       | Some p => Some p
       | None => if is_darwin then find (c_elsewhere env) homebrew_paths else None
       end.

(** clang:85-103: the objects of one library, unpacked and converted; None: it was not unpacked *)
Fixpoint convert_objects (llc : str) (objs : list str) (d : tempdir) (converted : nat) : M (nat * tempdir) :=
  match objs with
  | [] => ret (converted, d)
  | o :: objs' => do r <- try_convert_to_native llc o d;;
                  convert_objects llc objs' (snd r) (if fst r then S converted else converted)
  end.
Definition objects (d : tempdir) : list str := filter (glob_match [] $".o") (map fst d).
(** [ar x]: a member overwrites an earlier one of its name. *)
Definition extract (members : list (str * str)) : tempdir := fold_left (fun d m => tput d (fst m) (snd m)) members [].
(** [ar r] of these objects to a path where nothing is *)
Definition archived (d : tempdir) (names : list str) : list (str * str) :=
  map (fun n => (n, match tget d n with Some b => b | None => [] end)) names.
Definition ar_r (lib : list str) (members : list (str * str)) : M bool :=
  do n <- operation;;
  do t <- installed;;
  let at_lib o := match o with Some b => put t lib (Plain b) | None => t end in
  let '(ok, meanwhile, remains) := c_ar_r env n in
  do _ <- becomes (at_lib meanwhile);;
  do _ <- becomes (if ok then put t lib (Lib members) else at_lib remains);;
  ret ok.
(** clang:84-119 *)
Definition convert_library (llc name : str) : M unit :=
  let lib := [$"lib"; name] in
  let backup := [$"lib"; name ++ $".bc_backup"] in
  do n <- operation;;
  do t <- installed;;
  match get t lib with
  | Some (Lib members) =>
      if c_ar_x env n then
        let d := extract members in
        do r <- convert_objects llc (objects d) d 0;;
        when (0 <? fst r)%nat
          (rename lib backup;;
           do ok <- ar_r lib (archived (snd r) (objects (snd r)));;
           if ok then remove backup else rename backup lib)
      else ret tt
  | _ => ret tt
  end.
(** clang:65-121 *)
Definition convert_bitcode_libraries : M unit :=
  do t <- installed;;
  match find_llc t with
  | None => ret tt
  | Some llc =>
      do l1 <- glob [$"lib"] $"libclang" $".a";;
      do l2 <- glob [$"lib"] $"libLLVM" $".a";;
      each (l1 ++ l2) (convert_library llc)
  end.

(** ['s' in entry.lower()] *)
Fixpoint contains (s t : str) : bool := prefixb s t || match t with [] => false | _ :: t' => contains s t' end.
(** clang:123-154 *)
Definition remove_bundled_libcxx_headers : M unit :=
  when is_darwin
    (do t <- installed;;
     when (exists_ t [$"include"; $"c++"]) (rmtree [$"include"; $"c++"]);;
     do t <- installed;;
     match get t [$"include"] with
     | Some Dir =>
         each (listdir t [$"include"]) (fun entry =>
           when (contains $"apple" (map tolower entry) || contains $"darwin" (map tolower entry))
             (do t <- installed;;
              when (exists_ t [$"include"; entry; $"c++"]) (rmtree [$"include"; entry; $"c++"])))
     | _ => raise
     end).
(** clang:156-175 *)
Definition remove_bundled_libcxx : M unit :=
  each [$"libc++"; $"libc++abi"; $"libunwind"] (fun before =>
    do l <- glob [$"lib"] before [];; each l (fun n => remove [$"lib"; n])).

(** clang:181-187 *)
Definition binary_url : str :=
  if is_darwin then clang_prebuilt_binary_for_macos_arm64
  else if is_aarch64_or_arm64 then clang_prebuilt_binary_for_ubuntu_aarch64
  else clang_prebuilt_binary_for_ubuntu_amd64.
(** An operation on other directories (path.mkdir_p, path.cd) *)
Definition elsewhere : M unit := do _ <- operation;; ret tt.
(** [tar]: what is unpacked is the first moment of the installation. *)
Definition tar : M unit :=
  do t <- installed;;
  do n <- (fun s => (Ok (s_ops s), s));;
  do _ <- call ($"tar xf prebuilt.tar.xz -C " ++ clang_install_dir ++ $" --strip-components=1") (fun n => fst (c_tar env n t));;
  becomes (snd (c_tar env n t)).
(** clang:177-206 *)
Definition setup_prebuilt_binary (skip_convert : bool) : M unit :=
  elsewhere;; elsewhere;;
  call ($"curl -L -o prebuilt.tar.xz " ++ binary_url) (c_curl env);;
  elsewhere;;
  tar;;
  when (negb skip_convert) convert_bitcode_libraries;;
  when is_darwin (remove_bundled_libcxx;; remove_bundled_libcxx_headers);;
  elsewhere.
(** clang:20-24 *)
Definition clean_module : M unit :=
  elsewhere;;
  do _ <- operation;; fun s => (Ok tt, {| s_tree := []; s_moments := s_moments s; s_ops := s_ops s; s_calls := s_calls s |}).
(** clang:208-210 *)
Definition clang (clean skip_convert : bool) : M unit :=
  when clean clean_module;; setup_prebuilt_binary skip_convert.
End Script.
