(** * Model of oclint-scripts/bundle: putting an installation together

    Bundling copies what the modules' builds left in the build directory to one directory with the
    layout that the program expects (ModelInstall).  The file system is that of SpecInstall.
    Permissions, times and owners are not modelled, apart from the executable bit. *)
From Verif Require Import Base ModelScaffold SpecInstall.

(** ** What the system does *)

(** Resolving names from a directory; at most [links] symbolic links, as Linux does (40). *)
Fixpoint follow (links : nat) (fs : filesystem) (d : list str) (ns : list str) {struct links} : option (list str) :=
  (fix go (d ns : list str) {struct ns} : option (list str) :=
     match ns with
     | [] => Some d
     | n :: ns' =>
         if str_eqb n $".." then go (removelast d) ns'
         else match fs (d ++ [n]) with
              | Some Directory => go (d ++ [n]) ns'
              | Some (Regular _ _) => if is_nil ns' then Some (d ++ [n]) else None
              | Some (Symlink to) =>
                  match links with
                  | O => None
                  | S k => follow k fs (if absolute to then [] else d) (names to ++ ns')
                  end
              | None => None
              end
     end) d ns.
Definition max_links : nat := 40.
Definition dir_at (fs : filesystem) (t : list str) : bool :=
  is_nil t || match fs t with Some Directory => true | _ => false end.
(** What is at a place that names were resolved to. *)
Definition entry_at (fs : filesystem) (t : list str) : option entry := if is_nil t then Some Directory else fs t.
Fixpoint loc_eqb (a b : list str) : bool :=
  match a, b with
  | [], [] => true
  | x :: a', y :: b' => str_eqb x y && loc_eqb a' b'
  | _, _ => false
  end.
(** [q] is [t] or below it: the names left. *)
Fixpoint beyond (t q : list str) : option (list str) :=
  match t, q with
  | [], _ => Some q
  | x :: t', y :: q' => if str_eqb x y then beyond t' q' else None
  | _, _ => None
  end.
Definition put (fs : filesystem) (t : list str) (e : entry) : filesystem := fun q => if loc_eqb q t then Some e else fs q.
Definition remove (fs : filesystem) (t : list str) : filesystem := fun q => match beyond t q with Some _ => None | None => fs q end.
(** What the names [ns ++ r], counted from the directory [d], show; [r] only goes down. *)
Definition view (fs : filesystem) (d ns r : list str) : option entry :=
  if existsb (str_eqb $"..") r then None
  else match follow max_links fs d (ns ++ r) with Some u => entry_at fs u | None => None end.
(** A copy of that at [t]. *)
Definition copied (fs : filesystem) (d ns t : list str) : filesystem :=
  fun q => match beyond t q with Some r => view fs d ns r | None => fs q end.
Definition moved (fs : filesystem) (a b : list str) : filesystem :=
  fun q => match beyond b q with
           | Some r => fs (a ++ r)
           | None => match beyond a q with Some _ => None | None => fs q end
           end.

(** The machine: files, current directory, operations so far. *)
Record machine := { m_fs : filesystem; m_cwd : list str; m_ops : nat }.
Definition M (A : Type) := machine -> outcome A * machine.
Definition ret {A} (a : A) : M A := fun s => (Val a, s).
Definition bind {A B} (m : M A) (f : A -> M B) : M B :=
  fun s => match m s with
           | (Val a, s') => f a s'
           | (Exc w, s') => (Exc w, s')
           | (UB, s') => (UB, s')
           end.
Definition throw {A} (w : str) : M A := fun s => (Exc w, s).
Definition seq (a b : M unit) : M unit := bind a (fun _ => b).
Notation "a ;; b" := (seq a b) (at level 61, right associativity).
Definition get : M machine := fun s => (Val s, s).
Definition when (b : bool) (m : M unit) : M unit := if b then m else ret tt.

(** Where a path leads in the machine; the place of its last name. *)
Definition at_path (s : machine) (p : str) : option (list str) :=
  if is_nil p then None else follow max_links (m_fs s) (if absolute p then [] else m_cwd s) (names p).
Definition place (s : machine) (p : str) : option (list str) :=
  match rev (names p) with
  | [] => None
  | n :: rs =>
      if str_eqb n $".." then None
      else match follow max_links (m_fs s) (if absolute p then [] else m_cwd s) (rev rs) with
           | Some d => if dir_at (m_fs s) d then Some (d ++ [n]) else None
           | None => None
           end
  end.
Definition exists_ (s : machine) (p : str) : bool := match at_path s p with Some _ => true | None => false end.
Definition isdir (s : machine) (p : str) : bool := match at_path s p with Some t => dir_at (m_fs s) t | None => false end.
Definition file_at (s : machine) (p : str) : option (bool * str) :=
  match at_path s p with
  | Some t => match entry_at (m_fs s) t with Some (Regular x c) => Some (x, c) | _ => None end
  | None => None
  end.
Definition isfile_ (s : machine) (p : str) : bool := match file_at s p with Some _ => true | None => false end.

(** The surroundings.  [e_breaks]: any operation may fail for a reason outside the model (no
    permission, disk full, killed), and leaves anything at its target then. *)
Record surroundings := {
  e_root : str;              (* oclintscripts/path.py:6-8, [os.path.abspath] of the checkout *)
  e_kernel : str; e_kernel_version : str; e_arch : str;   (* platform.uname() *)
  e_git : option str;        (* version.py:12; None: git failed *)
  e_pack : str -> filesystem -> str;   (* a gzipped tar file of a directory, by its name *)
  e_breaks : nat -> option (str * filesystem)
}.

(** [os.path.join] *)
Definition pjoin (a b : str) : str :=
  if absolute b then b
  else match rev a with
       | [] => b
       | c :: _ => if ascii_eqb c "/"%char then a ++ b else a ++ $"/" ++ b
       end.

Section Scripts.
Variable env : surroundings.

(** An operation on [target] with the effect [act]. *)
Definition operation (target : option (list str)) (act : filesystem -> filesystem) : M unit :=
  fun s =>
    match e_breaks env (m_ops s) with
    | Some (what, g) =>
        (Exc what, {| m_fs := fun q => match target with
                                       | Some t => match beyond t q with Some _ => g q | None => m_fs s q end
                                       | None => m_fs s q
                                       end; m_cwd := m_cwd s; m_ops := S (m_ops s) |})
    | None => (Val tt, {| m_fs := act (m_fs s); m_cwd := m_cwd s; m_ops := S (m_ops s) |})
    end.

(** [os.mkdir] *)
Definition mkdir (p : str) : M unit :=
  fun s => match place s p with
           | Some t => match m_fs s t with
                       | Some _ => throw $"FileExistsError" s
                       | None => operation (Some t) (fun fs => put fs t Directory) s
                       end
           | None => throw $"FileNotFoundError" s
           end.
(** Creating a file, or replacing its contents.  Left out: onto a link or a directory. *)
Definition create (p : str) (e : entry) : M unit :=
  fun s => match place s p with
           | Some t => match m_fs s t with
                       | None | Some (Regular _ _) => operation (Some t) (fun fs => put fs t e) s
                       | _ => throw $"OSError" s
                       end
           | None => throw $"FileNotFoundError" s
           end.

(** ** oclintscripts/path.py *)

(** :77-78 *)
Definition cd (p : str) : M unit :=
  fun s => match at_path s p with
           | Some t => if dir_at (m_fs s) t then (Val tt, {| m_fs := m_fs s; m_cwd := t; m_ops := m_ops s |})
                       else throw $"NotADirectoryError" s
           | None => throw $"FileNotFoundError" s
           end.
(** :80-81.  [os.rename] of a directory: the target must be missing; an empty directory, which it
    would replace, counts as present here. *)
Definition mv (src dst : str) : M unit :=
  fun s => match place s src, place s dst with
           | Some a, Some b =>
               match m_fs s a, m_fs s b, beyond a b with
               | Some Directory, None, None => operation None (fun fs => moved fs a b) s
               | _, _, _ => throw $"OSError" s
               end
           | _, _ => throw $"FileNotFoundError" s
           end.
(** :83-85.  [shutil.rmtree] refuses a symbolic link. *)
Definition rm_f (p : str) : M unit :=
  fun s => if isdir s p then
             match place s p with
             | Some t => match m_fs s t with
                         | Some Directory => operation (Some t) (fun fs => remove fs t) s
                         | _ => throw $"OSError" s
                         end
             | None => throw $"OSError" s
             end
           else ret tt s.
(** :87-89.  [os.makedirs] makes missing parents first; these are not modelled, as the parents of
    every directory made here are made before or hold the sources. *)
Definition mkdir_p (p : str) : M unit := fun s => if isdir s p then ret tt s else mkdir p s.
(** :91-92, [shutil.copy2] to a file *)
Definition cp (src dst : str) : M unit :=
  fun s => match file_at s src with
           | Some (x, c) => create dst (Regular x c) s
           | None => throw $"FileNotFoundError" s
           end.
(** :94-95, [shutil.copytree]: the target must be missing.  An entry whose link leads nowhere makes
    the program fail; here it is left out. *)
Definition cp_r (src dst : str) : M unit :=
  fun s => match at_path s src with
           | Some a =>
               if dir_at (m_fs s) a then
                 match place s dst with
                 | Some b => match m_fs s b with
                             | Some _ => throw $"FileExistsError" s
                             | None => operation (Some b) (fun fs => copied fs (if absolute src then [] else m_cwd s) (names src) b) s
                             end
                 | None => throw $"FileNotFoundError" s
                 end
               else throw $"NotADirectoryError" s
           | None => throw $"FileNotFoundError" s
           end.

(** :9, 17-21, 30-58 *)
Definition root_dir := e_root env.
Definition build_root := pjoin root_dir $"build".
Definition oclint_module_build_dir (module_name : str) := pjoin build_root ($"oclint-" ++ module_name).
Definition source_clang_dir := pjoin root_dir $"llvm".
Definition json_compilation_database_dir := pjoin root_dir $"oclint-json-compilation-database".
Definition xcodebuild_dir := pjoin root_dir $"oclint-xcodebuild".
Definition clang_install_dir := pjoin build_root $"llvm-install".

(** ** oclintscripts/version.py:8-26, environment.py:9-16, 21-28 *)
Definition dev_version : str := match e_git env with Some h => h | None => $"src" end.
Definition oclint_dev_version : str := oclint_version ++ $".dev." ++ dev_version.
Definition kernel : str := map tolower (e_kernel env).
Definition arch : str := map tolower (e_arch env).
Definition dist_env : str := arch ++ $"-" ++ kernel ++ $"-" ++ e_kernel_version env.
Definition is_aarch64_or_arm64 : bool := prefixb $"aarch64" arch || prefixb $"arm64" arch.
Definition is_darwin : bool := prefixb $"darwin" kernel.

(** ** bundle *)

(** :14-18 *)
Definition bundle_root_dir := oclint_module_build_dir $"release".
Definition bundle_bin_dir := pjoin bundle_root_dir $"bin".
Definition bundle_lib_dir := pjoin bundle_root_dir $"lib".
Definition bundle_lib_oclint_dir := pjoin bundle_lib_dir $"oclint".
Definition bundle_include_dir := pjoin bundle_root_dir $"include".

(** :20-25; [ba_llvm_root]: [path.build.clang_install_dir] unless given *)
Record bundleargs := { ba_archive : bool; ba_docgen : bool; ba_release : bool; ba_llvm_root : str }.

(** :27-35 *)
Definition setup_release_dir : M unit :=
  rm_f (oclint_module_build_dir $"release");; mkdir_p bundle_root_dir;; mkdir_p bundle_lib_dir;; mkdir_p bundle_lib_oclint_dir.
(** [process.call('ln -s to name')] in the current directory; the names are plain words.  A name
    that is there already makes ln fail (in a directory of that name it would put the link). *)
Definition ln_s (to name : str) : M unit :=
  fun s => match place s name with
           | Some t => match m_fs s t with
                       | None => operation (Some t) (fun fs => put fs t (Symlink to)) s
                       | Some _ => throw $"SystemExit" s
                       end
           | None => throw $"SystemExit" s
           end.
(** :37-43 *)
Definition install_binary (is_release : bool) : M unit :=
  cp_r (pjoin (oclint_module_build_dir $"driver") $"bin") bundle_bin_dir;;
  cd bundle_bin_dir;;
  ln_s ($"oclint-" ++ oclint_version) $"oclint";;
  when (negb is_release) (ln_s ($"oclint-" ++ oclint_version) ($"oclint-" ++ oclint_dev_version)).
(** :45-58 *)
Definition install_rules : M unit :=
  cp_r (pjoin (oclint_module_build_dir $"rules") $"rules.dl") (pjoin bundle_lib_oclint_dir $"rules").
Definition install_reporters : M unit :=
  cp_r (pjoin (oclint_module_build_dir $"reporters") $"reporters.dl") (pjoin bundle_lib_oclint_dir $"reporters").
Definition install_clang_headers (llvm_root : str) : M unit :=
  cp_r (pjoin (pjoin llvm_root $"lib") $"clang") (pjoin bundle_lib_dir $"clang").
(** :60-73 *)
Definition install_script (dir name : str) : M unit :=
  fun s => if isfile_ s (pjoin dir name) then cp (pjoin dir name) (pjoin bundle_bin_dir name) s else ret tt s.
Definition install_json_compilation_database : M unit :=
  install_script json_compilation_database_dir $"oclint-json-compilation-database".
Definition install_xcodebuild : M unit := when is_darwin (install_script xcodebuild_dir $"oclint-xcodebuild").
(** :75-81 *)
Definition install_cpp_headers (llvm_root : str) : M unit :=
  when (is_darwin && negb is_aarch64_or_arm64)
    (mkdir_p bundle_include_dir;;
     cp_r (pjoin (pjoin (if is_nil llvm_root then clang_install_dir else llvm_root) $"include") $"c++")
          (pjoin bundle_include_dir $"c++")).
(** :83-100.  Texts without carriage returns.  The file is opened first; an exception when reading
    leaves it empty. *)
Definition license_of (s : machine) (p : str) : M str :=
  fun s' => match file_at s p with Some (_, c) => ret c s' | None => throw $"FileNotFoundError" s' end.
Definition install_licenses (llvm_root : str) : M unit :=
  create (pjoin bundle_root_dir $"LICENSE") (Regular false []);;
  bind get (fun s =>
  bind (license_of s (pjoin root_dir $"LICENSE")) (fun own =>
  let first := pjoin llvm_root $"LICENSE.TXT" in
  let llvm_license_path := if exists_ s first then first else pjoin source_clang_dir $"LICENSE.TXT" in
  bind (if exists_ s llvm_license_path
        then bind (license_of s llvm_license_path) (fun c => ret ([NL] ++ concat (firstn 44 (lines_of c))))
        else ret []) (fun llvm =>
  create (pjoin bundle_root_dir $"LICENSE") (Regular false (own ++ llvm))))).
(** :102-110.  [make_archive] writes the packed directory [base_dir] of [path.build_root]. *)
Definition make_archive (p root_dir base_dir : str) : M unit :=
  fun s => match at_path s (pjoin root_dir base_dir) with
           | Some t => create (p ++ $".tar.gz") (Regular false (e_pack env base_dir (fun r => m_fs s (t ++ r)))) s
           | None => throw $"FileNotFoundError" s
           end.
Definition archive (is_release : bool) : M unit :=
  let full_version := if is_release then oclint_version else oclint_dev_version in
  let distribution_name := full_version ++ $"-" ++ dist_env in
  mv bundle_root_dir (oclint_module_build_dir full_version);;
  make_archive (oclint_module_build_dir distribution_name) build_root ($"oclint-" ++ full_version).
(** :112-125 *)
Definition bundle (args : bundleargs) : M unit :=
  setup_release_dir;;
  install_licenses (ba_llvm_root args);;
  install_binary (ba_release args);;
  install_rules;;
  when (negb (ba_docgen args))
    (install_reporters;;
     install_clang_headers (ba_llvm_root args);;
     install_json_compilation_database;;
     when is_darwin (install_xcodebuild;; install_cpp_headers (ba_llvm_root args)));;
  when (ba_archive args) (archive (ba_release args)).
End Scripts.
