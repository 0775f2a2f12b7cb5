(** * C144: fetching LLVM *)
From Coq Require Import Permutation.
From Verif Require Import Base BaseFacts ModelScaffold ModelClang SpecClang ProofClang ProofClangRun.
Local Arguments lit : simpl never.

(** The first moment is what was unpacked. *)
Lemma first_moment env skip s1 t : s_moments s1 = [t] -> exists later, s_moments (snd (rest env skip s1)) = t :: later.
Proof.
  intros A.
  destruct (gr_rest env skip s1) as (new & E). exists new. now rewrite E, A.
Qed.
Lemma whole env clean skip t0 :
  (s_moments (snd (run env clean skip t0)) = [] /\ exists c, fst (run env clean skip t0) = Exits c)
  \/ exists t1 later, s_moments (snd (run env clean skip t0)) = t1 :: later
     /\ s_tree (snd (run env clean skip t0)) = last (t1 :: later) []
     /\ (real_tree t1 -> Forall (safe env t1) later
         /\ match fst (run env clean skip t0) with Ok _ => finished env skip t1 (s_tree (snd (run env clean skip t0))) | Exits _ => True end).
Proof.
  destruct (clang_run env clean skip t0) as [(E & (c & F & _) & _)|(t1 & s1 & A & B & C & E)]; [left; eauto|]. right. rewrite E. clear E.
  destruct (first_moment env skip s1 t1 A) as (later & M). exists t1, later. split; auto. split.
  - destruct (st_rest env skip s1) as (_ & _ & L). rewrite M, A in L. apply L. now rewrite B.
  - intros R. destruct (rest_result env skip t1 R s1 B) as (new & N & S & Q). rewrite N, A in M. injection M as <-. auto.
Qed.
Lemma later_safe env clean skip t0 t1 later t : s_moments (snd (run env clean skip t0)) = t1 :: later -> real_tree t1 ->
  In t (t1 :: later) \/ t = s_tree (snd (run env clean skip t0)) -> safe env t1 t.
Proof.
  intros M R I. destruct (whole env clean skip t0) as [(E & _)|(t' & l' & M' & L & H)]; [congruence|]. rewrite M in M'. injection M' as <- <-.
  destruct (H R) as (S & _). assert (X : In t (t1 :: later)).
  { destruct I as [I| ->]; auto. rewrite L. clear. generalize t1. induction later as [|a l IH]; intros x; [now left|]. right. cbn in *. destruct l; [now left|]. apply (IH a). }
  destruct X as [<-|X]; [|rewrite Forall_forall in S; auto]. apply (good_safe env t1 []). apply good_start, R.
Qed.

(** Whenever the script stops, each library is there, or its backup, or its conversion. *)
Theorem c144_no_library_is_lost : forall env clean skip_convert t0 t1 later,
  s_moments (snd (run env clean skip_convert t0)) = t1 :: later -> real_tree t1 ->
  forall t, In t (t1 :: later) \/ t = s_tree (snd (run env clean skip_convert t0)) ->
  forall n, library n -> not_lost env t1 t n.
Proof.
  intros env clean skip t0 t1 later M R t I n L e Ie. destruct (later_safe _ _ _ _ _ _ _ M R I) as (N & K & _).
  apply (get_in t1) in Ie; [|apply R]. destruct (K n L e Ie) as [H|[H|(ms & ms' & H1 & H2 & H3)]].
  - left. now apply get_in.
  - right. left. now apply get_in.
  - right. right. exists ms, ms'. repeat split; auto. now apply get_in.
Qed.
(** And everything else is as it was unpacked, but for libc++ on macOS. *)
Theorem c144_others_untouched : forall env clean skip_convert t0 t1 later,
  s_moments (snd (run env clean skip_convert t0)) = t1 :: later -> real_tree t1 ->
  forall t, In t (t1 :: later) \/ t = s_tree (snd (run env clean skip_convert t0)) ->
  forall p, ~ touched p ->
    (forall e, In (p, e) t <-> In (p, e) t1) \/ (mac env /\ bundled_cxx p /\ forall e, ~ In (p, e) t).
Proof.
  intros env clean skip t0 t1 later M R t I p T. destruct (later_safe _ _ _ _ _ _ _ M R I) as (N & _ & K).
  destruct (K p T) as [E|(A & B & C)].
  - left. intros e. rewrite !get_in; auto; [now rewrite E|apply R].
  - right. repeat split; auto. now apply get_none.
Qed.
(** What is there when all went well. *)
Theorem c144_finished : forall env clean skip_convert t0 s, run env clean skip_convert t0 = (Ok tt, s) ->
  exists t1 later, s_moments s = t1 :: later /\ (real_tree t1 ->
    (forall n e, library n -> In (at_lib n, e) t1 ->
       In (at_lib n, e) (s_tree s) \/ exists ms ms', e = Lib ms /\ In (at_lib n, Lib ms') (s_tree s) /\ conversion env t1 ms ms')
    /\ (forall n, library n -> (exists e, In (at_lib n, e) (s_tree s)) -> exists e, In (at_lib n, e) t1)
    /\ (forall n e, library n -> In (backup_of n, e) (s_tree s) -> In (backup_of n, e) t1)
    /\ (forall p e, ~ touched p -> (In (p, e) (s_tree s) <-> In (p, e) t1 /\ ~ (mac env /\ bundled_cxx p)))
    /\ NoDup (map fst (s_tree s))).
Proof.
  intros env clean skip t0 s E. destruct (whole env clean skip t0) as [(_ & c & F)|(t1 & later & M & L & H)]; rewrite E in *; [discriminate|]. cbn [fst snd] in *.
  exists t1, later. split; auto. intros R. destruct (H R) as (_ & t2 & (l & G & _) & _ & Ym & Nm). destruct G as (N2 & _ & C & D & O & _). set (t := s_tree s) in *.
  assert (N : NoDup (map fst t)).
  { destruct (is_darwin env) eqn:Q; [apply darwin_mac in Q; apply Ym in Q as (Q & _); exact Q|apply darwin_not_mac in Q; now rewrite (Nm Q)]. }
  assert (T : forall p, get t p = if is_darwin env && all_cxx p then None else get t2 p).
  { intros p. destruct (is_darwin env) eqn:Q; cbn [andb]; [apply darwin_mac in Q; apply Ym in Q as (_ & Q); apply Q|apply darwin_not_mac in Q; now rewrite (Nm Q)]. }
  assert (Tt : forall p, touched p -> get t p = get t2 p).
  { intros p X. rewrite T. destruct (all_cxx p) eqn:Y; [|now rewrite andb_false_r]. apply all_cxx_spec in Y. now apply untouched_cxx in Y. }
  split; [|split; [|split; [|split]]]; auto.
  - intros n e Ln I. apply get_in in I; [|apply R]. destruct (C n Ln) as [K|(ms & ms' & K1 & K2 & V)].
    + left. apply get_in; auto. rewrite Tt by (exists n; auto). congruence.
    + right. exists ms, ms'. repeat split; auto; [congruence|]. apply get_in; auto. rewrite Tt by (exists n; auto). auto.
  - intros n Ln (e & I). apply get_in in I; auto. rewrite Tt in I by (exists n; auto). destruct (C n Ln) as [K|(ms & ms' & K1 & K2 & V)].
    + exists e. apply get_in; [apply R|congruence].
    + exists (Lib ms). apply get_in; [apply R|auto].
  - intros n e Ln I. apply get_in in I; auto. rewrite Tt in I by (exists n; auto). apply get_in; [apply R|]. destruct (D n Ln); congruence.
  - intros p e X. rewrite !get_in; auto; [|apply R]. rewrite T, (O p X). destruct (is_darwin env) eqn:Q; cbn [andb].
    + apply darwin_mac in Q. destruct (all_cxx p) eqn:Y.
      * apply all_cxx_spec in Y. split; [discriminate|]. intros (_ & Z). destruct Z. auto.
      * split; [intros; split; auto|tauto]. intros (_ & Z). apply all_cxx_spec in Z. congruence.
    + apply darwin_not_mac in Q. tauto.
Qed.
(** If the tools work, every library that has objects is converted. *)
Theorem c144_every_library_is_converted : forall env clean t0 s llc, run env clean false t0 = (Ok tt, s) -> tools_work env ->
  exists t1 later, s_moments s = t1 :: later /\ (real_tree t1 -> llc_used env t1 llc ->
    forall n ms m, library n -> In (at_lib n, Lib ms) t1 -> tame ms -> In m ms -> object_name (fst m) ->
    exists k l ms', In (at_lib n, Lib ms') (s_tree s) /\ kept ms k /\ Permutation l ms'
      /\ Forall2 (fun m m' => fst m' = fst m /\ translates env llc (snd m) (snd m')) k l).
Proof.
  intros env clean t0 s llc E W. destruct (whole env clean false t0) as [(_ & c & F)|(t1 & later & M & L & H)]; rewrite E in *; [discriminate|]. cbn [fst snd] in *.
  exists t1, later. split; auto. intros R U n ms m Ln I Tm Im Om. destruct (H R) as (_ & t2 & (l & G & K) & _ & Ym & Nm). set (t := s_tree s) in *.
  apply get_in in I; [|apply R]. assert (Il : In n l) by (eapply K; eauto; congruence).
  destruct G as (_ & _ & _ & _ & _ & G). destruct (G n ms Ln Il I W) as [Z|(ms' & Z & V)]; [now apply Z in Om|].
  destruct (V Tm) as (llc' & k & U' & Kk & (l' & F2 & P)).
  assert (llc' = llc) as -> by (apply find_llc_used in U; [|apply R]; apply find_llc_used in U'; [|apply R]; congruence).
  exists k, l', ms'. split; [|split; [auto|split; [auto|]]].
  - assert (Tt : get t (at_lib n) = get t2 (at_lib n)).
    { destruct (is_darwin env) eqn:Q; [apply darwin_mac in Q; apply Ym in Q as (_ & Q)|apply darwin_not_mac in Q; now rewrite (Nm Q)].
      rewrite Q. destruct (all_cxx (at_lib n)) eqn:Y; auto. apply all_cxx_spec in Y. apply untouched_cxx in Y. destruct Y. exists n. auto. }
    apply get_some_in. congruence.
  - clear Kk P. induction F2 as [|a b k l' (A & B) F2 IH]; constructor; auto. split; auto. destruct B as [B|(_ & j & B)]; auto.
    destruct (W j) as (_ & _ & Wl). destruct (Wl llc (snd a)) as (b' & Wb). rewrite Wb in B. cbn in B. destruct B; discriminate.
Qed.
(** Without llc, or if told not to convert, the libraries stay as they are. *)
Theorem c144_nothing_to_convert : forall env clean skip_convert t0 s, run env clean skip_convert t0 = (Ok tt, s) ->
  exists t1 later, s_moments s = t1 :: later /\ (real_tree t1 -> skip_convert = true \/ (forall llc, ~ llc_used env t1 llc) ->
    forall p e, In (p, e) (s_tree s) <-> In (p, e) t1 /\ ~ (mac env /\ bundled_cxx p)).
Proof.
  intros env clean skip t0 s E. destruct (whole env clean skip t0) as [(_ & c & F)|(t1 & later & M & L & H)]; rewrite E in *; [discriminate|]. cbn [fst snd] in *.
  exists t1, later. split; auto. intros R X p e. destruct (H R) as (_ & t2 & _ & Q & Ym & Nm). apply Q in X as ->. clear Q.
  destruct (is_darwin env) eqn:Q.
  - apply darwin_mac in Q. destruct (Ym Q) as (N & T). rewrite !get_in, T; auto; [|apply R]. destruct (all_cxx p) eqn:Y.
    + apply all_cxx_spec in Y. split; [discriminate|]. intros (_ & Z). destruct Z. auto.
    + split; [intros; split; auto|tauto]. intros (_ & Z). apply all_cxx_spec in Z. congruence.
  - apply darwin_not_mac in Q. rewrite (Nm Q). tauto.
Qed.
(** What is downloaded, and where it is unpacked; nothing if that fails. *)
Theorem c144_downloads : forall env clean skip_convert t0, exists f, release_file env f
  /\ (exists more, [download f; unpack env] = s_calls (snd (run env clean skip_convert t0)) ++ more)
  /\ (s_moments (snd (run env clean skip_convert t0)) <> [] -> s_calls (snd (run env clean skip_convert t0)) = [download f; unpack env]).
Proof.
  intros. exists (fetched env). split; [apply fetched_release|]. destruct (clang_run env clean skip_convert t0) as [(E & _ & X)|(t1 & s1 & A & B & C & E)].
  - split; auto. congruence.
  - destruct (st_rest env skip_convert s1) as (K & _). rewrite E, K, C. split; auto. now exists [].
Qed.
(** The exit code is 0 exactly if all was done; what was unpacked is then there. *)
Theorem c144_code : forall env clean skip_convert t0 c, fst (run env clean skip_convert t0) = Exits c -> c <> 0%Z.
Proof.
  intros env clean skip t0 c F. destruct (clang_run env clean skip t0) as [(_ & (c' & F' & N) & _)|(t1 & s1 & _ & _ & _ & E)]; [congruence|].
  destruct (st_rest env skip s1) as (_ & X & _). rewrite E in F. rewrite F in X. subst c. discriminate.
Qed.
(** Of libraries whose members are objects of different names nothing is lost. *)
Theorem c144_ordinary_libraries : forall ms k, ordinary ms -> kept ms k -> Permutation ms k.
Proof.
  intros ms k (N & O) (Nk & K). apply NoDup_Permutation; [now apply NoDup_map_inv in N|now apply NoDup_map_inv in Nk|].
  intros m. rewrite K. split.
  - intros I. split; auto. apply in_split in I as (a & b & ->). exists a, b. split; auto. rewrite map_app in N. cbn in N. apply NoDup_remove_2 in N.
    intros I. apply N, in_or_app. now right.
  - intros (_ & a & b & -> & _). apply in_or_app. right. now left.
Qed.

(** ** Concrete runs *)
Definition sample_env (kernel arch : str) (unpacked : tree) (raises : nat -> bool) : surroundings :=
  {| c_root := $"/w"; c_kernel := kernel; c_arch := arch; c_which := None; c_elsewhere := fun _ => false; c_raises := raises;
     c_curl := fun _ => 0%Z; c_tar := fun _ _ => (0%Z, unpacked); c_ar_x := fun _ => true;
     c_llc := fun _ _ b => if prefixb $"BC" b then (true, Some ($"native " ++ b)) else (false, None);
     c_ar_r := fun _ => (true, None, None) |}.
Definition sample_tree (members : list (str * str)) : tree :=
  [([$"bin"], Dir); ([$"bin"; $"llc"], Plain $"llc"); ([$"lib"], Dir); ([$"lib"; $"libclangAST.a"], Lib members);
   ([$"lib"; $"libc++.a"], Plain $"x"); ([$"include"], Dir); ([$"include"; $"c++"], Dir); ([$"include"; $"c++"; $"v1"], Plain $"h")].
Definition sample_members : list (str * str) := [($"a.o", $"BC a"); ($"b.o", $"elf b")].
Ltac parents := intros p n e I; cbn [In sample_tree] in I; repeat (destruct I as [I|I];
  [apply (f_equal (fun x => removelast (fst x))) in I; cbn [fst] in I; rewrite removelast_last in I; cbn [removelast] in I; subst p;
   first [left; reflexivity|right; cbn; tauto]|]); destruct I.
Lemma sample_real ms : real_tree (sample_tree ms).
Proof.
  split.
  - repeat constructor; cbn; intros H; repeat (destruct H as [H|H]; [discriminate H|]); destruct H.
  - parents.
Qed.
Example c144_converts_example :
  let r := run (sample_env $"Linux" $"x86_64" (sample_tree sample_members) (fun _ => false)) true false [([$"old"], Plain [])] in
  fst r = Ok tt /\ length (s_moments (snd r)) = 5
  /\ In ([$"lib"; $"libclangAST.a"], Lib [($"a.o", $"native BC a"); ($"b.o", $"elf b")]) (s_tree (snd r)) /\ real_tree (sample_tree sample_members) /\ library $"libclangAST.a".
Proof.
  split; [vm_compute; reflexivity|]. split; [vm_compute; reflexivity|]. split; [vm_compute; tauto|]. split; [apply sample_real|]. exists $"AST". now left.
Qed.
(** An exception after the backup was made. *)
Example c144_stops_example : exists k,
  let r := run (sample_env $"Linux" $"x86_64" (sample_tree sample_members) (Nat.eqb k)) false false [] in
  fst r = Exits 1 /\ In (backup_of $"libclangAST.a", Lib sample_members) (s_tree (snd r)) /\ ~ In $"libclangAST.a" (listdir (s_tree (snd r)) [$"lib"]).
Proof. exists 10. split; [vm_compute; reflexivity|]. split; [vm_compute; tauto|]. vm_compute. intros [H|[H|[]]]; discriminate H. Qed.
Example c144_mac_example :
  let r := run (sample_env $"Darwin" $"arm64" (sample_tree sample_members) (fun _ => false)) false true [] in
  fst r = Ok tt /\ map fst (s_tree (snd r)) = [[$"bin"]; [$"bin"; $"llc"]; [$"lib"]; [$"lib"; $"libclangAST.a"]; [$"include"]].
Proof. split; vm_compute; reflexivity. Qed.
(** Members that do not survive. *)
Theorem c144_duplicate_members_refuted : exists env t0 t1 later ms ms' s, run env false false t0 = (Ok tt, s) /\ s_moments s = t1 :: later /\ real_tree t1
  /\ In (at_lib $"libclangAST.a", Lib ms) t1 /\ In (at_lib $"libclangAST.a", Lib ms') (s_tree s)
  /\ (forall m, In m ms -> object_name (fst m)) /\ (length ms' < length ms)%nat.
Proof.
  set (ms := [($"a.o", $"BC a"); ($"a.o", $"BC other a")]).
  exists (sample_env $"Linux" $"x86_64" (sample_tree ms) (fun _ => false)), []. do 2 eexists. exists ms. eexists. eexists.
  split; [vm_compute; reflexivity|]. split; [vm_compute; reflexivity|]. split; [apply (sample_real ms)|].
  split; [vm_compute; right; right; right; left; reflexivity|]. split; [vm_compute; left; reflexivity|]. split.
  - intros m [<-|[<-|[]]]; exists "a"%char, []; split; auto; discriminate.
  - vm_compute. lia.
Qed.
Theorem c144_other_members_refuted : exists env t0 t1 later ms ms' s, run env false false t0 = (Ok tt, s) /\ s_moments s = t1 :: later /\ real_tree t1
  /\ In (at_lib $"libclangAST.a", Lib ms) t1 /\ In (at_lib $"libclangAST.a", Lib ms') (s_tree s)
  /\ NoDup (map fst ms) /\ exists m, In m ms /\ ~ In (fst m) (map fst ms').
Proof.
  set (ms := [($"a.o", $"BC a"); ($"b.obj", $"BC b")]).
  exists (sample_env $"Linux" $"x86_64" (sample_tree ms) (fun _ => false)), []. do 2 eexists. exists ms. eexists. eexists.
  split; [vm_compute; reflexivity|]. split; [vm_compute; reflexivity|]. split; [apply (sample_real ms)|].
  split; [vm_compute; right; right; right; left; reflexivity|]. split; [vm_compute; left; reflexivity|]. split.
  - repeat constructor; cbn; intros H; repeat (destruct H as [H|H]; [discriminate H|]); destruct H.
  - exists ($"b.obj", $"BC b"). split; [right; now left|]. cbn. intros [H|[]]. discriminate H.
Qed.
(** On a Mac with an Intel processor the release for ARM is fetched. *)
Theorem c144_intel_mac_refuted : exists env clean skip t0, mac env /\ c_arch env = $"x86_64"
  /\ In (download $"LLVM-21.1.8-macOS-ARM64.tar.xz") (s_calls (snd (run env clean skip t0))) /\ fst (run env clean skip t0) = Ok tt.
Proof.
  exists (sample_env $"Darwin" $"x86_64" (sample_tree sample_members) (fun _ => false)), false, false, [].
  split; [exists []; reflexivity|]. split; [reflexivity|]. split; [vm_compute; left; reflexivity|vm_compute; reflexivity].
Qed.
Example c144_tools_example : exists env t0 s llc, run env false false t0 = (Ok tt, s) /\ tools_work env
  /\ exists t1 later, s_moments s = t1 :: later /\ real_tree t1 /\ llc_used env t1 llc
     /\ exists ms m, In (at_lib $"libclangAST.a", Lib ms) t1 /\ tame ms /\ In m ms /\ object_name (fst m) /\ ordinary ms.
Proof.
  exists {| c_root := $"/w"; c_kernel := $"Linux"; c_arch := $"x86_64"; c_which := None; c_elsewhere := fun _ => false; c_raises := fun _ => false;
            c_curl := fun _ => 0%Z; c_tar := fun _ _ => (0%Z, sample_tree sample_members); c_ar_x := fun _ => true;
            c_llc := fun _ _ b => (true, Some ($"native " ++ b)); c_ar_r := fun _ => (true, None, None) |}, [].
  eexists. exists $"/w/build/llvm-install/bin/llc". split; [vm_compute; reflexivity|]. split; [intros k; repeat split; intros; eexists; reflexivity|].
  do 2 eexists. split; [vm_compute; reflexivity|]. split; [apply (sample_real sample_members)|]. split.
  - left. split; [eexists; vm_compute; right; left; reflexivity|reflexivity].
  - exists sample_members, ($"a.o", $"BC a"). split; [vm_compute; right; right; right; left; reflexivity|]. split.
    + intros m [<-|[<-|[]]] r E; apply (f_equal (@rev ascii)) in E; rewrite rev_app_distr in E; discriminate E.
    + split; [now left|]. split; [exists "a"%char, []; split; auto; discriminate|]. split.
      * repeat constructor; cbn; intros H; repeat (destruct H as [H|H]; [discriminate H|]); destruct H.
      * intros m [<-|[<-|[]]]; [exists "a"%char, []|exists "b"%char, []]; split; auto; discriminate.
Qed.

Print Assumptions c144_no_library_is_lost.
Print Assumptions c144_others_untouched.
Print Assumptions c144_finished.
Print Assumptions c144_every_library_is_converted.
Print Assumptions c144_nothing_to_convert.
Print Assumptions c144_downloads.
Print Assumptions c144_code.
Print Assumptions c144_ordinary_libraries.
Print Assumptions c144_duplicate_members_refuted.
Print Assumptions c144_other_members_refuted.
Print Assumptions c144_intel_mac_refuted.
