(** * C147: how everything is compiled *)
From Verif Require Import Base BaseFacts ModelScaffold ModelCMake ModelCMakeTexts ModelCMakeConfig SpecCMake SpecCMakeConfig ProofCMake ProofCMakeConfig.

Definition special (c : ascii) : bool := ascii_eqb c "-"%char || ascii_eqb c "/"%char.
Lemma set_quoted : forall e f k t rest v w x, plain_word (u k) = Some k -> val v t = x -> existsb special x = true ->
  config_run e f (cmd $"set" [u k; q t] :: rest) v = Some w -> exists f', config_run e f' rest (assign v k (Some x)) = Some w.
Proof.
  intros e f k t rest v w x P V S R. apply config_step in R as (f' & v' & C & R); [|reflexivity]. exists f'. unfold cmd in C.
  rewrite (config_set e _ v k x []) in C.
  - injection C as <-. cbn [list_of flat_map] in R. rewrite app_nil_r in R. exact R.
  - unfold plain_values. rewrite (word_value _ k) by exact P. cbn [values flat_map q a_quoted a_text map snd app]. unfold val in V. rewrite V. reflexivity.
  - cbn [existsb]. rewrite Bool.orb_false_r. apply Bool.orb_false_iff. split; apply str_eqb_neq; intros ->; discriminate.
Qed.
Lemma set_word : forall e f k x rest v w, plain_word (u k) = Some k -> plain_word (u x) = Some x -> str_eqb x $"CACHE" || str_eqb x $"PARENT_SCOPE" = false ->
  config_run e f (cmd $"set" [u k; u x] :: rest) v = Some w -> exists f', config_run e f' rest (assign v k (Some x)) = Some w.
Proof.
  intros e f k x rest v w P V S R. apply config_step in R as (f' & v' & C & R); [|reflexivity]. exists f'. unfold cmd in C.
  rewrite (config_set e _ v k x []) in C.
  - injection C as <-. cbn [list_of flat_map] in R. rewrite app_nil_r in R. exact R.
  - apply (plain_words v [u k; u x] [k; x]). cbn [map]. rewrite P, V. reflexivity.
  - cbn [existsb]. rewrite S. reflexivity.
Qed.
Definition truth (v : variables) (k : str) : bool := match v k with Some x => negb (false_constant x) | None => false end.
Lemma if_variable : forall e f k rest b v w, plain_word (u k) = Some k -> true_constant k = false -> false_constant k = false -> branches 0 rest = Some b ->
  config_run e f (cmd $"if" [u k] :: rest) v = Some w ->
  exists f' v', config_run e f' (if truth v k then i_then b else i_else b) v = Some v' /\ config_run e f' (i_rest b) v' = Some w.
Proof.
  intros e f k rest b v w P T F B R. apply (config_if e f _ _ b) in R as (f' & x & v' & C & R1 & R2); [|reflexivity|exact B]. exists f', v'.
  unfold cmd in C. cbn [c_args] in C. rewrite (word_value _ k) in C by exact P. change (values v []) with (@nil (bool * str)) in C.
  rewrite variable_condition in C by assumption. injection C as <-. auto.
Qed.
Lemma run_nil : forall e f v w, config_run e f [] v = Some w -> w = v.
Proof. intros e [|f] v w H; [discriminate|]. injection H as <-. reflexivity. Qed.
Lemma truth_asks : forall given k b, asks given k b -> truth given k = b.
Proof.
  intros given k [|] H; unfold truth.
  - destruct H as (x & -> & I). cbn [In] in I. repeat destruct I as [<-|I]; reflexivity || destruct I.
  - destruct H as [->|(x & -> & I)]; [reflexivity|]. cbn [In] in I. repeat destruct I as [<-|I]; reflexivity || destruct I.
Qed.

Lemma contains_clang : forall id b, says_clang id b -> contains $"Clang" id = b.
Proof.
  intros id b H. unfold contains. destruct (find_sub $"Clang" id) as [n|] eqn:F.
  - destruct b; [reflexivity|]. exfalso. apply find_sub_some in F as (x & y & E & _). exact (H x y E).
  - destruct b; [|reflexivity]. exfalso. destruct H as (x & y & E). exact (proj1 (find_sub_none _ _) F x y E).
Qed.
Local Opaque commands_in config_run.
Section Flags.
  Variable e : surroundings.
  Variables given w : variables.
  Hypothesis Run : oclint_config e given = Some w.
  Notation flags := $"CMAKE_CXX_FLAGS".
  Notation shared := $"CMAKE_SHARED_LINKER_FLAGS".
  Notation linker := $"CMAKE_CXX_LINKER_FLAGS".
  Notation rest n := (remaining config_commands n).

  Lemma flags_are : forall release clang apple : bool,
    (if release then given $"OCLINT_BUILD_TYPE" = Some $"Release" else given $"OCLINT_BUILD_TYPE" <> Some $"Release") ->
    says_clang (text given $"CMAKE_CXX_COMPILER_ID") clang -> asks given $"APPLE" apple ->
    exists f v, config_run e f (rest 10) v = Some w
      /\ v flags = Some (compiler_flags false release clang apple given) /\ v shared = Some (linker_flags release given)
      /\ v $"DOC_GEN_BUILD" = given $"DOC_GEN_BUILD".
  Proof.
    intros release clang apple Rel Cl Ap.
    destruct (config_down e given w Run 5) as (f5 & v5 & R & K); [checks|].
    assert (K5 : forall k, In k [flags; linker; $"CMAKE_CXX_COMPILER_ID"; $"APPLE"; $"OCLINT_BUILD_TYPE"; $"DOC_GEN_BUILD"] -> v5 k = given k).
    { intros k I. apply K; [noload|]. cbn [In] in I. repeat destruct I as [<-|I]; (checks) || destruct I. }
    clear K.
    (* color diagnostics *)
    assert (E : rest 5 = cmd $"if" [u $"CMAKE_CXX_COMPILER_ID"; u $"MATCHES"; q $"Clang"] :: tl (rest 5)) by checks. rewrite E in R. clear E.
    apply (config_if e f5 _ _ {| i_then := [cmd $"set" [u flags; q $"-fcolor-diagnostics"]]; i_else := []; i_rest := rest 6 |}) in R as (f6 & x & v6 & C & R1 & R); [|reflexivity|checks].
    assert (X : x = clang).
    { unfold cmd in C. cbn [c_args] in C. rewrite (word_value _ $"CMAKE_CXX_COMPILER_ID"), (word_value _ $"MATCHES") in C by reflexivity.
      change (values v5 [q $"Clang"]) with [(true, $"Clang")] in C.
      change (Some (contains $"Clang" (match v5 $"CMAKE_CXX_COMPILER_ID" with Some x => x | None => $"CMAKE_CXX_COMPILER_ID" end)) = Some x) in C.
      rewrite K5 in C by (cbn [In]; tauto). assert (C' : contains $"Clang" (match given $"CMAKE_CXX_COMPILER_ID" with Some x => x | None => $"CMAKE_CXX_COMPILER_ID" end) = x) by congruence.
      rewrite <- C'. clear C C'. apply contains_clang. unfold text in Cl. destruct (given $"CMAKE_CXX_COMPILER_ID") as [id|]; [exact Cl|]. destruct clang.
      - exfalso. destruct Cl as (a & b & Ei). apply (f_equal (@length ascii)) in Ei. rewrite !app_length in Ei. cbn in Ei. lia.
      - cbn [says_clang]. apply find_sub_none. reflexivity. }
    subst x. clear C. cbn [i_then i_else i_rest] in R1, R.
    assert (V6 : text v6 flags = (if clang then $"-fcolor-diagnostics" else text given flags)
                 /\ forall k, In k [linker; $"APPLE"; $"OCLINT_BUILD_TYPE"; $"DOC_GEN_BUILD"] -> v6 k = given k).
    { destruct clang.
      - apply (set_quoted e f6 flags $"-fcolor-diagnostics" [] v5 v6 $"-fcolor-diagnostics") in R1 as (f' & R1); [|reflexivity..].
        apply run_nil in R1 as ->. split; [unfold text; rewrite assign_same; reflexivity|].
        intros k I. rewrite assign_other; [apply K5; cbn [In] in *; tauto|]. cbn [In] in I. repeat destruct I as [<-|I]; discriminate || destruct I.
      - apply run_nil in R1 as ->. split; [unfold text; rewrite K5 by (cbn [In]; tauto); reflexivity|]. intros k I. apply K5. cbn [In] in *. tauto. }
    destruct V6 as [F6 K6]. clear K5 R1 Cl.
    (* the standard *)
    set (fl := if clang then $"-fcolor-diagnostics" else text given flags) in *.
    set (ld := text given linker) in *.
    assert (L6 : text v6 linker = ld) by (unfold text at 1; rewrite K6 by (cbn [In]; tauto); reflexivity).
    assert (E : rest 6 = cmd $"set" [u flags; q $"-std=c++17 ${CMAKE_CXX_LINKER_FLAGS} -fno-rtti -fPIC ${CMAKE_CXX_FLAGS}"]
                         :: cmd $"set" [u shared; q $"${CMAKE_CXX_LINKER_FLAGS} -fno-rtti"] :: rest 8) by checks.
    rewrite E in R. clear E. set (fl7 := $"-std=c++17 " ++ ld ++ $" -fno-rtti -fPIC " ++ fl).
    assert (X7 : exists f, config_run e f (cmd $"set" [u shared; q $"${CMAKE_CXX_LINKER_FLAGS} -fno-rtti"] :: rest 8) (assign v6 flags (Some fl7)) = Some w).
    { refine (set_quoted e f6 flags _ _ v6 w fl7 eq_refl _ eq_refl R). change (val v6 $"-std=c++17 ${CMAKE_CXX_LINKER_FLAGS} -fno-rtti -fPIC ${CMAKE_CXX_FLAGS}")
          with ($"-std=c++17 " ++ text v6 linker ++ $" -fno-rtti -fPIC " ++ text v6 flags ++ []). rewrite app_nil_r, L6, F6. reflexivity. }
    clear R. destruct X7 as (f7 & R). set (v7 := assign v6 flags (Some fl7)) in R. set (sh := ld ++ $" -fno-rtti").
    assert (Sh : existsb special sh = true) by (unfold sh; rewrite existsb_app; apply Bool.orb_true_r).
    assert (X8 : exists f, config_run e f (rest 8) (assign v7 shared (Some sh)) = Some w).
    { refine (set_quoted e f7 shared _ _ v7 w sh eq_refl _ Sh R). change (val v7 $"${CMAKE_CXX_LINKER_FLAGS} -fno-rtti") with (text v7 linker ++ $" -fno-rtti").
        replace (text v7 linker) with (text v6 linker) by reflexivity. rewrite L6. reflexivity. }
    clear R. destruct X8 as (f8 & R). set (v8 := assign v7 shared (Some sh)) in R.
    assert (F8 : v8 flags = Some fl7 /\ v8 shared = Some sh) by (split; reflexivity).
    assert (K8 : forall k, In k [$"APPLE"; $"OCLINT_BUILD_TYPE"; $"DOC_GEN_BUILD"] -> v8 k = given k).
    { intros k I. unfold v8, v7. rewrite !assign_other; [apply K6; cbn [In] in *; tauto| |]; cbn [In] in I; repeat destruct I as [<-|I]; discriminate || destruct I. }
    clearbody v8. clear v7 L6 F6 K6. assert (E7 : fl7 = $"-std=c++17 " ++ ld ++ $" -fno-rtti -fPIC " ++ fl) by reflexivity. assert (Es : sh = ld ++ $" -fno-rtti") by reflexivity. assert (El : ld = text given linker) by reflexivity. assert (Ef : fl = if clang then $"-fcolor-diagnostics" else text given flags) by reflexivity. clearbody fl7 sh ld fl.
    assert (S7 : existsb special fl7 = true) by (rewrite E7; reflexivity).
    (* Apple *)
    assert (E : rest 8 = cmd $"if" [u $"APPLE"] :: tl (rest 8)) by checks. rewrite E in R. clear E.
    apply (if_variable e f8 $"APPLE" _ {| i_then := [cmd $"set" [u flags; q $"${CMAKE_CXX_FLAGS} -fvisibility-inlines-hidden"]; cmd $"set" [u shared; q $"${CMAKE_SHARED_LINKER_FLAGS}"]];
                                          i_else := []; i_rest := rest 9 |}) in R as (f9 & v9 & R1 & R); [|reflexivity..|checks].
    cbn [i_then i_else i_rest] in R1, R. set (fl9 := fl7 ++ (if apple then $" -fvisibility-inlines-hidden" else [])).
    replace (truth v8 $"APPLE") with apple in R1 by (unfold truth; rewrite K8 by (cbn [In]; tauto); symmetry; apply truth_asks, Ap).
    assert (V9 : v9 flags = Some fl9 /\ v9 shared = Some sh /\ v9 $"OCLINT_BUILD_TYPE" = given $"OCLINT_BUILD_TYPE" /\ v9 $"DOC_GEN_BUILD" = given $"DOC_GEN_BUILD").
    { destruct F8 as [F8 S8]. destruct apple.
      - apply (set_quoted e f9 flags _ _ v8 v9 fl9) in R1 as (f' & R1); [|reflexivity| |unfold fl9; rewrite existsb_app, S7; reflexivity].
        + apply (set_quoted e f' shared _ _ _ v9 sh) in R1 as (f'' & R1); [|reflexivity| |exact Sh].
          * apply run_nil in R1 as ->. split; [reflexivity|]. split; [reflexivity|]. split; rewrite !assign_other by discriminate; apply K8; cbn [In]; tauto.
          * change (text (assign v8 flags (Some fl9)) shared ++ [] = sh). rewrite app_nil_r. unfold text. rewrite assign_other by discriminate. rewrite S8. reflexivity.
        + change (text v8 flags ++ $" -fvisibility-inlines-hidden" = fl9). unfold text. rewrite F8. reflexivity.
      - apply run_nil in R1 as ->. unfold fl9. rewrite app_nil_r. split; [exact F8|]. split; [exact S8|]. split; apply K8; cbn [In]; tauto. }
    destruct V9 as (F9 & S9 & K9 & D9). clear F8 K8 R1 Ap.
    (* Release *)
    assert (E : rest 9 = cmd $"if" [u $"OCLINT_BUILD_TYPE"; u $"STREQUAL"; q $"Release"] :: tl (rest 9)) by checks. rewrite E in R. clear E.
    apply (config_if e f9 _ _ {| i_then := [cmd $"set" [u flags; q $"-O3 -DNDEBUG ${CMAKE_CXX_FLAGS}"]; cmd $"set" [u shared; q $"-s ${CMAKE_SHARED_LINKER_FLAGS}"]];
                                 i_else := [cmd $"set" [u flags; q $"-O0 -g ${CMAKE_CXX_FLAGS}"]; cmd $"set" [u shared; q $"-g ${CMAKE_SHARED_LINKER_FLAGS}"]];
                                 i_rest := rest 10 |}) in R as (f10 & x & v10 & C & R1 & R); [|reflexivity|checks].
    assert (X : x = release).
    { unfold cmd in C. cbn [c_args] in C. rewrite (word_value _ $"OCLINT_BUILD_TYPE"), (word_value _ $"STREQUAL") in C by reflexivity.
      change (values v9 [q $"Release"]) with [(true, $"Release")] in C.
      change (Some (str_eqb (match v9 $"OCLINT_BUILD_TYPE" with Some x => x | None => $"OCLINT_BUILD_TYPE" end) $"Release") = Some x) in C.
      rewrite K9 in C. assert (C' : str_eqb (match given $"OCLINT_BUILD_TYPE" with Some x => x | None => $"OCLINT_BUILD_TYPE" end) $"Release" = x) by congruence.
      rewrite <- C'. clear C C'. destruct release.
      - rewrite Rel. reflexivity.
      - destruct (given $"OCLINT_BUILD_TYPE") as [y|]; [|reflexivity]. apply str_eqb_neq. congruence. }
    subst x. clear C. cbn [i_then i_else i_rest] in R1, R. exists f10, v10. split; [exact R|].
    assert (Go : forall p1 p2 l1 l2, existsb special p1 = true -> existsb special p2 = true ->
              (forall v, val v l1 = p1 ++ text v flags ++ []) -> (forall v, val v l2 = p2 ++ text v shared ++ []) ->
              config_run e f10 [cmd $"set" [u flags; q l1]; cmd $"set" [u shared; q l2]] v9 = Some v10 ->
              v10 flags = Some (p1 ++ fl9) /\ v10 shared = Some (p2 ++ sh) /\ v10 $"DOC_GEN_BUILD" = given $"DOC_GEN_BUILD").
    { intros p1 p2 l1 l2 S1 S2 E1 E2 G. apply (set_quoted e f10 flags _ _ v9 v10 (p1 ++ fl9)) in G as (f' & G); [|reflexivity| |rewrite existsb_app, S1; reflexivity].
      - apply (set_quoted e f' shared _ _ _ v10 (p2 ++ sh)) in G as (f'' & G); [|reflexivity| |rewrite existsb_app, S2; reflexivity].
        + apply run_nil in G as ->. split; [reflexivity|]. split; [reflexivity|]. rewrite !assign_other by discriminate. exact D9.
        + rewrite E2, app_nil_r. unfold text. rewrite assign_other by discriminate. rewrite S9. reflexivity.
      - rewrite E1, app_nil_r. unfold text. rewrite F9. reflexivity. }
    assert (Fl : forall p, p ++ fl9 = p ++ $"-std=c++17 " ++ ld ++ $" -fno-rtti -fPIC " ++ fl ++ (if apple then $" -fvisibility-inlines-hidden" else []))
      by (intros p; unfold fl9; rewrite E7, <- !app_assoc; reflexivity).
    assert (Cf : compiler_flags false release clang apple given = (if release then $"-O3 -DNDEBUG " else $"-O0 -g ") ++ $"-std=c++17 " ++ ld ++ $" -fno-rtti -fPIC " ++ fl
                   ++ (if apple then $" -fvisibility-inlines-hidden" else [])) by (rewrite El, Ef; reflexivity).
    assert (Lf : linker_flags release given = (if release then $"-s " else $"-g ") ++ sh) by (rewrite Es, El; reflexivity).
    rewrite Cf, Lf. clear Cf Lf. destruct release.
    - apply (Go $"-O3 -DNDEBUG " $"-s ") in R1 as (A & B & D); try reflexivity. rewrite Fl in A. split; [exact A|]. split; [exact B|exact D].
    - apply (Go $"-O0 -g " $"-g ") in R1 as (A & B & D); try reflexivity. rewrite Fl in A. split; [exact A|]. split; [exact B|exact D].
  Qed.
End Flags.

Theorem c147_flags : forall e given w (doc release clang apple : bool),
  oclint_config e given = Some w -> leaves e [$"CMAKE_CXX_FLAGS"; $"CMAKE_SHARED_LINKER_FLAGS"; $"DOC_GEN_BUILD"] ->
  asks given $"DOC_GEN_BUILD" doc ->
  (if release then given $"OCLINT_BUILD_TYPE" = Some $"Release" else given $"OCLINT_BUILD_TYPE" <> Some $"Release") ->
  says_clang (text given $"CMAKE_CXX_COMPILER_ID") clang -> asks given $"APPLE" apple ->
  w $"CMAKE_CXX_FLAGS" = Some (compiler_flags doc release clang apple given)
  /\ w $"CMAKE_SHARED_LINKER_FLAGS" = Some (linker_flags release given).
Proof.
  intros e given w doc release clang apple Run L Doc Rel Cl Ap.
  destruct (flags_are e given w Run release clang apple Rel Cl Ap) as (f & v & R & F & S & D). clear Run.
  destruct (config_at e (remaining config_commands 10) 12 f v w ltac:(checks) R) as (f2 & v2 & R2 & K).
  assert (K2 : forall k, In k [$"CMAKE_CXX_FLAGS"; $"CMAKE_SHARED_LINKER_FLAGS"; $"DOC_GEN_BUILD"] -> v2 k = v k).
  { intros k I. apply K; [intros _ a b; apply L, I|]. cbn [In] in I. repeat destruct I as [<-|I]; (checks) || destruct I. }
  assert (E : remaining (remaining config_commands 10) 12 = cmd $"if" [u $"DOC_GEN_BUILD"] :: tl (remaining (remaining config_commands 10) 12)) by checks.
  rewrite E in R2. clear E K R.
  apply (if_variable e f2 $"DOC_GEN_BUILD" _ {| i_then := [cmd $"set" [u $"CMAKE_CXX_FLAGS"; q $"-DDOCGEN ${CMAKE_CXX_FLAGS}"]]; i_else := []; i_rest := [] |})
    in R2 as (f3 & v3 & R3 & R); [|reflexivity..|checks]. apply run_nil in R as ->. cbn [i_then i_else] in R3.
  replace (truth v2 $"DOC_GEN_BUILD") with doc in R3 by (unfold truth; rewrite K2, D by (cbn [In]; tauto); symmetry; apply truth_asks, Doc).
  rewrite <- (K2 $"CMAKE_CXX_FLAGS") in F by (cbn [In]; tauto). rewrite <- (K2 $"CMAKE_SHARED_LINKER_FLAGS") in S by (cbn [In]; tauto).
  destruct doc.
  - apply (set_quoted e f3 $"CMAKE_CXX_FLAGS" _ _ v2 v3 ($"-DDOCGEN " ++ compiler_flags false release clang apple given)) in R3 as (f4 & R3); [|reflexivity| |reflexivity].
    + apply run_nil in R3 as ->. split; [reflexivity|]. rewrite assign_other by discriminate. exact S.
    + change ($"-DDOCGEN " ++ text v2 $"CMAKE_CXX_FLAGS" ++ [] = $"-DDOCGEN " ++ compiler_flags false release clang apple given). unfold text. rewrite F, app_nil_r. reflexivity.
  - apply run_nil in R3 as ->. split; [exact F|exact S].
Qed.
Print Assumptions c147_flags.

(** ** Where libraries are looked for *)
Theorem c147_rpath : forall e given w (apple unix : bool),
  oclint_config e given = Some w -> leaves e [$"CMAKE_INSTALL_RPATH"; $"CMAKE_BUILD_WITH_INSTALL_RPATH"] ->
  asks given $"APPLE" apple -> asks given $"UNIX" unix ->
  w $"CMAKE_INSTALL_RPATH" = library_path apple unix given
  /\ (apple || unix = true -> w $"CMAKE_BUILD_WITH_INSTALL_RPATH" = Some $"ON").
Proof.
  intros e given w apple unix Run L Ap Un. destruct (config_down e given w Run 4) as (f & v & R & K); [checks|].
  assert (K4 : forall k, In k [$"APPLE"; $"UNIX"; $"CMAKE_INSTALL_RPATH"] -> v k = given k).
  { intros k I. apply K; [noload|]. cbn [In] in I. repeat destruct I as [<-|I]; (checks) || destruct I. }
  assert (E : remaining config_commands 4 = cmd $"if" [u $"APPLE"] :: tl (remaining config_commands 4)) by checks. rewrite E in R. clear E K Run.
  set (paths := fun d => [cmd $"set" [u $"CMAKE_INSTALL_RPATH"; q d]; cmd $"set" [u $"CMAKE_BUILD_WITH_INSTALL_RPATH"; u $"ON"]]).
  apply (if_variable e f $"APPLE" _ {| i_then := paths $"@executable_path/../lib";
                                       i_else := cmd $"if" [u $"UNIX"] :: paths $"$ORIGIN/../lib" ++ [cmd $"endif" []]; i_rest := remaining config_commands 5 |})
    in R as (f2 & v2 & R2 & R); [|reflexivity..|checks]. cbn [i_then i_else i_rest] in R2, R.
  assert (Go : forall f d v v', existsb special d = true -> (forall v, val v d = d) -> config_run e f (paths d) v = Some v' ->
            v' $"CMAKE_INSTALL_RPATH" = Some d /\ v' $"CMAKE_BUILD_WITH_INSTALL_RPATH" = Some $"ON").
  { intros f' d a b S V G. unfold paths in G. apply (set_quoted e f' _ d _ a b d) in G as (f3 & G); [|reflexivity|apply V|exact S].
    apply set_word in G as (f4 & G); [|reflexivity..]. apply run_nil in G as ->. split; reflexivity. }
  assert (X : v2 $"CMAKE_INSTALL_RPATH" = library_path apple unix given /\ (apple || unix = true -> v2 $"CMAKE_BUILD_WITH_INSTALL_RPATH" = Some $"ON")).
  { replace (truth v $"APPLE") with apple in R2 by (unfold truth; rewrite K4 by (cbn [In]; tauto); symmetry; apply truth_asks, Ap). destruct apple.
    - apply Go in R2 as [A B]; [|reflexivity|intros; reflexivity]. split; [exact A|intros _; exact B].
    - apply (if_variable e f2 $"UNIX" _ {| i_then := paths $"$ORIGIN/../lib"; i_else := []; i_rest := [] |}) in R2 as (f3 & v3 & R3 & R2); [|reflexivity..|checks].
      apply run_nil in R2 as ->. cbn [i_then i_else] in R3.
      replace (truth v $"UNIX") with unix in R3 by (unfold truth; rewrite K4 by (cbn [In]; tauto); symmetry; apply truth_asks, Un). destruct unix.
      + apply Go in R3 as [A B]; [|reflexivity|intros; reflexivity]. split; [exact A|intros _; exact B].
      + apply run_nil in R3 as ->. split; [apply K4; cbn [In]; tauto|discriminate]. }
  assert (K5 : forall k, In k [$"CMAKE_INSTALL_RPATH"; $"CMAKE_BUILD_WITH_INSTALL_RPATH"] -> w k = v2 k).
  { intros k I. apply (config_keeps e k (remaining config_commands 5) f2 v2 w); [intros _ a b; apply L, I| |exact R]. cbn [In] in I. repeat destruct I as [<-|I]; (checks) || destruct I. }
  rewrite !K5 by (cbn [In]; tauto). exact X.
Qed.
Print Assumptions c147_rpath.

(** ** What is always the same *)
Theorem c147_always : forall e given w, oclint_config e given = Some w ->
  leaves e [$"OCLINT_VERSION_RELEASE"; $"CMAKE_BUILD_TYPE"; $"CMAKE_DISABLE_SOURCE_CHANGES"; $"CMAKE_DISABLE_IN_SOURCE_BUILD"] ->
  w $"OCLINT_VERSION_RELEASE" = Some oclint_version /\ w $"CMAKE_BUILD_TYPE" = Some $"None"
  /\ w $"CMAKE_DISABLE_SOURCE_CHANGES" = Some $"ON" /\ w $"CMAKE_DISABLE_IN_SOURCE_BUILD" = Some $"ON".
Proof.
  intros e given w Run L.
  assert (Word : forall n k x, In k [$"OCLINT_VERSION_RELEASE"; $"CMAKE_BUILD_TYPE"; $"CMAKE_DISABLE_SOURCE_CHANGES"; $"CMAKE_DISABLE_IN_SOURCE_BUILD"] ->
            far config_commands n = true -> remaining config_commands n = cmd $"set" [u k; u x] :: remaining config_commands (S n) ->
            plain_word (u k) = Some k -> plain_word (u x) = Some x -> str_eqb x $"CACHE" || str_eqb x $"PARENT_SCOPE" = false ->
            sparing k (remaining config_commands (S n)) = true -> w k = Some x).
  { intros n k x I F E P1 P2 N S. destruct (config_down e given w Run n F) as (f & v & R & _). rewrite E in R. apply set_word in R as (f2 & R); [|assumption..].
    rewrite (config_keeps e k (remaining config_commands (Datatypes.S n)) f2 _ w (fun _ a b => L k a b I) S R). apply assign_same. }
  split; [|split; [|split]].
  - destruct (config_down e given w Run 11) as (f & v & R & _); [checks|].
    assert (E : remaining config_commands 11 = cmd $"set" [u $"OCLINT_VERSION_RELEASE"; q $"26.02"] :: remaining config_commands 12) by checks. rewrite E in R.
    apply config_step in R as (f2 & v2 & C & R); [|reflexivity]. unfold cmd in C. rewrite (config_set e _ v $"OCLINT_VERSION_RELEASE" $"26.02" []) in C; [|reflexivity|reflexivity].
    injection C as <-. rewrite (config_keeps e $"OCLINT_VERSION_RELEASE" (remaining config_commands 12) f2 _ w (fun _ a b => L _ a b (or_introl eq_refl)) ltac:(checks) R).
    apply assign_same.
  - apply (Word 3); [cbn [In]; tauto|checks..].
  - apply (Word 0); [cbn [In]; tauto|checks..].
  - apply (Word 1); [cbn [In]; tauto|checks..].
Qed.
Print Assumptions c147_always.

(** ** Where LLVM is looked for *)
Definition root_part : list command := match branches 0 (tl (remaining config_commands 12)) with Some b => i_then b | None => [] end.
Section LLVM.
  Variable e : surroundings.
  Variable given : variables.
  Variable r : str.
  Hypothesis Root : given $"LLVM_ROOT" = Some r.
  Hypothesis True_ : false_constant r = false.
  Hypothesis Nr : ~ In ";"%char r.
  Lemma root_path : forall v p, v $"LLVM_ROOT" = Some r -> forallb (fun c => negb (ascii_eqb c ";"%char)) p = true ->
    (forall v, val v ($"${LLVM_ROOT}" ++ p) = text v $"LLVM_ROOT" ++ p) -> forall l, values v (u ($"${LLVM_ROOT}" ++ p) :: l) = (false, r ++ p) :: values v l.
  Proof.
    intros v p V N E l. apply values_u.
    - rewrite E. unfold text. rewrite V. reflexivity.
    - intros I. apply in_app_iff in I as [I|I]; [exact (Nr I)|]. rewrite forallb_forall in N. specialize (N _ I). discriminate.
    - intros X. apply app_eq_nil in X as [X _]. rewrite X in True_. discriminate.
  Qed.
  Lemma root_run : forall w, oclint_config e given = Some w ->
    e_files e (r ++ $"/include/llvm") <> None
    /\ exists v v', e_llvm e v = Some v'
         /\ v $"LLVM_DIR" = Some (if isfile (e_files e) (r ++ $"/lib/cmake/llvm") then r ++ $"/lib/cmake/llvm" else r ++ $"/share/llvm/cmake")
         /\ (leaves e [$"LLVM_DIR"] -> w $"LLVM_DIR" = v $"LLVM_DIR").
  Proof.
    intros w Run. destruct (config_down e given w Run 12) as (f & v & R & K); [checks|].
    assert (V : v $"LLVM_ROOT" = Some r) by (rewrite K; [exact Root|noload|checks]). clear K Run.
    assert (E : remaining config_commands 12 = cmd $"if" [u $"LLVM_ROOT"] :: tl (remaining config_commands 12)) by checks. rewrite E in R. clear E.
    apply (if_variable e f $"LLVM_ROOT" _ {| i_then := root_part; i_else := [cmd $"find_package" [u $"LLVM"; u $"REQUIRED"; u $"CONFIG"]]; i_rest := remaining config_commands 13 |})
      in R as (f2 & v2 & R2 & R); [|reflexivity..|checks]. cbn [i_then i_else i_rest] in R2, R.
    replace (truth v $"LLVM_ROOT") with true in R2 by (unfold truth; rewrite V, True_; reflexivity).
    assert (E : root_part = cmd $"if" [u $"NOT"; u $"EXISTS"; u $"${LLVM_ROOT}/include/llvm"] :: tl root_part) by checks. rewrite E in R2. clear E.
    apply (config_if e f2 _ _ {| i_then := [cmd $"message" [u $"FATAL_ERROR"; q $"LLVM_ROOT (${LLVM_ROOT}) is not a valid LLVM install. Could not find ${LLVM_ROOT}/include/llvm"]];
                                 i_else := []; i_rest := skipn 3 root_part |}) in R2 as (f3 & x & v3 & C & R3 & R2); [|reflexivity|checks]. cbn [i_then i_else i_rest] in R3, R2.
    unfold cmd in C. cbn [c_args] in C. rewrite (word_value _ $"NOT"), (word_value _ $"EXISTS") in C by reflexivity.
    change (u $"${LLVM_ROOT}/include/llvm") with (u ($"${LLVM_ROOT}" ++ $"/include/llvm")) in C. rewrite root_path in C; [|exact V|reflexivity|intros; reflexivity].
    change (Some (negb (isfile (e_files e) (r ++ $"/include/llvm"))) = Some x) in C.
    assert (X : negb (isfile (e_files e) (r ++ $"/include/llvm")) = x) by congruence. clear C. destruct x.
    { exfalso. apply config_step in R3 as (f4 & v4 & C & _); [|reflexivity]. discriminate C. }
    split.
    { unfold isfile in X. destruct (e_files e (r ++ $"/include/llvm")); [discriminate|discriminate X]. }
    apply run_nil in R3 as ->. clear X.
    assert (E : skipn 3 root_part = cmd $"message" [q $"LLVM_ROOT: ${LLVM_ROOT}"] :: cmd $"if" [u $"EXISTS"; u $"${LLVM_ROOT}/lib/cmake/llvm"] :: skipn 5 root_part) by checks.
    rewrite E in R2. clear E. apply config_step in R2 as (f4 & v4 & C & R2); [|reflexivity].
    assert (E4 : v4 = v).
    { unfold cmd, config_command in C. cbn [c_name c_args] in C. change (plain_values v [q $"LLVM_ROOT: ${LLVM_ROOT}"]) with [$"LLVM_ROOT: " ++ text v $"LLVM_ROOT" ++ []] in C.
      cbn in C. congruence. }
    subst v4. clear C.
    apply (config_if e f4 _ _ {| i_then := [cmd $"set" [u $"LLVM_DIR"; u $"${LLVM_ROOT}/lib/cmake/llvm"]]; i_else := [cmd $"set" [u $"LLVM_DIR"; u $"${LLVM_ROOT}/share/llvm/cmake"]];
                                 i_rest := [cmd $"set" [u $"CMAKE_MODULE_PATH"; u $"${CMAKE_MODULE_PATH}"; q $"${LLVM_DIR}"]; cmd $"include" [u $"LLVMConfig"]] |})
      in R2 as (f5 & x & v5 & C & R5 & R6); [|reflexivity|checks]. cbn [i_then i_else i_rest] in R5, R6.
    unfold cmd in C. cbn [c_args] in C. rewrite (word_value _ $"EXISTS") in C by reflexivity.
    change (u $"${LLVM_ROOT}/lib/cmake/llvm") with (u ($"${LLVM_ROOT}" ++ $"/lib/cmake/llvm")) in C. rewrite root_path in C; [|exact V|reflexivity|intros; reflexivity].
    change (Some (isfile (e_files e) (r ++ $"/lib/cmake/llvm")) = Some x) in C.
    assert (X : isfile (e_files e) (r ++ $"/lib/cmake/llvm") = x) by congruence. clear C. rewrite X. clear X.
    assert (Go : forall p, existsb special p = true -> forallb (fun c => negb (ascii_eqb c ";"%char)) p = true -> (forall v, val v ($"${LLVM_ROOT}" ++ p) = text v $"LLVM_ROOT" ++ p) ->
              config_run e f5 [cmd $"set" [u $"LLVM_DIR"; u ($"${LLVM_ROOT}" ++ p)]] v = Some v5 -> v5 $"LLVM_DIR" = Some (r ++ p)).
    { intros p S N Ex G. apply config_step in G as (f6 & v6 & C & G); [|reflexivity]. apply run_nil in G as <-. unfold cmd in C. rewrite (config_set e _ v $"LLVM_DIR" (r ++ p) []) in C.
      - injection C as <-. rewrite assign_same. cbn [list_of flat_map]. rewrite app_nil_r. reflexivity.
      - unfold plain_values. rewrite (word_value _ $"LLVM_DIR") by reflexivity. rewrite root_path by assumption. reflexivity.
      - cbn [existsb]. rewrite Bool.orb_false_r. apply Bool.orb_false_iff. assert (Sr : existsb special (r ++ p) = true) by (rewrite existsb_app, S; apply Bool.orb_true_r).
        split; apply str_eqb_neq; intros Eq; rewrite Eq in Sr; discriminate. }
    assert (V5 : v5 $"LLVM_DIR" = Some (if x then r ++ $"/lib/cmake/llvm" else r ++ $"/share/llvm/cmake")).
    { destruct x; [apply (Go $"/lib/cmake/llvm")|apply (Go $"/share/llvm/cmake")]; try reflexivity; exact R5. }
    clear Go R5. apply config_step in R6 as (f7 & v7 & C & R7); [|reflexivity].
    assert (V7 : v7 $"LLVM_DIR" = v5 $"LLVM_DIR").
    { refine (command_spares e $"LLVM_DIR" _ _ _ _ C). split; [reflexivity|]. noload. }
    apply config_step in R7 as (f8 & v8 & C8 & R8); [|reflexivity]. apply run_nil in R8 as ->.
    change (e_llvm e v7 = Some v8) in C8. exists v7, v8. split; [exact C8|]. split; [congruence|].
    intros L. rewrite <- (L $"LLVM_DIR" v7 v8 (or_introl eq_refl) C8).
    apply (config_keeps e $"LLVM_DIR" (remaining config_commands 13) f2 v8 w); [noload|checks|exact R].
  Qed.
End LLVM.
Theorem c147_llvm_root : forall e given r, given $"LLVM_ROOT" = Some r -> false_constant r = false -> ~ In ";"%char r ->
  (e_files e (r ++ $"/include/llvm") = None -> oclint_config e given = None)
  /\ forall w, oclint_config e given = Some w -> leaves e [$"LLVM_DIR"] ->
       exists d, w $"LLVM_DIR" = Some (r ++ d)
         /\ (d = $"/lib/cmake/llvm" /\ e_files e (r ++ $"/lib/cmake/llvm") <> None \/ d = $"/share/llvm/cmake" /\ e_files e (r ++ $"/lib/cmake/llvm") = None).
Proof.
  intros e given r Root T N. split.
  - intros F. destruct (oclint_config e given) as [w|] eqn:Run; [|reflexivity]. destruct (root_run e given r Root T N w Run) as [X _]. congruence.
  - intros w Run L. destruct (root_run e given r Root T N w Run) as (_ & v & v' & _ & V & W). specialize (W L). rewrite V in W. unfold isfile in W.
    destruct (e_files e (r ++ $"/lib/cmake/llvm")); [exists $"/lib/cmake/llvm"|exists $"/share/llvm/cmake"]; (split; [exact W|]); [left|right]; split; congruence.
Qed.
Print Assumptions c147_llvm_root.

(** ** Cases and findings *)
Definition debian : surroundings := {|
  e_files := fun p => if existsb (str_eqb p) [$"/usr/lib/llvm/include/llvm"; $"/usr/lib/llvm/lib/cmake/llvm"] then Some [] else None;
  e_llvm := fun v => Some (assign v $"LLVM_PACKAGE_VERSION" (Some $"19.1.7"));
  e_libnames := map (app $"LLVM");
  e_match := fun _ t => t;
  e_program := fun _ => None
|}.
Definition invoked (id root : str) : variables := fun k =>
  if str_eqb k $"CMAKE_CXX_COMPILER_ID" then Some id
  else if str_eqb k $"LLVM_ROOT" then Some root
  else if str_eqb k $"OCLINT_BUILD_TYPE" then Some $"Release"
  else if str_eqb k $"CMAKE_CXX_FLAGS" then Some $"-Wall"
  else if str_eqb k $"UNIX" then Some $"1" else None.
Lemma debian_leaves : forall l, ~ In $"LLVM_PACKAGE_VERSION" l -> leaves debian l.
Proof. intros l N k v w I E. injection E as <-. apply assign_other. intros <-. exact (N I). Qed.
Example c147_case : forall id, In id [$"GNU"; $"AppleClang"] -> let given := invoked id $"/usr/lib/llvm" in
  (exists w, oclint_config debian given = Some w) /\ asks given $"DOC_GEN_BUILD" false /\ given $"OCLINT_BUILD_TYPE" = Some $"Release"
  /\ says_clang (text given $"CMAKE_CXX_COMPILER_ID") (str_eqb id $"AppleClang") /\ asks given $"APPLE" false /\ asks given $"UNIX" true
  /\ given $"LLVM_ROOT" = Some $"/usr/lib/llvm" /\ false_constant $"/usr/lib/llvm" = false
  /\ leaves debian [$"CMAKE_CXX_FLAGS"; $"CMAKE_SHARED_LINKER_FLAGS"; $"DOC_GEN_BUILD"; $"CMAKE_INSTALL_RPATH"; $"CMAKE_BUILD_WITH_INSTALL_RPATH"; $"LLVM_DIR";
                     $"OCLINT_VERSION_RELEASE"; $"CMAKE_BUILD_TYPE"; $"CMAKE_DISABLE_SOURCE_CHANGES"; $"CMAKE_DISABLE_IN_SOURCE_BUILD"].
Proof.
  intros id I given.
  assert (X : match oclint_config debian given with Some _ => true | None => false end = true).
  { unfold given. cbn [In] in I. destruct I as [<-|[<-|[]]]; vm_compute; reflexivity. }
  split; [destruct (oclint_config debian given) as [w|]; [exists w; reflexivity|discriminate X]|]. clear X.
  split; [left; reflexivity|]. split; [reflexivity|]. split.
  { cbn [In] in I. destruct I as [<-|[<-|[]]]; [exact (proj1 (find_sub_none $"Clang" $"GNU") eq_refl)|exists $"Apple", []; reflexivity]. }
  split; [left; reflexivity|]. split; [exists $"1"; split; [reflexivity|left; reflexivity]|]. split; [reflexivity|]. split; [reflexivity|].
  apply debian_leaves. cbn [In]. intros J. repeat destruct J as [J|J]; discriminate || destruct J.
Qed.
(** A directory that is no LLVM. *)
Example c147_root_case : (invoked $"GNU" $"/tmp") $"LLVM_ROOT" = Some $"/tmp" /\ false_constant $"/tmp" = false /\ e_files debian ($"/tmp" ++ $"/include/llvm") = None.
Proof. repeat split; reflexivity. Qed.
(** Flags the user gives are kept, but not with Clang. *)
Theorem c147_user_flags_refuted : exists e given w, oclint_config e given = Some w /\ given $"CMAKE_CXX_FLAGS" = Some $"-Wall"
  /\ leaves e [$"CMAKE_CXX_FLAGS"] /\ exists fl, w $"CMAKE_CXX_FLAGS" = Some fl /\ forall x y, fl <> x ++ $"-Wall" ++ y.
Proof.
  exists debian, (invoked $"Clang" $"/usr/lib/llvm").
  assert (X : match oclint_config debian (invoked $"Clang" $"/usr/lib/llvm") with
              | Some w => match w $"CMAKE_CXX_FLAGS" with Some fl => negb (contains $"-Wall" fl) | None => false end | None => false end = true) by (vm_compute; reflexivity).
  destruct (oclint_config debian _) as [w|]; [|discriminate X]. exists w. split; [reflexivity|]. split; [reflexivity|].
  split; [apply debian_leaves; intros [J|[]]; discriminate|]. destruct (w $"CMAKE_CXX_FLAGS") as [fl|]; [|discriminate X]. exists fl. split; [reflexivity|].
  apply find_sub_none. unfold contains in X. destruct (find_sub _ fl); [discriminate X|reflexivity].
Qed.
Print Assumptions c147_user_flags_refuted.
