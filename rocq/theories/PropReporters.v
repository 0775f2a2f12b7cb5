(** * Properties C66-C69, C93-C97: reports *)
From Verif Require Import Base BaseFacts ModelResults SpecResults ProofResults ModelConfig SpecConfig ProofConfig ModelFilter ModelOptions SpecOptions
  ModelMain SpecMain ProofMain SpecJSON SpecXML ModelReporters SpecReporters ProofReporters PropResults PropMain.
From Verif Require ProofJSON ProofXML.

(** Data for the examples. *)
Definition ex_finding (path msg : str) (rule : ruleptr) : violation :=
  {| v_rule := rule; v_path := path; v_startLine := 3; v_startColumn := 14; v_endLine := 5; v_endColumn := 0; v_message := msg |}.
Definition ex_rules : ruleenv := fun a =>
  {| ri_name := $"long line"; ri_identifier := $"LongLine"; ri_category := $"size"; ri_priority := Z.of_nat (S a) |}.
Definition ex_c : collector :=
  {| c_collection := [[ex_finding $"a.m" $"first" (Some 2); ex_finding $"b.h" $"second" (Some 0)]; []; [ex_finding $"c.m" $"third" (Some 0)]];
     c_errors := [ex_finding $"d.m" $"unknown type" None]; c_warnings := []; c_bugs := [ex_finding $"e.m" $"null dereference" None] |}.
Definition ex_view : view :=
  {| vw_violations := map (entry_of ex_rules) (concat (c_collection ex_c)); vw_errors := map (entry_of ex_rules) (c_errors ex_c);
     vw_warnings := []; vw_bugs := map (entry_of ex_rules) (c_bugs ex_c); vw_files := 3; vw_filesWithViolations := 2 |}.
Example ex_view_presents : presents ex_rules true ex_c ex_view /\ ruled_view ex_view
  /\ Forall readable (vw_violations ex_view ++ vw_errors ex_view ++ vw_warnings ex_view ++ vw_bugs ex_view)
  /\ Forall html_plain (vw_violations ex_view ++ vw_errors ex_view ++ vw_warnings ex_view ++ vw_bugs ex_view).
Proof.
  split; [|split; [|split]].
  - do 4 (split; [eexists; split; reflexivity|]). split; [reflexivity|]. exists 2. split; [|reflexivity]. exists [$"a.m"; $"c.m"].
    split; [repeat constructor; vm_compute; intuition discriminate|]. split; [|reflexivity]. intros x. cbn. tauto.
  - repeat (apply Forall_cons; [discriminate|]). apply Forall_nil.
  - repeat (apply Forall_cons; [do 3 (split; [vm_compute; intuition discriminate|]);
      intros r H; first [discriminate H|injection H as <-; split; vm_compute; intuition discriminate]|]). apply Forall_nil.
  - repeat (apply Forall_cons; [unfold html_plain; repeat (apply Forall_cons; [vm_compute; intuition discriminate|]); apply Forall_nil|]). apply Forall_nil.
Qed.
(** Every result has such a description. *)
Theorem presented : forall env dup c, exists V, presents env dup c V.
Proof. exact presents_total. Qed.
Lemma reports_compute r c o : reval (fun q => collected_list q c) (rp_report r c) = o -> reports r true c o.
Proof. intros <-. apply reval_session. intros q. reflexivity. Qed.

Lemma val_inj (a b : str) : Val a = Val b -> a = b.
Proof. now intros [= H]. Qed.

Definition exm_reporter_x : reporter := {| rp_name := $"xml"; rp_report := fun _ => RDone (Val []) |}.

(** ** C66 *)
(** Numbers are written in decimal. *)
Theorem c66_numbers : forall z t, decimal z t <-> t = show_Z z.
Proof. exact decimal_show. Qed.
Theorem c66_xcode_exact : forall env dup c V o, presents env dup c V -> ruled_view V ->
  (reports (XcodeReporter env) dup c o <-> o = Val (xcode_text V)).
Proof. exact xcode_exact. Qed.
(** One line per violation, nothing else, and the violations can be read back: two results with
    the same report have the same violations. *)
Theorem c66_xcode_lossless : forall env dup c V env' dup' c' V' text,
  presents env dup c V -> presents env' dup' c' V' -> ruled_view V -> ruled_view V' ->
  Forall readable (vw_violations V) -> Forall readable (vw_violations V') ->
  reports (XcodeReporter env) dup c (Val text) -> reports (XcodeReporter env') dup' c' (Val text) ->
  map place_and_rule (vw_violations V) = map place_and_rule (vw_violations V').
Proof.
  intros env dup c V env' dup' c' V' text P P' R R' O O' S S'. apply (xcode_exact _ _ _ V) in S; auto. apply (xcode_exact _ _ _ V') in S'; auto.
  apply xcode_read; auto. congruence.
Qed.
(** A line feed in a message makes one violation look like two. *)
Theorem c66_line_feed_refuted : exists env c c' text,
  reports (XcodeReporter env) true c (Val text) /\ reports (XcodeReporter env) true c' (Val text)
  /\ length (concat (c_collection c)) <> length (concat (c_collection c')).
Proof.
  exists ex_rules,
    {| c_collection := [[ex_finding $"a.m" ($"x" ++ [NL] ++ $"b.m:3:14: warning: long line [size|P1] y") (Some 0)]]; c_errors := []; c_warnings := []; c_bugs := [] |},
    {| c_collection := [[ex_finding $"a.m" $"x" (Some 0); ex_finding $"b.m" $"y" (Some 0)]]; c_errors := []; c_warnings := []; c_bugs := [] |}.
  eexists. split; [apply reports_compute; vm_compute; reflexivity|]. split; [apply reports_compute; vm_compute; reflexivity|]. discriminate.
Qed.
Theorem c66_text_exact : forall env dup c V o, presents env dup c V -> ruled_view V ->
  (reports (TextReporter env) dup c o <-> o = Val (text_text V)).
Proof. exact text_exact. Qed.
Theorem c66_text_lossless : forall env dup c V env' dup' c' V' text,
  presents env dup c V -> presents env' dup' c' V' -> ruled_view V -> ruled_view V' ->
  Forall readable (vw_violations V ++ vw_errors V ++ vw_warnings V ++ vw_bugs V) ->
  Forall readable (vw_violations V' ++ vw_errors V' ++ vw_warnings V' ++ vw_bugs V') ->
  reports (TextReporter env) dup c (Val text) -> reports (TextReporter env') dup' c' (Val text) ->
  map place_and_rule (vw_violations V) = map place_and_rule (vw_violations V')
  /\ map place_and_message (vw_errors V) = map place_and_message (vw_errors V')
  /\ map place_and_message (vw_warnings V) = map place_and_message (vw_warnings V')
  /\ map place_and_message (vw_bugs V) = map place_and_message (vw_bugs V')
  /\ vw_files V = vw_files V' /\ vw_filesWithViolations V = vw_filesWithViolations V'.
Proof.
  intros env dup c V env' dup' c' V' text P P' R R' O O' S S'. apply (text_exact _ _ _ V) in S; auto. apply (text_exact _ _ _ V') in S'; auto.
  apply text_read; auto. congruence.
Qed.
Example c66_case : exists text, reports (XcodeReporter ex_rules) true ex_c (Val text)
  /\ text = $"a.m:3:14: warning: long line [size|P3] first" ++ [NL] ++ $"b.h:3:14: warning: long line [size|P1] second" ++ [NL]
            ++ $"c.m:3:14: warning: long line [size|P1] third" ++ [NL].
Proof. eexists. split; [apply reports_compute; vm_compute; reflexivity|reflexivity]. Qed.

(** ** C67 *)
Theorem c67_valid_json : forall env now dup c V, presents env dup c V -> ruled_view V ->
  Forall (fun e => Forall json_plain (texts_of e)) (vw_violations V ++ vw_bugs V) ->
  exists text timestamp, (forall o, reports (JSONReporter env now) dup c o <-> o = Val text)
  /\ wraps_to now timestamp /\ json_text (view_json timestamp V) text.
Proof.
  intros env now dup c V P R H. do 2 eexists. split; [intros o; now apply (json_exact env now dup c V)|]. split; [apply to_int_wraps|]. now apply json_valid.
Qed.
(** A text is a JSON document in one way only. *)
Theorem c67_one_reading : forall j j' text, json_text j text -> json_text j' text -> j = j'.
Proof. exact ProofJSON.json_unique. Qed.
Theorem c67_lossless : forall env now dup c V env' now' dup' c' V' text,
  presents env dup c V -> presents env' dup' c' V' -> ruled_view V -> ruled_view V' ->
  Forall (fun e => Forall json_plain (texts_of e)) (vw_violations V ++ vw_bugs V) ->
  Forall (fun e => Forall json_plain (texts_of e)) (vw_violations V' ++ vw_bugs V') ->
  reports (JSONReporter env now) dup c (Val text) -> reports (JSONReporter env' now') dup' c' (Val text) ->
  map with_known_end (vw_violations V) = map with_known_end (vw_violations V')
  /\ map with_known_end (vw_bugs V) = map with_known_end (vw_bugs V')
  /\ vw_files V = vw_files V' /\ vw_filesWithViolations V = vw_filesWithViolations V'.
Proof.
  intros env now dup c V env' now' dup' c' V' text P P' R R' H H' S S'. apply (json_exact _ _ _ _ V) in S; auto. apply (json_exact _ _ _ _ V') in S'; auto.
  pose proof (json_valid (to_int now) V H) as J. pose proof (json_valid (to_int now') V' H') as J'.
  apply val_inj in S, S'. rewrite <- S in J. rewrite <- S' in J'.
  now destruct (view_json_inj _ _ _ _ (ProofJSON.json_unique _ _ _ J J')).
Qed.
Lemma not_json s : (forall f0, ProofJSON.pdocument (100 + f0) s = None) -> forall j, ~ json_text j s.
Proof. intros H j J. apply ProofJSON.document_complete in J as (f0 & K). specialize (K (100 + f0) ltac:(lia)). rewrite H in K. discriminate. Qed.
(** Nothing is escaped: a quote in a message makes the report no JSON document, ... *)
Theorem c67_quote_refuted : exists env now c text, reports (JSONReporter env now) true c (Val text) /\ forall j, ~ json_text j text.
Proof.
  exists ex_rules, 0%Z, {| c_collection := [[ex_finding $"a.m" [QUOTE] (Some 0)]]; c_errors := []; c_warnings := []; c_bugs := [] |}. eexists.
  split; [apply reports_compute; vm_compute; reflexivity|]. apply not_json. intros f0. vm_compute. reflexivity.
Qed.
(** ... and a chosen message makes one static analyzer result look like two. *)
Theorem c67_forged_refuted : exists env now c c' text,
  reports (JSONReporter env now) true c (Val text) /\ reports (JSONReporter env now) true c' (Val text)
  /\ length (c_bugs c) <> length (c_bugs c') /\ exists j, json_text j text.
Proof.
  set (q := fun s : str => [QUOTE] ++ s ++ [QUOTE]).
  exists ex_rules, 0%Z,
    {| c_collection := []; c_errors := []; c_warnings := [];
       c_bugs := [ex_finding $"a.m" ($"x" ++ [QUOTE] ++ $"},{" ++ q $"path" ++ $":" ++ q $"b.m" ++ $"," ++ q $"startLine" ++ $":3," ++ q $"startColumn"
         ++ $":14," ++ q $"message" ++ $":" ++ [QUOTE] ++ $"y") None] |},
    {| c_collection := []; c_errors := []; c_warnings := []; c_bugs := [ex_finding $"a.m" $"x" None; ex_finding $"b.m" $"y" None] |}.
  eexists. split; [apply reports_compute; vm_compute; reflexivity|]. split; [apply reports_compute; vm_compute; reflexivity|]. split; [discriminate|].
  set (V := {| vw_violations := []; vw_errors := []; vw_warnings := []; vw_bugs := map (entry_of ex_rules) [ex_finding $"a.m" $"x" None; ex_finding $"b.m" $"y" None];
               vw_files := 0; vw_filesWithViolations := 0 |}).
  exists (view_json 0 V). assert (H : Forall (fun e => Forall json_plain (texts_of e)) (vw_violations V ++ vw_bugs V)).
  { repeat (apply Forall_cons; [repeat (apply Forall_cons; [apply lit_plain; vm_compute; reflexivity|]); apply Forall_nil|]). apply Forall_nil. }
  pose proof (json_valid 0 V H) as J. vm_compute in J. vm_compute. exact J.
Qed.
Example c67_case : Forall (fun e => Forall json_plain (texts_of e)) (vw_violations ex_view ++ vw_bugs ex_view).
Proof. repeat (apply Forall_cons; [repeat (apply Forall_cons; [apply lit_plain; vm_compute; reflexivity|]); apply Forall_nil|]). apply Forall_nil. Qed.

(** ** C68 *)
Theorem c68_one_reading : forall e e' text, xml_text e text -> xml_text e' text -> e = e'.
Proof. exact ProofXML.xml_unique. Qed.
(** The PMD report is XML and carries every message (without control characters) unchanged. *)
Theorem c68_pmd_valid : forall env dup c V, presents env dup c V ->
  Forall (fun p => xml_plain (e_path (fst p)) /\ printable (e_message (fst p))
                   /\ (forall r, snd p = Some r -> xml_plain (r_name r) /\ xml_plain (r_category r))) (pmd_findings V) ->
  exists text, (forall o, reports (PMDReporter env) dup c o <-> o = Val text) /\ xml_text (view_pmd V) text.
Proof. intros env dup c V P H. eexists. split; [intros o; now apply (pmd_exact env dup c V)|]. now apply pmd_valid. Qed.
Theorem c68_pmd_lossless : forall env dup c V env' dup' c' V' text, presents env dup c V -> presents env' dup' c' V' ->
  (forall W, W = V \/ W = V' -> Forall (fun p => xml_plain (e_path (fst p)) /\ printable (e_message (fst p))
                   /\ (forall r, snd p = Some r -> xml_plain (r_name r) /\ xml_plain (r_category r))) (pmd_findings W)) ->
  reports (PMDReporter env) dup c (Val text) -> reports (PMDReporter env') dup' c' (Val text) ->
  map (fun p => (place_and_message (fst p), e_endLine (fst p), e_endColumn (fst p), snd p)) (pmd_findings V)
  = map (fun p => (place_and_message (fst p), e_endLine (fst p), e_endColumn (fst p), snd p)) (pmd_findings V').
Proof.
  intros env dup c V env' dup' c' V' text P P' H S S'. apply (pmd_exact _ _ _ V) in S; auto. apply (pmd_exact _ _ _ V') in S'; auto.
  apply val_inj in S, S'. pose proof (pmd_valid V (H V (or_introl eq_refl))) as J. pose proof (pmd_valid V' (H V' (or_intror eq_refl))) as J'.
  rewrite <- S in J. rewrite <- S' in J'. apply pmd_findings_inj. exact (ProofXML.xml_unique _ _ _ J J').
Qed.
(** Escaping: an escaped message has no markup character, and reading it gives the message back. *)
Theorem c68_escape : forall m, Forall (fun c => ~ In c ["<"; ">"; """"; "'"]%char) (xmlEscape m) /\ (printable m -> xtext m (xmlEscape m)).
Proof.
  intros m. split; [|apply escape_text]. induction m as [|c m IH]; [constructor|]. unfold xmlEscape. cbn [flat_map]. fold (xmlEscape m).
  apply Forall_app. split; [|exact IH].
  assert (L : forall s, forallb (fun c => negb (existsb (ascii_eqb c) ["<"; ">"; """"; "'"]%char)) s = true -> Forall (fun c => ~ In c ["<"; ">"; """"; "'"]%char) s).
  { intros s H. apply Forall_forall. intros x Hx Hi. rewrite forallb_forall in H. specialize (H x Hx). apply negb_true_iff in H.
    assert (existsb (ascii_eqb x) ["<"; ">"; """"; "'"]%char = true); [|congruence]. apply existsb_exists. exists x. split; auto. apply Ascii.eqb_refl. }
  unfold ascii_eqb. destruct (Ascii.eqb_spec c "<"%char) as [->|N1]; [apply L; reflexivity|].
  destruct (Ascii.eqb_spec c ">"%char) as [->|N2]; [apply L; reflexivity|]. destruct (Ascii.eqb_spec c QUOTE) as [->|N3]; [apply L; reflexivity|].
  destruct (Ascii.eqb_spec c "&"%char) as [->|N4]; [apply L; reflexivity|]. destruct (Ascii.eqb_spec c "'"%char) as [->|N5]; [apply L; reflexivity|].
  constructor; [|constructor]. unfold QUOTE in N3. cbn. intuition congruence.
Qed.
Lemma not_xml s : (forall f0, ProofXML.pdocument (100 + f0) s = None) -> forall e, ~ xml_text e s.
Proof. intros H e J. apply ProofXML.document_complete in J as (f0 & K). specialize (K (100 + f0) ltac:(lia)). rewrite H in K. discriminate. Qed.
(** Paths are not escaped. *)
Theorem c68_pmd_path_refuted : exists env c text, reports (PMDReporter env) true c (Val text) /\ forall e, ~ xml_text e text.
Proof.
  exists ex_rules, {| c_collection := [[ex_finding $"R&D/a.m" $"x" (Some 0)]]; c_errors := []; c_warnings := []; c_bugs := [] |}. eexists.
  split; [apply reports_compute; vm_compute; reflexivity|]. apply not_xml. intros f0. vm_compute. reflexivity.
Qed.
Theorem c68_xml_valid : forall env m t dup c V, broken_down m t -> valid_moment m -> presents env dup c V -> ruled_view V ->
  Forall (fun e => Forall xml_plain (texts_of e)) (vw_violations V ++ vw_bugs V) ->
  exists text date, (forall o, reports (XMLReporter env (Some t)) dup c o <-> o = Val text) /\ xml_text (view_xml date V) text.
Proof.
  intros env m t dup c V B M P R H. do 2 eexists. split; [intros o; apply (xml_exact env t (in_year m t B M) dup c V); assumption|].
  destruct (date_chars _ _ (written_date_ok m t B M)). now apply xml_valid.
Qed.
Theorem c68_xml_lossless : forall env m t dup c V env' m' t' dup' c' V' text,
  broken_down m t -> valid_moment m -> presents env dup c V -> ruled_view V -> Forall (fun e => Forall xml_plain (texts_of e)) (vw_violations V ++ vw_bugs V) ->
  broken_down m' t' -> valid_moment m' -> presents env' dup' c' V' -> ruled_view V' -> Forall (fun e => Forall xml_plain (texts_of e)) (vw_violations V' ++ vw_bugs V') ->
  reports (XMLReporter env (Some t)) dup c (Val text) -> reports (XMLReporter env' (Some t')) dup' c' (Val text) ->
  m = m' /\ map with_known_end (vw_violations V) = map with_known_end (vw_violations V')
  /\ map with_known_end (vw_bugs V) = map with_known_end (vw_bugs V')
  /\ vw_files V = vw_files V' /\ vw_filesWithViolations V = vw_filesWithViolations V'.
Proof.
  intros env m t dup c V env' m' t' dup' c' V' text B M P R H B' M' P' R' H' S S'.
  apply (xml_exact _ _ (in_year m t B M) _ _ V) in S; auto. apply (xml_exact _ _ (in_year m' t' B' M') _ _ V') in S'; auto. apply val_inj in S, S'.
  pose proof (written_date_ok m t B M) as D. pose proof (written_date_ok m' t' B' M') as D'. destruct (date_chars _ _ D), (date_chars _ _ D').
  assert (J : xml_text (view_xml (written_date t) V) text) by (rewrite S; now apply xml_valid).
  assert (J' : xml_text (view_xml (written_date t') V') text) by (rewrite S'; now apply xml_valid).
  destruct (view_xml_inj _ _ _ _ (ProofXML.xml_unique _ _ _ J J')) as (Ed & Q). split; [|exact Q]. rewrite <- Ed in D'. pose proof (date_unique _ _ _ D D') as E.
  destruct m, m'. unfold with_month in E. cbn in E. injection E as -> E -> -> -> ->. f_equal. lia.
Qed.
(** Nothing is escaped in the XML report. *)
Definition ex_tm : tm := {| tm_year := 124; tm_mon := 10; tm_mday := 30; tm_hour := 12; tm_min := 5; tm_sec := 9 |}.
Theorem c68_xml_malformed_refuted : exists env t c text, reports (XMLReporter env (Some t)) true c (Val text) /\ forall e, ~ xml_text e text.
Proof.
  exists ex_rules, ex_tm, {| c_collection := [[ex_finding $"a.m" $"use of a<b" (Some 0)]]; c_errors := []; c_warnings := []; c_bugs := [] |}. eexists.
  split; [apply reports_compute; vm_compute; reflexivity|]. apply not_xml. intros f0. vm_compute. reflexivity.
Qed.
Example c68_case : Forall (fun e => Forall xml_plain (texts_of e)) (vw_violations ex_view ++ vw_bugs ex_view)
  /\ Forall (fun p => xml_plain (e_path (fst p)) /\ printable (e_message (fst p))
                   /\ (forall r, snd p = Some r -> xml_plain (r_name r) /\ xml_plain (r_category r))) (pmd_findings ex_view)
  /\ printable ($"a < b && " ++ [NL] ++ $"c").
Proof.
  assert (PL : forall s, xml_plain s -> printable s) by (intros s; apply Forall_impl; intros c [H _]; auto).
  split; [|split].
  - repeat (apply Forall_cons; [repeat (apply Forall_cons; [apply lit_xml; vm_compute; reflexivity|]); apply Forall_nil|]). apply Forall_nil.
  - repeat (apply Forall_cons; [split; [apply lit_xml; vm_compute; reflexivity|split; [apply PL, lit_xml; vm_compute; reflexivity|
      intros r [= <-]; split; apply lit_xml; vm_compute; reflexivity]]|]). apply Forall_nil.
  - repeat (apply Forall_cons; [first [left; vm_compute; lia|right; auto]|]). constructor.
Qed.

(** ** C69 *)
(** The date shown is the current one with the month counted from 0. *)
Theorem c69_date : forall env m t dup c V, broken_down m t -> valid_moment m -> presents env dup c V -> ruled_view V ->
  Forall (fun e => Forall xml_plain (texts_of e)) (vw_violations V ++ vw_bugs V) ->
  exists text date, (forall o, reports (XMLReporter env (Some t)) dup c o <-> o = Val text) /\ xml_text (view_xml date V) text
  /\ date_text (with_month m (m_month m - 1)) date.
Proof.
  intros env m t dup c V B M P R H. do 2 eexists. split; [intros o; apply (xml_exact env t (in_year m t B M) dup c V); assumption|].
  pose proof (written_date_ok m t B M) as D. destruct (date_chars _ _ D). split; [now apply xml_valid|exact D].
Qed.
(** So it is never the current date. *)
Theorem c69_right_date_refuted : forall m d, date_text (with_month m (m_month m - 1)) d -> ~ date_text m d.
Proof. intros m d H H'. pose proof (date_unique _ _ _ H H') as E. apply (f_equal m_month) in E. cbn in E. lia. Qed.
Definition ex_moment : moment := {| m_year := 2024; m_month := 11; m_day := 30; m_hour := 12; m_minute := 5; m_second := 9 |}.
Example c69_case : broken_down ex_moment ex_tm /\ valid_moment ex_moment /\ written_date ex_tm = $"2024-10-30T12:05:09Z".
Proof. split; [repeat split|split; [unfold valid_moment; cbn; lia|reflexivity]]. Qed.

(** ** C93: HTML *)
Theorem c93_html_exact : forall head now env dup c V o, presents env dup c V -> ruled_view V ->
  (reports (HTMLReporter head now env) dup c o <-> o = Val (html_page head now V)).
Proof. intros head now env dup c V o. rewrite html_page_text. apply html_exact. Qed.
Theorem c93_html_lossless : forall head now env dup c V env' dup' c' V' text,
  presents env dup c V -> presents env' dup' c' V' -> ruled_view V -> ruled_view V' ->
  Forall html_plain (vw_violations V ++ vw_errors V ++ vw_warnings V ++ vw_bugs V) ->
  Forall html_plain (vw_violations V' ++ vw_errors V' ++ vw_warnings V' ++ vw_bugs V') ->
  reports (HTMLReporter head now env) dup c (Val text) -> reports (HTMLReporter head now env') dup' c' (Val text) ->
  map place_and_rule (vw_violations V) = map place_and_rule (vw_violations V')
  /\ map place_and_message (vw_errors V) = map place_and_message (vw_errors V')
  /\ map place_and_message (vw_warnings V) = map place_and_message (vw_warnings V')
  /\ map place_and_message (vw_bugs V) = map place_and_message (vw_bugs V')
  /\ vw_files V = vw_files V' /\ vw_filesWithViolations V = vw_filesWithViolations V'.
Proof.
  intros head now env dup c V env' dup' c' V' text P P' R R' O O' S S'. apply (html_exact _ _ _ _ _ V) in S; auto. apply (html_exact _ _ _ _ _ V') in S'; auto.
  apply (html_read head now); auto. congruence.
Qed.
(** Nothing is escaped: different errors give the same page. *)
Theorem c93_markup_refuted : exists head now env c c' text,
  reports (HTMLReporter head now env) true c (Val text) /\ reports (HTMLReporter head now env) true c' (Val text)
  /\ map v_path (c_errors c) <> map v_path (c_errors c').
Proof.
  set (next := fun p m : str => $"</td></tr><tr><td>" ++ p ++ $"</td><td>3:14</td><td>compiler error</td><td></td><td class='cmplr-error'>error</td><td>" ++ m).
  exists [], [], ex_rules,
    {| c_collection := []; c_errors := [ex_finding $"a.m" ($"x" ++ next $"b.m" $"y") None; ex_finding $"c.m" $"z" None]; c_warnings := []; c_bugs := [] |},
    {| c_collection := []; c_errors := [ex_finding $"a.m" $"x" None; ex_finding $"b.m" ($"y" ++ next $"c.m" $"z") None]; c_warnings := []; c_bugs := [] |}.
  eexists. split; [apply reports_compute; vm_compute; reflexivity|]. split; [apply reports_compute; vm_compute; reflexivity|]. discriminate.
Qed.
Example c93_case : exists text, reports (HTMLReporter [] [] ex_rules) true ex_c (Val text) /\ text = html_page [] [] ex_view /\ 1000 < length text.
Proof. exists (html_page [] [] ex_view). split; [apply c93_html_exact with (V := ex_view); try apply ex_view_presents; reflexivity|]. split; [reflexivity|]. apply Nat.ltb_lt. vm_compute. reflexivity. Qed.

(** ** C94: the time stamp of the JSON report *)
Theorem c94_timestamp : forall now timestamp, wraps_to now timestamp -> (in_int now <-> timestamp = now).
Proof.
  intros now ts H. split.
  - intros I. eapply wraps_det; [exact H|]. split; auto. exists 0%Z. lia.
  - intros ->. exact (proj1 H).
Qed.
Theorem c94_after_2038_refuted : exists now timestamp, (2147483647 < now)%Z /\ wraps_to now timestamp /\ (timestamp < 0)%Z.
Proof. exists 2147483648%Z, (-2147483648)%Z. split; [lia|]. split; [|lia]. split; [unfold in_int, INT_MIN, INT_MAX; lia|]. exists (-1)%Z. lia. Qed.
(** What the report says: the current time before 2038, a negative one for the 68 years after. *)
Theorem c94_reported_time : forall env now dup c V, presents env dup c V -> ruled_view V ->
  Forall (fun e => Forall json_plain (texts_of e)) (vw_violations V ++ vw_bugs V) ->
  exists text timestamp, (forall o, reports (JSONReporter env now) dup c o <-> o = Val text)
  /\ json_text (view_json timestamp V) text
  /\ (in_int now -> timestamp = now)
  /\ (2 ^ 31 <= now < 2 ^ 32 -> timestamp = now - 2 ^ 32)%Z.
Proof.
  intros env now dup c V P R F. destruct (c67_valid_json env now dup c V P R F) as (text & ts & X & W & J).
  exists text, ts. split; [exact X|]. split; [exact J|]. split; [now apply c94_timestamp|].
  intros H. eapply wraps_det; [exact W|]. split; [unfold in_int, INT_MIN, INT_MAX; lia|]. exists (-1)%Z. lia.
Qed.
Example c94_case : wraps_to 1700000000 1700000000 /\ in_int 1700000000.
Proof. assert (I : in_int 1700000000) by (unfold in_int, INT_MIN, INT_MAX; lia). split; [|exact I]. split; [exact I|]. exists 0%Z. lia. Qed.

(** ** C95: a violation without a rule.  PMD is the only report that is written. *)
Theorem c95_without_rule : forall env head now now' m t dup c V, broken_down m t -> valid_moment m -> presents env dup c V -> ~ ruled_view V ->
  (forall r o, In r [TextReporter env; XcodeReporter env; JSONReporter env now; XMLReporter env (Some t); HTMLReporter head now' env] ->
     (reports r dup c o <-> o = UB))
  /\ exists text, reports (PMDReporter env) dup c (Val text).
Proof.
  intros env head now now' m t dup c V B M P R. split.
  - intros r o [<-|[<-|[<-|[<-|[<-|[]]]]]]; [eapply text_ub|eapply xcode_ub|eapply json_ub|eapply xml_ub|eapply html_ub]; eauto using in_year.
  - eexists. now apply (pmd_exact env dup c V).
Qed.
Theorem c95_with_rules : forall env head now now' m t dup c V, broken_down m t -> valid_moment m -> presents env dup c V -> ruled_view V ->
  forall r, In r [TextReporter env; XcodeReporter env; JSONReporter env now; XMLReporter env (Some t); HTMLReporter head now' env; PMDReporter env] ->
  exists text, forall o, reports r dup c o <-> o = Val text.
Proof.
  intros env head now now' m t dup c V B M P R r [<-|[<-|[<-|[<-|[<-|[<-|[]]]]]]]; eexists; intros o;
    [eapply text_exact|eapply xcode_exact|eapply json_exact|eapply xml_exact|eapply html_exact|eapply pmd_exact]; eauto using in_year.
Qed.
Example c95_case : exists c V, presents ex_rules true c V /\ ~ ruled_view V.
Proof.
  exists {| c_collection := [[ex_finding $"a.m" $"x" None]]; c_errors := []; c_warnings := []; c_bugs := [] |}.
  destruct (presented ex_rules true {| c_collection := [[ex_finding $"a.m" $"x" None]]; c_errors := []; c_warnings := []; c_bugs := [] |}) as (V & P).
  exists V. split; auto. destruct P as ((l & S & E) & _). cbn in S. subst l. unfold ruled_view. rewrite E. intros H. inversion H as [|? ? X _]. now apply X.
Qed.

(** ** C96: compiler errors and warnings appear in the text, HTML and PMD reports only *)
Theorem c96_errors_left_out : forall env now m t dup c V dup' c' V' r o, broken_down m t -> valid_moment m ->
  presents env dup c V -> presents env dup' c' V' -> ruled_view V -> ruled_view V' ->
  vw_violations V = vw_violations V' -> vw_bugs V = vw_bugs V' -> vw_files V = vw_files V' -> vw_filesWithViolations V = vw_filesWithViolations V' ->
  In r [XcodeReporter env; JSONReporter env now; XMLReporter env (Some t)] -> (reports r dup c o <-> reports r dup' c' o).
Proof.
  intros env now m t dup c V dup' c' V' r o B M P P' R R' E1 E2 E3 E4 [<-|[<-|[<-|[]]]].
  - rewrite (xcode_exact _ _ _ _ o P R), (xcode_exact _ _ _ _ o P' R'). unfold xcode_text. rewrite E1. reflexivity.
  - rewrite (json_exact _ _ _ _ _ o P R), (json_exact _ _ _ _ _ o P' R'). unfold view_json, priority_json, count_of. rewrite E1, E2, E3, E4. reflexivity.
  - rewrite (xml_exact _ _ (in_year m t B M) _ _ _ o P R), (xml_exact _ _ (in_year m t B M) _ _ _ o P' R'). unfold view_xml_text, summary_text, count_of. rewrite E1, E2, E3, E4. reflexivity.
Qed.
(** The errors of one result are not in the other, and the reports are the same. *)
Example c96_case : exists c' V', presents ex_rules true ex_c ex_view /\ presents ex_rules true c' V' /\ ruled_view ex_view /\ ruled_view V'
  /\ vw_violations ex_view = vw_violations V' /\ vw_bugs ex_view = vw_bugs V' /\ vw_files ex_view = vw_files V'
  /\ vw_filesWithViolations ex_view = vw_filesWithViolations V'
  /\ length (vw_errors ex_view) = 1 /\ vw_errors V' = [] /\ length (vw_warnings V') = 2.
Proof.
  set (warn := [ex_finding $"d.m" $"unused" None; ex_finding $"d.m" $"sign" None]).
  exists {| c_collection := c_collection ex_c; c_errors := []; c_warnings := warn; c_bugs := c_bugs ex_c |}.
  exists {| vw_violations := vw_violations ex_view; vw_errors := []; vw_warnings := map (entry_of ex_rules) warn;
            vw_bugs := vw_bugs ex_view; vw_files := 3; vw_filesWithViolations := 2 |}.
  destruct ex_view_presents as (P & R & _). split; [exact P|]. split.
  - destruct P as (A & B & C & D & E & G). split; [exact A|]. split; [exists []; split; reflexivity|].
    split; [exists warn; split; reflexivity|]. split; [exact D|]. split; [exact E|exact G].
  - split; [exact R|]. split; [exact R|]. repeat split.
Qed.

(** ** C97: the exit code of a finished run agrees with the text report it printed *)
Theorem c97_exit_code_and_report : forall w ev n, main w = (ev, Exit n) -> (n = 0 \/ n = 5 \/ n = 6)%Z ->
  (forall s r, options_are w s -> reporter_found w s r -> r = TextReporter (w_rules w) /\ o_value (argOutput s) = $"-") ->
  exists s rules c V, options_are w s /\ rules_loaded w s rules /\ analysed w s rules c
  /\ presents (w_rules w) (allowDuplicatedViolations s) c V /\ ruled_view V /\ In (EOut (text_text V)) ev
  /\ (n = 6%Z <-> vw_errors V <> [])
  /\ (n = 0%Z <-> vw_errors V = [] /\ (count_of 1 V <= maxP1 s /\ count_of 2 V <= maxP2 s /\ count_of 3 V <= maxP3 s)%Z).
Proof.
  intros w ev n H N U. destruct (main_exit _ _ _ H) as [X T].
  destruct T as [|n0 m Z|sel m|sel pre m _|n0 sel s rules r c text e post _ O L F A Fr R Re _]; [lia|lia|lia|lia|].
  destruct (U s r O F) as [-> Out]. destruct (presented (w_rules w) (allowDuplicatedViolations s) c) as (V & P).
  destruct R as [S _]. assert (RV : ruled_view V).
  { destruct (ruled_or V) as [RV|RV]; [exact RV|]. exfalso. apply (text_ub (w_rules w) _ _ V) in S; auto; [discriminate|]. intros Q. destruct RV as (x & Hx & Ex).
    unfold ruled_view in Q. rewrite Forall_forall in Q. exact (Q x Hx Ex). }
  exists s, rules, c, V. do 5 (split; [assumption|]). split.
  { apply (text_exact _ _ _ V) in S; auto. apply val_inj in S. subst text. apply in_app_iff. right. right. left.
    destruct Re as [[_ ->]|[C _]]; [reflexivity|congruence]. }
  pose proof P as P0. destruct P0 as ((l & Sl & El) & (l2 & S2 & E2) & _).
  assert (NE : no_compile_error c <-> vw_errors V = []).
  { unfold no_compile_error. rewrite E2. unfold shows, collected_list in S2. destruct (allowDuplicatedViolations s).
    - subst l2. destruct (c_errors c); cbn; split; congruence.
    - destruct S2 as (_ & I & _). split.
      + intros C. rewrite C in I. destruct l2 as [|x l2]; [reflexivity|]. destruct (proj1 (I x)); cbn; auto.
      + intros C. destruct l2; [|discriminate]. destruct (c_errors c) as [|x es]; [reflexivity|]. destruct (proj2 (I x)); cbn; auto. }
  assert (WL : within_limits w s c <-> (count_of 1 V <= maxP1 s /\ count_of 2 V <= maxP2 s /\ count_of 3 V <= maxP3 s)%Z).
  { rewrite !(count_answers (w_rules w) _ V l El). unfold within_limits, count_priority. split; [intros Q; now apply Q|].
    intros Q l' Hl'. now rewrite (shows_det _ _ _ _ _ Hl' Sl). }
  assert (K : forall s' rules' c', options_are w s' -> rules_loaded w s' rules' -> analysed w s' rules' c' -> s' = s /\ c' = c).
  { intros s' rules' c' O' L' A'. pose proof (options_are_det w _ _ O O'). subst s'. pose proof (rules_loaded_det w _ _ _ L L'). subst rules'.
    split; [reflexivity|]. exact (analysed_det w _ _ _ _ A' A). }
  rewrite <- WL, <- NE.
  remember n0 as k eqn:Ek. destruct X as [|s' O'|s' rl O' L'|s' rl r' O' L' F'|s' rl r' c' O' L' F' A'|s' rl r' c' t' O' L' F' A' R' B|s' rl r' c' t' O' L' F' A' R' B B'|s' rl r' c' t' O' L' F' A' R' B B']; try lia;
    destruct (K s' rl c' O' L' A') as [-> ->].
  - split; [split; [intros _; exact B|reflexivity]|]. split; [discriminate|intros [C _]; contradiction].
  - split; [split; [discriminate|intros C; contradiction]|]. split; [discriminate|intros [_ C]; contradiction].
  - split; [split; [discriminate|intros C; contradiction]|]. split; [auto|reflexivity].
Qed.
Example c97_case : exists w ev, main w = (ev, Exit 5)
  /\ (forall s r, options_are w s -> reporter_found w s r -> r = TextReporter (w_rules w) /\ o_value (argOutput s) = $"-").
Proof.
  set (w0 := exm_world 1 None 0).
  exists {| w_list := w_list w0; w_rulelib := w_rulelib w0;
            w_replib := fun p => if str_eqb p $"/b/../lib/oclint/reporters/t.so" then Some (Some (TextReporter (w_rules w0))) else Some (Some exm_reporter_x);
            w_read := w_read w0; w_yaml := w_yaml w0; w_env := w_env w0; w_cmdline := w_cmdline w0; w_listRules := false;
            w_canOpen := w_canOpen w0; w_accepts := w_accepts w0; w_rules := w_rules w0; w_driver := w_driver w0; w_hash := w_hash w0 |}.
  eexists. split; [vm_compute; reflexivity|]. intros s r (cl & [= <-] & Ps) F. vm_compute in Ps. injection Ps as <-. split; [|reflexivity].
  eapply reporter_found_det; [exact F|]. do 2 eexists. split; [reflexivity|]. split; [apply visible_of_spec|].
  vm_compute. eapply picks_later; [reflexivity|discriminate|]. now constructor.
Qed.

Print Assumptions c66_numbers.
Print Assumptions c66_xcode_exact.
Print Assumptions c66_xcode_lossless.
Print Assumptions c66_line_feed_refuted.
Print Assumptions c66_text_exact.
Print Assumptions c66_text_lossless.
Print Assumptions c67_valid_json.
Print Assumptions c67_one_reading.
Print Assumptions c67_lossless.
Print Assumptions c67_quote_refuted.
Print Assumptions c67_forged_refuted.
Print Assumptions c68_one_reading.
Print Assumptions c68_pmd_valid.
Print Assumptions c68_pmd_lossless.
Print Assumptions c68_escape.
Print Assumptions c68_pmd_path_refuted.
Print Assumptions c68_xml_valid.
Print Assumptions c68_xml_lossless.
Print Assumptions c68_xml_malformed_refuted.
Print Assumptions c69_date.
Print Assumptions c69_right_date_refuted.
Print Assumptions c93_html_exact.
Print Assumptions c93_html_lossless.
Print Assumptions c93_markup_refuted.
Print Assumptions c94_timestamp.
Print Assumptions c94_after_2038_refuted.
Print Assumptions c94_reported_time.
Print Assumptions c95_without_rule.
Print Assumptions c95_with_rules.
Print Assumptions c96_errors_left_out.
Print Assumptions c97_exit_code_and_report.
