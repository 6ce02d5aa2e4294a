(** Property C97: what is reported about the fact elements of XML instances, and which of them have
    a fact. *)
From Verif Require Import Base Regex PyNum QNameModel ErrBase ErrModel CtxModel CtxSpec CtxProofs
  CtxParseProofs CtxExactProofs CtxReportSpec CtxReportProofs CtxOpenProofs CtxProps.

Section Filing.
Variable parse_date : str -> res date.
Variable rep : repository.
Variable nillable : element -> bool.
Notation parsed := (parsed parse_date rep nillable).

Lemma knows_nothing docs : knows docs [] empty_state.
Proof. split; [reflexivity|intros id []]. Qed.

(** The problems of all fact elements are reported, in order, and nothing else. *)
Theorem C97_reports_partial docs s : parsed docs s ->
  one_unit docs -> one_concept rep docs -> plain_periods docs -> no_period_word parse_date ->
  Forall2 made (facts_reports parse_date rep nillable [] (all_fact_elements docs)) (s_errors s).
Proof.
  intros H H1 H2 H3 H4.
  destruct (facts_says parse_date rep nillable docs H1 H2 H3 H4 _ _ (inv_empty parse_date rep docs) (knows_nothing docs) H)
    as (os & _ & [E _] & Hr). rewrite E. exact Hr.
Qed.

(** A fact element has a fact, with exactly what is written, if its concept, its unit and its
    context can be read, and otherwise it has none. *)
Theorem C97_facts_partial docs s : parsed docs s ->
  one_scheme docs -> one_unit docs -> one_concept rep docs -> one_explicit rep docs ->
  one_typed rep docs -> plain_dimensions docs -> plain_periods docs -> no_period_word parse_date ->
  exists os, Forall2 (fun ix o => outcome_of (concept_exact rep) unit_exact entity_exact (period_exact parse_date)
                        (explicit_exact rep) (typed_exact rep) ix o /\
                      (fst o <> None <-> has_fact rep (fst ix) (snd ix) = true))
               (all_fact_elements docs) os /\ accounts docs s os.
Proof.
  intros H H1 H2 H3 H4 H5 H6 H7 H8.
  destruct (facts_says parse_date rep nillable docs H2 H3 H7 H8 _ _ (inv_empty parse_date rep docs) (knows_nothing docs) H)
    as (os & Hos & Ha & _).
  exists os. split; [|exact Ha]. clear Ha.
  assert (G : Forall2 (outcome_of (concept_exact rep) unit_exact entity_exact (period_exact parse_date)
                        (explicit_exact rep) (typed_exact rep)) (all_fact_elements docs) os).
  { assert (J : Forall2 (outcome_of (concept_shared rep docs) (unit_shared docs) (entity_shared docs)
                        (period_shared parse_date) (explicit_shared rep docs) (typed_shared rep docs)) (all_fact_elements docs) os).
    { revert Hos. generalize (all_fact_elements docs). intros l Hos. induction Hos as [|ix o l os [Ho _] _ IH]; constructor; assumption. }
    revert J. apply outcomes_mono.
    - intros x e Hx. apply concept_to_exact with (docs := docs); assumption.
    - intros i id c Hi. apply unit_to_exact; assumption.
    - intros x r Hx. apply entity_to_exact; assumption.
    - intros x r Hx. apply period_to_exact; auto.
    - intros x r Hx. apply explicit_to_exact; assumption.
    - intros x r Hx. apply typed_to_exact; assumption. }
  revert Hos G. generalize (all_fact_elements docs). intros l Hos. induction Hos as [|ix o l os [_ Ho] _ IH]; intros G; inversion G; subst; constructor; [|auto].
  split; [assumption|]. rewrite <- Ho. destruct (fst o); cbn; split; congruence.
Qed.

(** Documents can be read to their end if that holds of each of their fact elements. *)
Theorem C97_opens_partial docs :
  one_unit docs -> one_concept rep docs -> plain_dimensions docs -> plain_periods docs -> no_period_word parse_date ->
  ((exists s, parsed docs s) <->
   (forall i x, In (i, x) (all_fact_elements docs) -> fact_ok parse_date rep i x = true)).
Proof.
  intros H1 H2 H3 H4 H5. apply facts_open; auto using inv_empty, knows_nothing.
Qed.
End Filing.

(** *** A document with many faults *)

Definition s_fact_of (tag : string) (attrs : list (str * str)) (value : option str) : xml :=
  Xml (Some (u tag)) attrs s_scope value [].
Definition f_dates := s_context "c1" (s_duration "2020-12-31" "2020-01-01") (s_entity "E1" "urn:s1" [s_member "t:Axis" "t:M9" s_scope]).
Definition f_entity := s_elem "entity" [] None [s_elem "identifier" [] (Some (u "E1")) []].
Definition f_scheme := s_context "c2" (s_instant "tomorrow") f_entity.
Definition f_no_period := s_elem "context" [(u "id", u "c3")] None [s_entity "E1" "urn:s1" []].
Definition f_product := s_unit "u1" [s_measure "iso:EUR"; s_measure "iso:m"].
Definition f_no_measure := s_unit "u2" [s_elem "measure" [] None []].
Definition x_value := s_fact_of "{urn:t}Cash" (s_ref "c1" [(u "unitRef", u "u1")]) None.
Definition x_again := s_fact_of "{urn:t}Cash" (s_ref "c2" [(u "id", u "f2"); (u "unitRef", u "u1")]) (Some (u "7")).
Definition x_concept := s_fact_of "{urn:t}Debt" (s_ref "c1" []) (Some (u "7")).
Definition x_measure := s_fact_of "{urn:t}Cash" (s_ref "c1" [(u "unitRef", u "u2")]) (Some (u "7")).
Definition x_period := s_fact_of "{urn:t}Cash" (s_ref "c3" []) (Some (u "7")).
Definition faulty : xml := s_instance
  [f_dates; f_scheme; f_no_period; f_product; f_no_measure; x_value; x_again; x_concept; x_measure; x_measure; x_period].

Example faulty_consistent :
  one_unit [faulty] /\ one_concept s_rep [faulty] /\ plain_dimensions [faulty] /\ plain_periods [faulty].
Proof.
  split; [intros i j id x y [<-|[]] [<-|[]]; congruence|]. split; [|split].
  - intros x y tag e e' Hx Hy (T1 & q & Q1 & G1) (T2 & q' & Q2 & G2).
    assert (e = e_cash) by
      (rewrite <- T1 in Q1; clear T1 T2; each_descendant Hx; vm_compute in Q1; try discriminate; injection Q1 as <-;
       vm_compute in G1; first [discriminate|injection G1 as <-; reflexivity]).
    assert (e' = e_cash) by
      (rewrite <- T2 in Q2; clear T1 T2; each_descendant Hy; vm_compute in Q2; try discriminate; injection Q2 as <-;
       vm_compute in G2; first [discriminate|injection G2 as <-; reflexivity]).
    congruence.
  - intros x t Hx. each_descendant Hx; vm_compute; intros [= <-]; intros H;
      repeat (destruct H as [H|H]; [discriminate|]); destruct H.
  - intros x Hx. each_descendant Hx; intros n i t Hn; cbn [In] in Hn;
      destruct Hn as [<-|[<-|[<-|[]]]]; vm_compute; intros [= <-] [= <-] H;
      repeat (destruct H as [H|H]; [discriminate|]); destruct H.
Qed.

(** Its unit u1 is reported once, its unit u2 with each fact element. *)
Example faulty_reports :
  facts_reports iso_date s_rep (fun _ => false) [] (all_fact_elements [faulty]) =
  [Report "XML_UNIT_ELEMENT_WITHOUT_ONE_CHILD" f_product [(u "id", u "u1"); (u "child_count", u "2")];
   Report "DURATION_PERIOD_START_AFTER_END" (s_elem "startDate" [] (Some (u "2020-12-31")) [])
     [(u "start_date", u "2020-12-31"); (u "end_date", u "2020-01-01")];
   Report "INVALID_EXPLICIT_DIMENSION_MEMBER" (s_member "t:Axis" "t:M9" s_scope) [(u "member", u "t:M9"); (u "dimension", u "t:Axis")];
   Report "MISSING_FACT_VALUE" x_value [(u "concept", u "{urn:t}Cash")];
   Report "INVALID_CONTEXT_PERIOD_DATE" (s_elem "instant" [] (Some (u "tomorrow")) []) [(u "date", u "tomorrow")];
   Report "ENTITY_IDENTIFIER_MISSING_SCHEME" f_entity [];
   Report "XML_FACT_INVALID_CONCEPT" x_concept [(u "concept_name", u "{urn:t}Debt")];
   Report "XML_MISSING_UNIT_MEASURE" (s_elem "measure" [] None []) [];
   Report "XML_MISSING_UNIT_MEASURE" (s_elem "measure" [] None []) [];
   Report "MISSING_CONTEXT_PERIOD" f_no_period []] /\
  map (fun ix => has_fact s_rep (fst ix) (snd ix)) (all_fact_elements [faulty]) = [true; true; false; false; false; false] /\
  (forall i x, In (i, x) (all_fact_elements [faulty]) -> fact_ok iso_date s_rep i x = true).
Proof.
  split; [vm_compute; reflexivity|]. split; [vm_compute; reflexivity|].
  assert (G : forallb (fun ix => fact_ok iso_date s_rep (fst ix) (snd ix)) (all_fact_elements [faulty]) = true) by (vm_compute; reflexivity).
  rewrite forallb_forall in G. intros i x H. exact (G (i, x) H).
Qed.

Example faulty_parsed : is_ok (s_parse [faulty]) = true /\
  (do! r <- s_parse [faulty]; Ok (length (s_errors (snd r)), length (facts_get_all (s_facts (snd r))), length (fr_without_id (s_facts (snd r))))) = Ok (10, 1, 1).
Proof. split; vm_compute; reflexivity. Qed.

(** *** Problems that end the reading of all documents *)

(** A context or a unit that is not there, a segment child that is no member, a divide with two
    equal tags, an unknown dimension of a typed member. *)
Theorem C97_fatal_refuted :
  s_parse [s_instance [c1; f1; s_fact (s_ref "c9" []) "7"]] = Raise ValueError /\
  s_parse [s_instance [c1; f1; s_fact (s_ref "c1" [(u "unitRef", u "u9")]) "7"]] = Raise ValueError /\
  s_parse [s_instance [s_context "c1" (s_instant "2020-12-31") (s_entity "E1" "urn:s1" [s_elem "other" [] None []]); f1]] = Raise ValueError /\
  s_parse (unit_doc [s_elem "divide" [] None
     [s_elem "unitNumerator" [] None [s_measure "iso:EUR"]; s_elem "unitNumerator" [] None [s_measure "iso:m"]]]) = Raise ValueError /\
  is_ok (s_parse [s_instance [s_context "c1" (s_instant "2020-12-31") (s_entity "E1" "urn:s1" [s_typed "t:Nothing" "1"]); f1]]) = false.
Proof. repeat (split; [vm_compute; reflexivity|]). vm_compute. reflexivity. Qed.

(** A faulty unit of the second instance is not reported if the first has a unit with its id. *)
Theorem C97_shared_refuted :
  exists i j s, s_parse [i; j] = Ok (tt, s) /\ s_errors s = [] /\ length (fact_elements j) = 1 /\
    exists x xu, In x (fact_elements j) /\ find_by_id (u "unit") (u "u1") j = Some xu /\ unit_reports xu (u "u1") <> [].
Proof.
  set (x := s_fact (s_ref "c1" [(u "id", u "f2"); (u "unitRef", u "u1")]) "8").
  set (i := s_instance [c1; s_unit "u1" [s_measure "iso:EUR"]; s_fact (s_ref "c1" [(u "id", u "f1"); (u "unitRef", u "u1")]) "7"]).
  set (j := s_instance [c1; f_product; x]).
  destruct (parse_check [i; j] no_errors) as (s & E & H); [vm_compute; reflexivity|].
  exists i, j, s. split; [exact E|]. split; [apply no_errors_nil, H|]. split; [vm_compute; reflexivity|].
  exists x, f_product. split; [left; reflexivity|]. split; [vm_compute; reflexivity|]. vm_compute. discriminate.
Qed.

(** An identifier without text goes unreported (C38);
    a numerator with two measures as well. *)
Theorem C97_silent_refuted :
  exists docs s, s_parse docs = Ok (tt, s) /\ s_errors s = [] /\
    exists x xu, docs = [x] /\ find_by_id (u "unit") (u "u1") x = Some xu /\ ~ exists k, x_kids xu = [k] /\
      forall nd, In nd (x_kids k) -> length (x_kids nd) = 1.
Proof.
  set (xu := [s_elem "divide" [] None
     [s_elem "unitNumerator" [] None [s_measure "iso:EUR"; s_measure "iso:m"];
      s_elem "unitDenominator" [] None [s_measure "iso:shares"]]]).
  destruct (parse_check (unit_doc xu) no_errors) as (s & E & H); [vm_compute; reflexivity|].
  exists (unit_doc xu), s. split; [exact E|]. split; [apply no_errors_nil, H|].
  eexists. exists (s_unit "u1" xu). split; [reflexivity|]. split; [vm_compute; reflexivity|].
  intros (k & [= <-] & G). specialize (G _ (or_introl eq_refl)). discriminate.
Qed.

Print Assumptions C97_reports_partial.
Print Assumptions C97_facts_partial.
Print Assumptions C97_opens_partial.
Print Assumptions C97_fatal_refuted.
Print Assumptions C97_shared_refuted.
Print Assumptions C97_silent_refuted.
