(** Property C105: which inline documents can be read. *)
From Verif Require Import Base Regex PyNum NumModel DateModel QNameModel QNameProofs ErrBase ErrTable ErrModel
  CtxModel CtxSpec CtxProofs CtxParseProofs CtxProps InlineModel InlineSpec InlineProofs InlineStepProofs
  InlineReportSpec InlineReportProofs InlineDocProofs InlineProps InlineOpenProofs.
From Verif Require CtxReportSpec.

Lemma two_tags : @Ok str (u "ix:nonNumeric") <> Ok (u "ix:nonFraction").
Proof. vm_compute. discriminate. Qed.
Local Opaque u create.

Section Documents.
Variable parse_date : str -> res date.
Variable rep : repository.
Variable py_float : str -> option bool.
Variable era_valid : list (part * str) -> res bool.
Variable kont : list str -> option (list (string * xml * list (str * str)) * list str).
Notation opened := (opened parse_date rep py_float era_valid kont).

(** A number or text element that names a concept and a context, but cannot be read. *)
Definition fact_fatal (contexts : list xml) (n : node) : Prop :=
  readable rep contexts n /\
  (tag_name (n_el n) = Ok (u "ix:nonFraction") /\ number_fatal n \/ tag_name (n_el n) = Ok (u "ix:nonNumeric") /\ text_fatal era_valid n).
(** The continuations can be followed, with these identifiers taken, and what is wrong can be reported. *)
Definition continuations_end (ids : list str) : Prop :=
  exists ks taken, kont ids = Some (ks, taken) /\
    Forall (fun k => exists e, create (fst (fst k)) (Some (snd (fst k))) (snd k) = Ok e) ks.

Lemma reports_run (ks : list (string * xml * list (str * str))) : forall s,
  runs (for_each (fun e => report (fst (fst e)) (snd (fst e)) (snd e)) ks) s <->
  Forall (fun k => exists e, create (fst (fst k)) (Some (snd (fst k))) (snd k) = Ok e) ks.
Proof.
  induction ks as [|k ks IH]; intros s; cbn [for_each].
  - split; [constructor|intros _; eexists; reflexivity].
  - rewrite Forall_cons_iff. apply runs_stage; [apply report_runs|apply report_runs|]. intros [] s' _. apply IH.
Qed.

Lemma becomes_readable docs0 contexts taken os t n : contexts_found parse_date rep docs0 contexts taken os t ->
  (becomes_fact rep (fun i => given (dict_get str_eqb (fold_left add_context (somes (map fst os)) []) i)) n = true <-> readable rep contexts n).
Proof.
  intros H. assert (G := contexts_found_get _ _ _ _ _ _ _ H). unfold becomes_fact, names_concept, names_context, readable, fact_concept.
  rewrite andb_true_iff. split.
  - intros [A B]. split.
    + destruct (attr (n_el n) (u "name")) as [name|]; [|discriminate A]. destruct (qname_from_str name (x_scope (n_el n))) as [q|] eqn:Eq; [|discriminate A].
      destruct (get_typed_by_qname is_concept rep q) as [e|] eqn:Ee; [|discriminate A]. exists e, name, q. auto.
    + destruct (attr (n_el n) (u "contextRef")) as [cid|]; [|discriminate B]. specialize (G cid).
      destruct (dict_get str_eqb _ cid); [|discriminate B]. destruct G as (xc & (pre & post & -> & Hx & _) & _). exists cid, xc.
      split; [reflexivity|]. split; [apply in_or_app; right; left; reflexivity|exact Hx].
  - intros ((e & name & q & E1 & E2 & E3) & cid & xc & E4 & Hx & Hu). rewrite E1, E2, E3, E4. split; [reflexivity|].
    specialize (G cid). destruct (dict_get str_eqb _ cid); [reflexivity|]. destruct (G xc Hx Hu).
Qed.

Theorem C105_opens_partial docs : (forall n, In n (doc_facts docs) -> conventional n) -> plain_dimensions [holding (doc_contexts docs)] ->
  ((exists cs fr errors, opened docs cs fr errors) <->
   ~ headers_fatal (map d_root (instances docs)) /\ ~ references_fatal (doc_references docs) /\ ~ resources_fatal (doc_resources docs) /\
   Forall (fun x => attr x (u "id") <> None /\ CtxReportSpec.context_ok parse_date rep x = true) (doc_contexts docs) /\
   Forall (fun x => attr x (u "id") <> None /\ CtxReportSpec.unit_ok x = true) (doc_units docs) /\
   ~ hidden_fatal (doc_hidden docs) /\
   continuations_end (rev (ids_of (named_elements docs))) /\
   forall n, In n (doc_facts docs) -> ~ fact_fatal (doc_contexts docs) n).
Proof.
  intros Hconv Hplain.
  assert (R : (exists cs fr errors, opened docs cs fr errors) <-> runs (parse_inline parse_date rep py_float era_valid kont docs) empty_state).
  { unfold opened, parse_facts_xhtml, runs, mbind. destruct (parse_inline parse_date rep py_float era_valid kont docs empty_state) as [[[r [[t cs] fr]] s]|e].
    - split; [eauto|]. intros _. exists cs, fr, (s_errors s), t, s. split; reflexivity.
    - split; [intros (cs & fr & es & t & s & H & _); discriminate H|intros (x & H); discriminate H]. }
  rewrite R. clear R. unfold parse_inline. change (filter (fun d => is_instance (d_root d)) docs) with (instances docs).
  apply (runs_cases _ _ _ _ _ _ _ (parse_headers_cases (map d_root (instances docs)))). intros e1 _.
  rewrite kids_named_pick. cbn [h_hidden h_resources h_references].
  apply (runs_cases _ _ _ _ _ _ _ (parse_references_cases (doc_references docs) [])). intros e2 _. rewrite with_app.
  apply (runs_cases _ _ _ _ _ _ _ (parse_resources_cases (doc_resources docs) no_resources)). intros e3 _. rewrite with_app.
  destruct (sort_contexts (flat_map x_kids (doc_resources docs)) no_resources) as [X1 X2]. rewrite X1, X2. clear X1 X2.
  cbn [no_resources r_contexts r_units app].
  change (filter (is_named (u "xbrli:context")) (flat_map x_kids (doc_resources docs))) with (doc_contexts docs).
  change (filter (is_named (u "xbrli:unit")) (flat_map x_kids (doc_resources docs))) with (doc_units docs).
  set (s0 := with_errors empty_state ((e1 ++ e2) ++ e3)). set (docs0 := [holding (doc_contexts docs)]) in *.
  assert (I0 : inv parse_date rep docs0 s0) by apply inv_empty. clearbody s0.
  assert (C := contexts_run parse_date rep docs0 (doc_contexts docs) (fun x H => holding_occurs _ x H) Hplain (takes (doc_references docs) []) [] s0 I0).
  apply runs_stage; [apply C|apply C|]. clear C. intros [tc cs0] s1 Ec.
  destruct (parse_contexts_step parse_date rep docs0 (doc_contexts docs)
    (fun x H => holding_occurs _ x H) _ _ s0 _ s1 I0 Ec) as (I1 & ec & Hec & osc & Hosc & -> & Hcs).
  cbn [fst snd] in *. subst cs0. clear Ec.
  set (docs1 := holding (doc_contexts docs) :: map alone (doc_units docs)).
  assert (I1' : inv parse_date rep docs1 s1).
  { eapply inv_mono; [|exact I1]. intros y [<-|[]]. left. reflexivity. }
  assert (U := units_run parse_date rep docs1 (doc_units docs) (fun x H => or_intror (in_map alone _ x H)) tc s1 I1').
  apply runs_stage; [apply U|apply U|]. clear U. intros tu s2 Eu.
  destruct (parse_units_sem parse_date rep docs1 (doc_units docs)
    (fun x H => or_intror (in_map alone _ x H)) tc s1 tu s2 I1' Eu) as (osu & Hosu & I2 & Heu & Hget).
  apply (runs_cases _ _ _ _ _ _ _ (validate_hidden_cases (doc_hidden docs))). intros e6 _.
  assert (Etu : tu = rev (ids_of (named_elements docs))).
  { destruct (contexts_dup parse_date rep py_float kont _ _ _ _ _ Hosc) as [Etc _]. destruct (units_dup parse_date py_float kont _ _ _ _ Hosu) as [-> _].
    rewrite Etc, takes_ids, app_nil_r. unfold named_elements. rewrite !ids_app, !rev_app_distr, <- app_assoc. reflexivity. }
  set (s3 := with_errors s2 e6).
  assert (J3 : forall i, dict_get char_key_eqb (s_chars s3) (i, ClsUnit) = last_unit i (somes (map fst osu))).
  { intros i. unfold s3. cbn [with_errors s_chars]. rewrite Hget, (no_units_yet _ _ _ _ i I1). destruct (last_unit i _); reflexivity. }
  clearbody s3. rewrite Etu. clear Etu.
  assert (U : forall i c, last_unit i (somes (map fst osu)) = Some c -> class_of c = ClsUnit).
  { intros i c E. assert (L := last_unit_spec i (somes (map fst osu))). rewrite E in L. destruct L as (pre & post & _ & [H _] & _). exact H. }
  assert (K : runs (check_continuations kont (rev (ids_of (named_elements docs)))) s3 <-> continuations_end (rev (ids_of (named_elements docs)))).
  { unfold check_continuations, continuations_end. destruct (kont _) as [[ks tk]|].
    - rewrite runs_bind. split.
      + intros ([] & s' & E & _). exists ks, tk. split; [reflexivity|]. apply (reports_run ks s3). eexists. exact E.
      + intros (ks' & tk' & E & F). injection E as <- <-. apply (reports_run ks s3) in F as ([[] s'] & F). exists tt, s'. split; [exact F|eexists; reflexivity].
    - split; [intros (r & H); discriminate H|intros (ks & tk & H & _); discriminate H]. }
  apply runs_stage; [apply K|apply K|]. clear K. intros tk s4 Ek.
  assert (J4 : forall i, dict_get char_key_eqb (s_chars s4) (i, ClsUnit) = last_unit i (somes (map fst osu))).
  { unfold check_continuations in Ek. destruct (kont _) as [[ks tk']|]; [|discriminate Ek]. unfold mbind in Ek.
    destruct (for_each _ ks s3) as [[[] s']|] eqn:Ef; [|discriminate Ek]. injection Ek as _ <-. destruct (reports_all _ _ _ Ef) as (e7 & -> & _). exact J3. }
  set (cs := fold_left add_context (somes (map fst osc)) []).
  assert (F : forall n, element_fatal rep era_valid cs n <-> fact_fatal (doc_contexts docs) n).
  { intros n. unfold element_fatal, fact_fatal. rewrite <- (becomes_readable _ _ _ _ _ n Hosc). reflexivity. }
  split.
  - intros H n Hn Hf. apply runs_bind in H as (a & s5 & E & _).
    destruct (parse_facts_made rep py_float era_valid _ U cs (doc_facts docs) Hconv None tk no_facts s4 a s5 J4 E) as (_ & es & _ & _ & H).
    apply (H n Hn), F, Hf.
  - intros H. apply runs_bind.
    destruct (facts_run rep py_float era_valid _ U cs (doc_facts docs) Hconv (fun n Hn Hf => H n Hn (proj1 (F n) Hf)) None tk no_facts s4 J4) as ([a s5] & E).
    exists a, s5. split; [exact E|]. eexists. reflexivity.
Qed.
End Documents.

(** ** Samples *)

Local Transparent u create.
Notation i_opens docs := (exists cs fr errors, opened iso_date s_rep (fun _ => Some false) (fun _ => Ok true) (fun t => Some ([], t)) docs cs fr errors).
(** The sample of C64, with an unknown context and with a member, meets the conditions. *)
Example C105_example : (forall n, In n (doc_facts [i_sample]) -> conventional n) /\ plain_dimensions [holding (doc_contexts [i_sample])] /\ i_opens [i_sample].
Proof.
  split; [exact i_sample_conventional|]. split.
  - intros x t Hx. destruct Hx as (d & [<-|[]] & Hx). revert t.
    assert (G : Forall (fun x => forall t, attr x (u "dimension") = Some t -> no_space t) (descendants (holding (doc_contexts [i_sample])))).
    2:{ rewrite Forall_forall in G. apply G, Hx. }
    clear. vm_compute. repeat constructor; intros t E; try discriminate E; injection E as <-; intros K; repeat (destruct K as [K|K]; [discriminate K|]); destruct K.
  - destruct i_sample_opened as (cs & fr & es & H & _). eauto.
Qed.

(** Each of these contexts and units ends the reading of all documents: a
    member of another kind, an explicit member without dimension, a typed member with an unknown one; a division by
    nothing, with an empty part or with two parts of the same kind. *)
Definition o_elem (tag : string) (attrs : list (string * string)) (text : option string) (kids : list xml) : xml := i_elem (xbrli tag) attrs text kids.
Definition o_context (segment : list xml) : xml :=
  o_elem "context" [("id", "c1")]%string None
    [o_elem "entity" [] None [o_elem "identifier" [("scheme", "urn:s")]%string (Some "E1"%string) []; o_elem "segment" [] None segment]; i_period].
Definition o_unit (parts : list xml) : xml := o_elem "unit" [("id", "u1")]%string None [o_elem "divide" [] None parts].
Definition o_measure : xml := o_elem "measure" [] (Some "iso:USD"%string) [].
Definition o_faulty : list xml :=
  [o_context [o_elem "other" [("dimension", "t:Axis")]%string None []];
   o_context [i_elem (u "{http://xbrl.org/2006/xbrldi}explicitMember") [] (Some "t:M1"%string) []];
   o_context [i_elem (u "{http://xbrl.org/2006/xbrldi}typedMember") [("dimension", "t:Nothing")]%string None [o_measure]];
   o_unit []; o_unit [o_elem "unitNumerator" [] None [o_measure]; o_elem "unitDenominator" [] None []];
   o_unit [o_elem "unitNumerator" [] None [o_measure]; o_elem "unitNumerator" [] None [o_measure]]].
Theorem C105_fatal_refuted :
  Forall (fun x => is_ok (i_parse [i_doc [i_header [i_references "r" [i_schema]; i_resources [x]]] []]) = false) o_faulty /\
  map (fun x => (CtxReportSpec.context_ok iso_date s_rep x, CtxReportSpec.unit_ok x)) o_faulty =
    [(false, true); (false, true); (false, true); (true, false); (true, false); (true, false)].
Proof. split; [repeat constructor; vm_compute; reflexivity|vm_compute; reflexivity]. Qed.

Print Assumptions C105_opens_partial.
Print Assumptions C105_fatal_refuted.
