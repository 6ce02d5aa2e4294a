(** Property C79: what is reported about the fact elements of inline documents. *)
From Verif Require Import Base Regex PyNum NumModel DateModel QNameModel ErrBase ErrTable ErrModel
  CtxModel CtxSpec CtxProofs CtxProps InlineModel InlineSpec InlineProofs InlineStepProofs InlineReportSpec InlineReportProofs
  InlineDocProofs InlineProps.

Local Opaque u create.

Section Filing.
Variable parse_date : str -> res date.
Variable rep : repository.
Variable py_float : str -> option bool.
Variable era_valid : list (part * str) -> res bool.
Variable kont : list str -> option (list (string * xml * list (str * str)) * list str).
Notation opened := (opened parse_date rep py_float era_valid kont).
Notation crashes := (crashes parse_date rep py_float era_valid kont).
Notation all_conventional docs := (forall n, In n (doc_facts docs) -> conventional n).

(** The errors that follow those about headers, contexts and units are exactly the problems of the
    fact elements, in document order and with the element.  A unit is known if one is read with that
    name, a context if it has a period and an entity. *)
Theorem C79_reports_partial docs cs fr errors : opened docs cs fr errors -> all_conventional docs ->
  exists us ks taken before es (known_unit known_context : str -> bool),
    Forall2 unit_outcome (doc_units docs) us /\
    (forall i, known_unit i = true <-> exists c, In c (somes (map fst us)) /\ unit_named i c) /\
    (forall i, known_context i = true <-> exists x, In x (doc_contexts docs) /\ usable i x) /\
    kont (rev (ids_of (named_elements docs))) = Some (ks, taken) /\
    errors = before ++ es /\
    Forall2 made (elements_problems rep py_float era_valid known_unit known_context taken (doc_facts docs)) es.
Proof.
  intros (tk0 & s & H & ->) Hc.
  apply parse_all in H as (osc & osu & osf & tu & tk & e1 & e2 & e3 & e6 & e7 & R).
  destruct R as [_ _ _ (tc & Hcf & Hu) _ (ks & Ek & _) Ecs _ He Hr _ _].
  destruct (Hr Hc) as [Hm _]. specialize (He Hc).
  assert (G := contexts_found_get _ _ _ _ _ _ _ Hcf). rewrite <- Ecs in G.
  destruct (contexts_dup parse_date rep py_float kont _ _ _ _ _ Hcf) as [Etc _]. destruct (units_dup parse_date py_float kont _ _ _ _ Hu) as [Etu _].
  exists osu, ks, tk, (e1 ++ e2 ++ e3 ++ concat (map snd osc) ++ concat (map snd osu) ++ e6 ++ e7), (concat (map snd osf)).
  do 2 eexists. split; [eapply units_read_forall, Hu|]. split; [|split; [|split; [|split; [|exact Hm]]]].
  - intros i. cbv beta. assert (L := last_unit_spec i (somes (map fst osu))).
    destruct (last_unit i _) as [c|]; cbn [given].
    + split; [|reflexivity]. intros _. exists c. destruct L as (pre & post & -> & L & _).
      split; [apply in_or_app; right; left; reflexivity|exact L].
    + split; [discriminate|]. intros (c & H1 & H2). destruct (L c H1 H2).
  - intros i. cbv beta. specialize (G i). destruct (dict_get str_eqb cs i) as [c|]; cbn [given].
    + split; [|reflexivity]. intros _. destruct G as (xc & (pre & post & -> & Hx & _) & _). exists xc.
      split; [apply in_or_app; right; left; reflexivity|exact Hx].
    + split; [discriminate|]. intros (x & H1 & H2). destruct (G x H1 H2).
  - rewrite <- Ek, Etu, Etc, takes_ids, app_nil_r. unfold named_elements. rewrite !ids_app, !rev_app_distr, <- app_assoc. reflexivity.
  - rewrite He, <- !app_assoc. reflexivity.
Qed.

(** One faulty number or text element ends the reading of all documents. *)
Theorem C79_fatal_refuted docs n : all_conventional docs -> In n (doc_facts docs) ->
  readable rep (doc_contexts docs) n ->
  tag_name (n_el n) = Ok (u "ix:nonFraction") /\ number_fatal n \/
  tag_name (n_el n) = Ok (u "ix:nonNumeric") /\ text_fatal era_valid n -> crashes docs.
Proof.
  intros Hc Hn ((e & name & q & E1 & E2 & E3) & cid & xc & Hr & Hin & Hus) Hf.
  destruct (opened_or_crashes parse_date rep py_float era_valid kont docs) as [(cs & fr & es & tk0 & s & H & ->)|H]; [|exact H].
  exfalso. apply parse_all in H as (osc & osu & osf & tu & tk & e1 & e2 & e3 & e6 & e7 & R).
  destruct R as [_ _ _ (tc & Hcf & Hu) _ _ Ecs _ _ Hrep _ _].
  destruct (Hrep Hc) as [_ Hno]. apply (Hno n Hn). split; [|exact Hf].
  assert (G := contexts_found_get _ _ _ _ _ _ _ Hcf cid). rewrite <- Ecs in G.
  unfold becomes_fact, names_concept, names_context. rewrite E1, E2, E3, Hr.
  destruct (dict_get str_eqb cs cid); [reflexivity|]. destruct (G xc Hin Hus).
Qed.
End Filing.

(** No other number element stops anything: it is read, with exactly its problems. *)
Theorem C79_number py_float n c taken s : ~ number_fatal n ->
  exists f es, parse_non_fraction py_float n c taken s = Ok (f, ids_of [n_el n] ++ taken, with_errors s es) /\
    Forall2 made (id_problems taken (n_el n) ++ number_problems py_float n) es.
Proof.
  intros Hn. destruct (number_cases py_float n c taken) as [[Hf _]|[_ D]]; [contradiction|].
  destruct (D s) as (es & E & Hm). exists (number_made py_float n c), es. rewrite E, take_of. auto.
Qed.
Theorem C79_text era_valid n c taken s content v codes :
  n_content n (escapes (n_el n)) = Ok content ->
  parse_non_numerical_fact_value era_valid content (attr (n_el n) (u "format")) = Ok (v, codes) ->
  exists f es, parse_non_numeric era_valid n c taken s = Ok (f, ids_of [n_el n] ++ taken, with_errors s es) /\
    Forall2 made (id_problems taken (n_el n) ++ text_problems era_valid n) es.
Proof.
  intros H1 H2. destruct (text_cases era_valid n c taken) as [[Hf _]|[_ (f & D)]].
  { destruct (Hf content H1) as [e E]. congruence. }
  destruct (D s) as (es & E & Hm). exists f, es. rewrite E, take_of. auto.
Qed.

(** ** Samples *)

Local Transparent u create.
Definition p_number (attrs : list (string * string)) (nil : option string) (text : option string) (kids : list xml) : node :=
  plain_node (Xml (Some (ix "nonFraction"))
    (map (fun kv => (u (fst kv), u (snd kv))) (("name", "t:Cash") :: ("contextRef", "c1") :: attrs)%string ++
     match nil with Some v => [(to_clark (u "http://www.w3.org/2001/XMLSchema-instance") (u "nil"), u v)] | None => [] end)
    i_scope (option_map u text) kids).
Definition p_faulty : list node :=
  [p_number [("unitRef", "usd"); ("id", "f1"); ("decimals", "two"); ("precision", "3"); ("format", "ixt:odd")]%string
     (Some "false"%string) (Some "12"%string) [];
   p_number [("unitRef", "eur"); ("id", "f1"); ("decimals", "0")]%string (Some "true"%string) (Some "12"%string) [];
   p_number [("sign", "+"); ("scale", "x")]%string None (Some "12"%string) [];
   p_number [("unitRef", "usd")]%string None None [];
   i_text [("contextRef", "c1"); ("escape", "maybe"); ("format", "ixt:num-dot-decimal")]%string "a";
   i_text [("id", "f1")]%string "b"].
Definition p_codes : list string :=
  ["INVALID_DECIMALS_ATTRIBUTE_VALUE"; "IXBRL_MUTUALLY_EXCLUSIVE_ATTRIBUTES_IN_NON_FRACTION"; "UNSUPPORTED_NON_FRACTION_FACT_FORMAT";
   "IXBRL_INVALID_FACT_UNIT_ID"; "IXBRL_DUPLICATE_ELEMENT_ID"; "IXBRL_MUTUALLY_EXCLUSIVE_ATTRIBUTES_IN_NON_FRACTION";
   "IXBRL_TEXT_OR_CHILDREN_WITH_NIL"; "IXBRL_NON_FRACTION_WITHOUT_UNIT"; "IXBRL_INVALID_SIGN_ATTRIBUTE_VALUE";
   "INVALID_SCALE_ATTRIBUTE_VALUE"; "IXBRL_NO_TEXT_OR_CHILDREN_WITH_ABSENT_NIL_ATTRIBUTE";
   "IXBRL_INVALID_NON_NUMERIC_FACT_ESCAPE_ATTRIBUTE_VALUE"; "UNSUPPORTED_NON_NUMERIC_FACT_FORMAT"; "IXBRL_FACT_WITHOUT_CONTEXT"]%string.
Example C79_example :
  (forall n, In n (doc_facts [i_doc i_good p_faulty]) -> conventional n) /\
  map fst (elements_problems s_rep (fun _ => Some false) (fun _ => Ok true) (fun i => str_eqb i (u "usd"))
             (fun i => str_eqb i (u "c1")) [u "usd"; u "c1"; u "r"] (doc_facts [i_doc i_good p_faulty])) = p_codes /\
  match i_parse [i_doc i_good p_faulty] with Ok (_, s) => length (s_errors s) | Raise _ => 0 end = 14.
Proof.
  split.
  - intros n H. vm_compute in H. repeat (destruct H as [<-|H]; [unfold conventional; vm_compute; auto|]). destruct H.
  - split; vm_compute; reflexivity.
Qed.

(** "xsi:nil" is "1", which means true in XML: such a number without content ends the reading. *)
Definition p_nil_one : node := p_number [("unitRef", "usd")]%string (Some "1"%string) None [].
Theorem C79_nil_refuted : number_fatal p_nil_one /\ i_parse [i_doc i_good [p_nil_one]] = Raise IndexError.
Proof. split; [apply nf_nothing; vm_compute; reflexivity|vm_compute; reflexivity]. Qed.
(** A comment before the nested number. *)
Definition p_comment : node := p_number [("unitRef", "usd")]%string None None [i_comment; n_el inner_number].
Theorem C79_comment_refuted : number_fatal p_comment /\ i_parse [i_doc i_good [p_comment]] = Raise TypeError.
Proof. split; [eapply nf_comment; vm_compute; reflexivity|vm_compute; reflexivity]. Qed.
(** Not fatal: the hypothesis of [C79_number]. *)
Example C79_number_example : Forall (fun n => ~ number_fatal n) (firstn 4 p_faulty).
Proof.
  repeat constructor; intros [p H _|p H _ _|k r H1 H2 H3 _|H1 H2 H3 H4]; vm_compute in *; discriminate.
Qed.

Print Assumptions C79_reports_partial.
Print Assumptions C79_fatal_refuted.
Print Assumptions C79_number.
Print Assumptions C79_text.
Print Assumptions C79_nil_refuted.
Print Assumptions C79_comment_refuted.
