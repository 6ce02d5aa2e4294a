(** What the nodes and filters of table linkbases say: C80 to C84. *)
From Verif Require Import Base Regex PyNum QNameModel CtxModel TableModel RuleModel RuleSpec RuleProofs RuleNodeProofs RuleLinkProofs.
From Coq Require Import Lia.
Local Open Scope nat_scope.

(** * C80: rule nodes *)

(** Every element is read as the rule it states, or as none. *)
Theorem C80_rule (x : xml) :
  exists r, parse_formula_aspect_element x = Ok r /\ forall f, r = Some f <-> states x f.
Proof. exact (formula_exact x). Qed.

(** No element states two rules. *)
Theorem C80_rule_unique (x : xml) f g : states x f -> states x g -> f = g.
Proof. apply states_fun. Qed.

(** A rule node is read as written; it cannot be read only if its parent-child order is no such
    order. *)
Theorem C80_node_partial (x : xml) :
  match parse_rule_node_element x with
  | Ok n => rule_node_written x n
  | Raise e => e = ValueError /\ forall o, ~ order_written x o
  end.
Proof. exact (rule_node_exact x). Qed.

(** Rules about units and about typed dimensions are silently left out. *)
Theorem C80_dropped_refuted (x : xml) :
  rule_el "unit" x \/ rule_el "typedDimension" x -> parse_formula_aspect_element x = Ok None.
Proof.
  intros H. destruct (formula_exact x) as (r & E & Hr). destruct r as [f|]; [|exact E].
  exfalso. destruct (proj1 (Hr f) eq_refl); unfold rule_el in *; destruct H; clash.
Qed.

(** A period rule with anything beside its one element, be it a comment, is left out; so is a
    dimension rule. *)
Theorem C80_comment_refuted (x : xml) : rule_el "period" x \/ rule_el "explicitDimension" x ->
  length (x_kids x) <> 1 -> parse_formula_aspect_element x = Ok None.
Proof.
  intros H Hk. destruct (formula_exact x) as (r & E & Hr). destruct r as [f|]; [|exact E].
  exfalso. destruct (proj1 (Hr f) eq_refl) as [? ? ? ? ? E'|?|? ? E'|? ? E'|? ? E'|? ? ? ? ? ? ? ? ? E'|? ? ? ? ? ? ? E'];
    try (rewrite E' in Hk; apply Hk; reflexivity); unfold rule_el in *; destruct H; clash.
Qed.

(** The schema type of [abstract] and [merge] also allows 1, which is read as false. *)
Theorem C80_one_refuted (x : xml) n : parse_rule_node_element x = Ok n ->
  (attr_is x "abstract" "1" -> rn_abstract n = false) /\ (attr_is x "merge" "1" -> rn_merge n = false).
Proof.
  intros E. pose proof (rule_node_exact x) as H. rewrite E in H.
  assert (D : str_eqb (u "1") (u "true") = false) by (vm_compute; reflexivity).
  assert (D' : Some (u "1") <> Some (u "true")).
  { intros Hs. assert (Hs' : u "1" = u "true") by congruence. rewrite Hs' in D.
    destruct (str_eqb_spec (u "true") (u "true")); congruence. }
  destruct H as [Ha Hm _ _ _ _ _ _]. unfold attr_is in *. split; intros Hx.
  - destruct (rn_abstract n); [|reflexivity]. destruct (D'). rewrite <- Hx. apply Ha. reflexivity.
  - destruct (rn_merge n); [|reflexivity]. destruct (D'). rewrite <- Hx. apply Hm. reflexivity.
Qed.

(** The aspect of a rule about concepts, entities or periods is the one that facts have. *)
Theorem C80_aspect_partial f :
  match f with
  | FConcept _ => formula_aspect f = u "concept" /\ forall c, aspect_of (ChConcept c) = formula_aspect f
  | FEntity _ _ => formula_aspect f = u "entity" /\ forall i s, aspect_of (ChEntity i s) = formula_aspect f
  | FForever | FInstant _ | FDuration _ _ => formula_aspect f = u "period" /\ forall p, aspect_of (ChPeriod p) = formula_aspect f
  | FDimension _ _ => True
  end.
Proof. destruct f; try exact I; (split; [|intros]); reflexivity. Qed.

(** The aspect of a rule about a dimension is never the aspect that facts have for a dimension. *)
Theorem C80_aspect_refuted (d q : qname) m : starts_with (u "{") (q_prefix q) = false ->
  formula_aspect (FDimension d m) <> prefix_local_notation q.
Proof.
  cbn [formula_aspect]. unfold clark_notation, to_clark, prefix_local_notation. intros H E.
  assert (E1 : starts_with (u "{") (u "{" ++ q_uri d ++ u "}" ++ q_local d) = true).
  { cbn. reflexivity. }
  rewrite E in E1. destruct (q_prefix q) as [|c p]; cbn in *; [discriminate E1|]. congruence.
Qed.

(** * C81: relationship nodes *)

Theorem C81_dimension_partial (rep : repository) (explicit : element -> bool) (x : xml) :
  match parse_dimension_relationship_node_element rep explicit x with
  | Ok (Some n) => dimension_written rep explicit x n
  | Ok None => (exists o, order_written x o) /\ forall n, ~ dimension_written rep explicit x n
  | Raise e => e = ValueError /\ forall o, ~ order_written x o
  end.
Proof. exact (dimension_exact rep explicit x). Qed.

Theorem C81_concept_partial (rep : repository) (x : xml) :
  match parse_concept_relationship_node_element rep x with
  | Ok (Some n) => concept_written rep x n
  | Ok None => (exists o, order_written x o) /\ forall n, ~ concept_written rep x n
  | Raise e => e = ValueError /\ forall o, ~ order_written x o
  end.
Proof. exact (concept_exact rep x). Qed.

(** What is read is determined by the element. *)
Theorem C81_unique rep b x r r' : relation_written rep b x r -> relation_written rep b x r' -> r = r'.
Proof. apply relation_written_fun. Qed.

(** A node that names an axis is never read, whichever axis it is. *)
Theorem C81_axis_refuted rep b x k r : In k (x_kids x) -> table_el "formulaAxis" k ->
  parse_relationship_element rep b x <> Ok (Some r).
Proof.
  intros Hk Ha E. pose proof (relation_exact rep b x) as H. rewrite E in H.
  destruct H as [_ [Hn _] _ _ _ _ _ _]. exact (Hn _ Hk Ha).
Qed.

(** The sources of dimension relationships are members; but a node whose source is not a concept
    is never read. *)
Theorem C81_member_refuted rep explicit x k q e n : In k (x_kids x) -> table_el "relationshipSource" k ->
  names k q -> dict_get qname_eqb (by_qname rep) q = Some e -> e_kind e = KMember ->
  parse_dimension_relationship_node_element rep explicit x <> Ok (Some n).
Proof.
  intros Hk Ht Hq He Hm E. pose proof (dimension_exact rep explicit x) as H. rewrite E in H.
  destruct H as [Hb _ _]. apply (relation_not_bad _ _ _ _ k Hb Hk). right. exists q. split; [split; assumption|].
  intros (e' & He' & Hc). congruence.
Qed.

(** The name for the root of a network is no source either. *)
Theorem C81_root_refuted rep b x k q r : In k (x_kids x) -> table_el "relationshipSource" k ->
  names k q -> dict_get qname_eqb (by_qname rep) q = None ->
  parse_relationship_element rep b x <> Ok (Some r).
Proof.
  intros Hk Ht Hq He E. pose proof (relation_exact rep b x) as H. rewrite E in H.
  apply (relation_not_bad _ _ _ _ k H Hk). right. exists q. split; [split; assumption|].
  intros (e' & He' & Hc). congruence.
Qed.

(** In a link, nodes of concept relationships are read as nodes of dimension relationships: without
    an element for a dimension, which they cannot have, nothing is read. *)
Theorem C81_concept_node_refuted rep explicit aspects role x r d : table_el "conceptRelationshipNode" x ->
  no_child (table_el "dimension") x -> parse_resource rep explicit aspects role x <> Ok (ENode r d).
Proof.
  intros Ht Hn E. pose proof (resource_exact rep explicit aspects role x) as H. rewrite E in H.
  destruct H as [_ Hw]. inversion Hw; subst; unfold table_el in *; try clash.
  match goal with H : dimension_written _ _ _ _ |- _ => destruct H as [_ _ (c & Hc & _)] end.
  exact (last_none _ _ _ Hn Hc).
Qed.

(** * C82: aspect nodes *)

Theorem C82_aspect_partial (aspects : list str) (x : xml) :
  match parse_aspect_node_element aspects x with
  | Ok (Some n) => aspect_written aspects x n
  | Ok None => forall n, ~ aspect_written aspects x n
  | Raise _ => False
  end.
Proof. exact (aspect_exact aspects x). Qed.

(** A node about a dimension that no context uses under this very prefix is left out. *)
Theorem C82_dimension_refuted aspects x k q : In k (x_kids x) -> table_el "dimensionAspect" k -> names k q ->
  ~ In (prefix_local_notation q) aspects -> parse_aspect_node_element aspects x = Ok None.
Proof.
  intros Hk Ht Hq Hn. pose proof (aspect_exact aspects x) as H.
  destruct (parse_aspect_node_element aspects x) as [[n|]|e]; [|reflexivity|destruct H].
  exfalso. destruct H as [H _ _ _ _]. destruct (H k Hk) as (a & Ha); [do 4 right; exact Ht|].
  destruct Ha as [| | | |q' _ Hq' Hin]; unfold table_el in *; try clash.
  apply Hn. unfold prefix_local_notation. rewrite (names_fun _ _ _ Hq Hq'). exact Hin.
Qed.

(** * C83: filters *)

Theorem C83_filter_partial (x : xml) : exists r, parse_filter_element x = Ok r /\
  forall f, r = Some f <-> filter_kind_of x (tf_kind f) /\ tf_label f = attr x (u "label") /\ tf_id f = attr x (u "id").
Proof. exact (filter_exact x). Qed.

(** The members of dimension filters are read as written. *)
Theorem C83_member_partial (x : xml) :
  match parse_member_element x with
  | Ok (Some m) => member_written x m
  | Ok None => forall m, ~ member_written x m
  | Raise _ => False
  end.
Proof. exact (member_exact x). Qed.

(** Filters about dimensions are never read. *)
Theorem C83_dimension_refuted (x : xml) :
  filter_el "dimension" "explicitDimension" x \/ filter_el "dimension" "typedDimension" x ->
  parse_filter_element x = Ok None.
Proof.
  intros H. destruct (filter_exact x) as (r & E & Hr). destruct r as [f|]; [|exact E].
  exfalso. destruct (proj1 (Hr f) eq_refl) as [Hk _]. destruct Hk; unfold filter_el in *; destruct H; clash.
Qed.

(** A filter by names with an expression is read only if the expression is the name of its own
    element. *)
Theorem C83_expression_refuted (x k g : xml) t f : In k (x_kids x) -> filter_el "concept" "conceptName" x ->
  x_kids k = [g] -> filter_el "concept" "qnameExpression" g -> x_text g = Some t ->
  t <> u "{http://xbrl.org/2014/filter/concept}qnameExpression" -> parse_filter_element x <> Ok (Some f).
Proof.
  intros Hk Hx Eg Hg Et Hn E. destruct (filter_exact x) as (r & E' & Hr). rewrite E in E'. injection E' as <-.
  destruct (proj1 (Hr f) eq_refl) as [Hf _].
  destruct Hf as [l m Hx' Hall _ _|Hx'|Hx'|Hx'|Hx'|Hx']; try (unfold filter_el in *; clash).
  destruct (Hall k Hk) as [_ [E'|(g' & E' & [Hq|Ht])]].
  - rewrite Eg in E'. discriminate E'.
  - rewrite Eg in E'. injection E' as <-. unfold filter_el in *. clash.
  - rewrite Eg in E'. injection E' as <-. rewrite Et in Ht. apply Hn. congruence.
Qed.

(** In a link no filter is ever found: the namespace of elements is compared without its brace. *)
Theorem C83_link_refuted rep explicit aspects role x f : parse_resource rep explicit aspects role x <> Ok (EFilter f).
Proof. intros E. pose proof (resource_exact rep explicit aspects role x) as H. rewrite E in H. exact H. Qed.

(** * C84: the objects of a link *)

(** A link can be read if none of its children stops it and its arcs can be followed; then its
    objects and arcs are those of its children, in document order. *)
Theorem C84_link_partial fuel rep explicit aspects (x : xml) :
  let role := match attr x (u "{http://www.w3.org/1999/xlink}role") with Some r => r | None => [] end in
  match parse_table_linkbase_element fuel rep explicit aspects x with
  | Ok t => (forall k e, In k (x_kids x) -> ~ stops k e) /\
      exists l, listed (written rep explicit aspects role) (x_kids x) l /\ tl_items t = map fst l /\
        (forall n i d, nth_error l n = Some (i, d) -> tl_data t n = d) /\
        parse_link fuel (tl_items t) = Ok (tl_tables t, tl_heap t, tl_orders t)
  | Raise e => (exists pre k post, x_kids x = pre ++ k :: post /\ stops k e /\ forall j e', In j pre -> ~ stops j e') \/
      (forall k e', In k (x_kids x) -> ~ stops k e') /\
      exists l, listed (written rep explicit aspects role) (x_kids x) l /\ parse_link fuel (map fst l) = Raise e
  end.
Proof.
  unfold parse_table_linkbase_element. cbv zeta.
  assert (Er : attr_or x (xlink_prefix (u "role")) [] =
    match attr x (u "{http://www.w3.org/1999/xlink}role") with Some r => r | None => [] end).
  { assert (E : u "{http://www.w3.org/1999/xlink}role" = xlink_prefix (u "role")) by (vm_compute; reflexivity).
    rewrite E. reflexivity. }
  rewrite Er. clear Er. generalize (match attr x (u "{http://www.w3.org/1999/xlink}role") with Some r => r | None => [] end). intros role.
  pose proof (children_exact rep explicit aspects role (x_kids x) []) as H.
  destruct (read_children rep explicit aspects role [] (x_kids x)) as [[l fs]|e]; cbn [bind]; [|left; exact H].
  destruct H as (-> & Hs & Hl). destruct (parse_link fuel (map fst l)) as [[[tables h] st]|e] eqn:Ep; cbn [bind].
  - split; [exact Hs|]. exists l. cbn [tl_items tl_data tl_tables tl_heap tl_orders]. split; [exact Hl|]. split; [reflexivity|].
    split; [|exact Ep]. intros n i d E. rewrite E. reflexivity.
  - right. split; [exact Hs|]. exists l. split; assumption.
Qed.

(** A comment makes the link unreadable. *)
Theorem C84_comment_refuted fuel rep explicit aspects x k t : In k (x_kids x) -> x_tag k = None ->
  parse_table_linkbase_element fuel rep explicit aspects x <> Ok t.
Proof.
  intros Hk Ht E. pose proof (C84_link_partial fuel rep explicit aspects x) as H. cbv zeta in H. rewrite E in H.
  destruct H as [H _]. apply (H k AttributeError Hk). left. split; [reflexivity|exact Ht].
Qed.

(** No table and no node ever has a filter. *)
Theorem C84_filters_refuted fuel rep explicit aspects x t :
  parse_table_linkbase_element fuel rep explicit aspects x = Ok t -> tl_filters t = [].
Proof.
  unfold parse_table_linkbase_element. cbv zeta.
  pose proof (children_exact rep explicit aspects (attr_or x (xlink_prefix (u "role")) []) (x_kids x) []) as H.
  destruct (read_children rep explicit aspects _ [] (x_kids x)) as [[l fs]|e]; cbn [bind]; [|discriminate].
  destruct H as (-> & _ & _). destruct (parse_link fuel (map fst l)) as [[[tables h] st]|e]; cbn [bind]; [|discriminate].
  intros [= <-]. cbn [tl_filters]. apply attach_none.
Qed.

(** * Examples *)

Definition r_scope : scope := [(Some (u "ex"), u "urn:ex")].
Definition r_attrs (l : list (string * string)) : list (str * str) := map (fun p => (u (fst p), u (snd p))) l.
Definition r_el (tag : string) (attrs : list (string * string)) (kids : list xml) : xml :=
  Xml (Some (u tag)) (r_attrs attrs) r_scope None kids.
Definition r_text (tag text : string) : xml := Xml (Some (u tag)) [] r_scope (Some (u text)) [].
Definition r_t (name : string) := String.append "{http://xbrl.org/2014/table}" name.
Definition r_f (name : string) := String.append "{http://xbrl.org/2008/formula}" name.
Definition r_l : string := "{http://www.w3.org/1999/xlink}label".
Definition r_from : string := "{http://www.w3.org/1999/xlink}from".
Definition r_to : string := "{http://www.w3.org/1999/xlink}to".
Definition ex (name : string) : qname := QName (u "urn:ex") (u "ex") (u name).

Definition r_rule : xml :=
  r_el (r_t "ruleNode") [(r_l, "r"%string); ("abstract"%string, "true"%string); ("parentChildOrder"%string, "children-first"%string)]
    [r_el (r_f "concept") [] [r_text (r_f "qname") "ex:Cash"];
     r_el (r_t "ruleSet") [("tag"%string, "start"%string)] [r_el (r_f "period") [] [r_el (r_f "instant") [("value"%string, "2020-01-01"%string)] []]];
     r_el (r_f "unit") [] [];
     r_el (r_t "ruleSet") [("tag"%string, "start"%string)]
       [r_el (r_f "period") [] [r_el (r_f "instant") [("value"%string, "2021-01-01"%string)] []];
        r_el (r_f "explicitDimension") [("dimension"%string, "ex:Axis"%string)] [r_el (r_f "member") [] [r_text (r_f "qname") "ex:Home"]]]].

Example C80_example :
  match parse_rule_node_element r_rule with
  | Ok n => rn_abstract n = true /\ rn_merge n = false /\ rn_order n = ChildrenFirst /\
      dict_get key_eqb (rn_sets n) None = Some (RuleSet None [FConcept (Name (ex "Cash"))]) /\
      dict_get key_eqb (rn_sets n) (Some (u "start")) =
        Some (RuleSet (Some (u "start")) [FInstant (Some (u "2021-01-01")); FDimension (ex "Axis") (Some (Name (ex "Home")))])
  | Raise _ => False
  end.
Proof. vm_compute. auto. Qed.

Definition r_cash : element := Element (ex "Cash") None KConcept 0.
Definition r_axis : element := Element (ex "Axis") None KDimension 1.
Definition r_home : element := Element (ex "Home") None KMember 2.
Definition r_rep : repository := Repo [(ex "Cash", r_cash); (ex "Axis", r_axis); (ex "Home", r_home)] [].

Definition r_rel (source : string) : xml :=
  r_el (r_t "dimensionRelationshipNode") [(r_l, "d"%string)]
    [r_text (r_t "relationshipSource") source; r_text (r_t "generations") "2"; r_text (r_t "dimension") "ex:Axis"].

Example C81_example :
  parse_dimension_relationship_node_element r_rep (fun _ => true) (r_rel "ex:Cash") =
    Ok (Some (DimensionRelationship (Relationship [SourceName (ex "Cash")] (u "http://www.xbrl.org/2003/role/link") DescendantOrSelf 2
      Unspecified None None (Some (u "d"))) r_axis)) /\
  parse_dimension_relationship_node_element r_rep (fun _ => true) (r_rel "ex:Home") = Ok None.
Proof. vm_compute. auto. Qed.

Definition r_aspect (name : string) : xml :=
  r_el (r_t "aspectNode") [(r_l, "a"%string)]
    [Xml (Some (u (r_t "dimensionAspect"))) (r_attrs [("includeUnreportedValue"%string, "true"%string)]) r_scope (Some (u name)) []].

Example C82_example :
  parse_aspect_node_element [u "concept"; u "ex:Axis"] (r_aspect "ex:Axis") = Ok (Some (AspectNode (u "ex:Axis") true None (Some (u "a")))) /\
  parse_aspect_node_element [u "concept"; u "e:Axis"] (r_aspect "ex:Axis") = Ok None.
Proof. vm_compute. auto. Qed.

Definition r_filter (kind name : string) : string :=
  String.append "{http://xbrl.org/2014/filter/" (String.append kind (String.append "}" name)).
Example C83_example :
  parse_filter_element (r_el (r_filter "period" "periodStart") [("date"%string, "2020-01-01"%string); ("id"%string, "f"%string)] []) =
    Ok (Some (TFilter (KDateTime BStart (u "2020-01-01") None) None (Some (u "f")))) /\
  parse_filter_element (r_el (r_filter "concept" "conceptName") []
     [r_el (r_filter "concept" "concept") [] [r_text (r_filter "concept" "qname") "ex:Cash"]]) =
    Ok (Some (TFilter (KConceptName [ex "Cash"] []) None None)) /\
  parse_filter_element (r_el (r_filter "concept" "conceptName") []
     [r_el (r_filter "concept" "concept") [] [r_text (r_filter "concept" "qnameExpression") "fn:QName('urn:ex','Cash')"]]) = Ok None /\
  parse_member_element (r_el (r_filter "dimension" "member") []
     [r_text (r_filter "dimension" "qname") "ex:Home"; r_text (r_filter "dimension" "linkrole") "urn:role";
      r_text (r_filter "dimension" "axis") "child-or-self"]) =
    Ok (Some (FilterMember (Name (ex "Home")) (Some (u "urn:role")) None MChildOrSelf)).
Proof. vm_compute. auto 10. Qed.

Definition r_arc (name from to : string) (more : list (string * string)) : xml :=
  r_el (r_t name) ([(r_from, from); (r_to, to); ("order"%string, "1"%string)] ++ more) [].
Definition r_link (more : list xml) : xml :=
  r_el "{http://xbrl.org/2008/generic}link" [("{http://www.w3.org/1999/xlink}role"%string, "urn:role"%string)]
    ([r_el (r_t "table") [(r_l, "t"%string); ("id"%string, "t1"%string)] []; r_el (r_t "breakdown") [(r_l, "b"%string)] []; r_rule; r_aspect "ex:Axis";
      r_arc "tableBreakdownArc" "t" "b" [("axis"%string, "x"%string)]; r_arc "breakdownTreeArc" "b" "r" [];
      r_arc "definitionNodeSubtreeArc" "r" "a" []] ++ more).
Definition r_parse (more : list xml) : res table_link :=
  parse_table_linkbase_element 5 r_rep (fun _ => true) [u "ex:Axis"] (r_link more).

Example C84_example :
  match r_parse [] with
  | Ok t => tl_tables t = [0] /\ h_kids (tl_heap t) 1 = [2] /\ h_kids (tl_heap t) 2 = [3] /\
      map (tl_orders t) [0; 1; 2] = [ParentFirst; ParentFirst; ChildrenFirst] /\
      tl_data t 0 = Some (DTable (u "urn:role") (Some (u "t1"))) /\
      tl_data t 3 = Some (DAspect (AspectNode (u "ex:Axis") true None (Some (u "a"))))
  | Raise _ => False
  end /\
  (forall t, r_parse [Xml None [] [] (Some (u "note")) []] <> Ok t) /\
  r_parse [r_el (r_t "breakdown") [("parentChildOrder"%string, "x"%string)] []] = Raise ValueError.
Proof.
  split; [vm_compute; auto 10|]. split; [|vm_compute; reflexivity].
  intros t. eapply C84_comment_refuted; [apply in_or_app; right; left; reflexivity|reflexivity].
Qed.

Print Assumptions C80_rule.
Print Assumptions C80_rule_unique.
Print Assumptions C80_node_partial.
Print Assumptions C80_dropped_refuted.
Print Assumptions C80_comment_refuted.
Print Assumptions C80_one_refuted.
Print Assumptions C80_aspect_refuted.
Print Assumptions C81_dimension_partial.
Print Assumptions C81_concept_partial.
Print Assumptions C81_unique.
Print Assumptions C81_axis_refuted.
Print Assumptions C81_member_refuted.
Print Assumptions C81_root_refuted.
Print Assumptions C81_concept_node_refuted.
Print Assumptions C82_aspect_partial.
Print Assumptions C82_dimension_refuted.
Print Assumptions C83_filter_partial.
Print Assumptions C83_member_partial.
Print Assumptions C83_dimension_refuted.
Print Assumptions C83_expression_refuted.
Print Assumptions C83_link_refuted.
Print Assumptions C84_link_partial.
Print Assumptions C84_comment_refuted.
Print Assumptions C84_filters_refuted.
Print Assumptions C80_aspect_partial.
