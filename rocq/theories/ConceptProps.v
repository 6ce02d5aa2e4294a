(** C46 (data types are classified coherently), C47 (concepts have the written attributes), C56
    (declarations become report elements), C57 (typed dimensions), C58 (locators). *)
From Verif Require Import Base Regex PyNum QNameModel QNameSpec QNameProofs QNameProps ErrBase ErrTable
  ErrModel ErrProps CtxModel DtsModel DtsRefs DtsProofs ConceptModel ConceptSpec ConceptProofs ConceptLoad.

(** * C46: data types *)

(** For every data type name: integer concepts are numeric, none is numeric and textual, boolean
    concepts are textual and not numeric. *)
Theorem C46_coherent (data_type : str) :
  (is_integer data_type = true -> is_numeric data_type = true) /\
  ~ (is_numeric data_type = true /\ is_textual data_type = true) /\
  (is_boolean data_type = true -> is_numeric data_type = false /\ is_textual data_type = true).
Proof.
  unfold is_integer, is_numeric, is_textual, is_boolean. generalize (local_type data_type). intros l.
  assert (H1 : forallb (fun t => in_list t numeric_types) integer_types = true) by (vm_compute; reflexivity).
  assert (H2 : forallb (fun t => negb (in_list t textual_types)) numeric_types = true) by (vm_compute; reflexivity).
  rewrite forallb_forall in H1, H2. split; [|split].
  - intros H. apply in_list_In in H. exact (H1 _ H).
  - intros [Ha Hb]. apply in_list_In in Ha. specialize (H2 _ Ha). rewrite Hb in H2. discriminate H2.
  - intros H. apply str_eqb_eq in H. subst l. split; vm_compute; reflexivity.
Qed.

(** The classification depends on the part after the last colon only. *)
Theorem C46_local_part (s s' l : str) : local_part s l -> local_part s' l ->
  is_integer s = is_integer s' /\ is_numeric s = is_numeric s' /\ is_textual s = is_textual s' /\
  is_boolean s = is_boolean s'.
Proof.
  intros H H'. unfold is_integer, is_numeric, is_textual, is_boolean.
  rewrite (local_part_type _ _ H), (local_part_type _ _ H'). auto.
Qed.

(** The item types of XBRL 2.1, under any prefix, are classified as XBRL defines them, fractions
    aside: every type is either numeric or textual, and integers are recognised. *)
Theorem C46_standard_types (p : str) name so : In (name, so) standard_types -> so <> SFraction ->
  let t := p ++ u ":" ++ u name in
  is_numeric t = (match so with SInteger | SDecimal => true | _ => false end) /\
  is_integer t = (match so with SInteger => true | _ => false end) /\
  is_boolean t = (match so with SBoolean => true | _ => false end) /\
  is_textual t = negb (is_numeric t).
Proof.
  intros Hi Hf t.
  assert (Hall : forallb (fun e => let l := u (fst e) in
     negb (mem_char (ch ":") l) && match snd e with SFraction => true | so =>
     Bool.eqb (in_list l numeric_types) (match so with SInteger | SDecimal => true | _ => false end) &&
     Bool.eqb (in_list l integer_types) (match so with SInteger => true | _ => false end) &&
     Bool.eqb (str_eqb l (u "booleanItemType")) (match so with SBoolean => true | _ => false end) &&
     Bool.eqb (in_list l textual_types) (negb (in_list l numeric_types)) end) standard_types = true)
    by (vm_compute; reflexivity).
  rewrite forallb_forall in Hall. specialize (Hall _ Hi). cbn [fst snd] in Hall.
  apply andb_true_iff in Hall as [Hc Hall].
  assert (El : local_type t = u name).
  { apply local_part_type. split; [|right; exists p; reflexivity].
    intros H. apply mem_char_In in H. rewrite H in Hc. discriminate Hc. }
  unfold is_numeric, is_integer, is_boolean, is_textual. rewrite El. clear - Hall Hf.
  destruct so; try congruence;
    apply andb_true_iff in Hall as [Hall H4]; apply andb_true_iff in Hall as [Hall H3];
    apply andb_true_iff in Hall as [H1 H2]; apply Bool.eqb_prop in H1, H2, H3, H4; auto.
Qed.

(** XBRL 2.1 counts fractions as numeric items; brel counts them as textual. *)
Theorem C46_fraction_refuted (p : str) : let t := p ++ u ":" ++ u "fractionItemType" in
  is_numeric t = false /\ is_textual t = true.
Proof.
  intros t. assert (El : local_type t = u "fractionItemType").
  { apply local_part_type. split; [|right; exists p; reflexivity].
    intros H. apply mem_char_In in H. vm_compute in H. discriminate H. }
  unfold is_numeric, is_textual. rewrite El. split; vm_compute; reflexivity.
Qed.

Example C46_example :
  is_numeric (u "xbrli:monetaryItemType") = true /\ is_integer (u "xbrli:monetaryItemType") = false /\
  is_integer (u "xbrli:positiveIntegerItemType") = true /\ is_boolean (u "xbrli:booleanItemType") = true /\
  is_textual (u "us-types:unknownItemType") = false /\ is_numeric (u "us-types:unknownItemType") = false.
Proof. repeat split; vm_compute; reflexivity. Qed.

(** * C47: concepts *)

(** A concept is created exactly when the attributes are valid, with exactly the written
    attributes, and then no error is recorded. *)
Theorem C47_created x id q es e es' :
  concept_from_xml x id q es = Ok (Some e, es') <->
  es' = es /\ exists c, valid_concept x c /\ e = RElement q id (BConcept c).
Proof.
  destruct (concept_from_xml_outcome x id q es) as [(c & Hv & E)|(er & code & E & _ & Hv & _)]; rewrite E.
  - split.
    + intros [= <- <-]. split; [reflexivity|]. eauto.
    + intros [-> (c' & Hv' & ->)]. rewrite (valid_concept_one _ _ _ Hv Hv'). reflexivity.
  - split; [discriminate|]. intros [_ (c & Hc & _)]. exfalso. exact (Hv c Hc).
Qed.

(** Otherwise nothing is created, and exactly one error about the element is recorded: that of the
    first fault in the order periodType, balance, nillable, type. *)
Theorem C47_rejected x id q es : (forall c, ~ valid_concept x c) ->
  exists er number, concept_from_xml x id q es = Ok (None, es ++ [er]) /\ about x number er /\
    ((number = "200"%string /\ bad_period x) \/
     (number = "201"%string /\ ~ bad_period x /\ bad_balance x) \/
     (number = "202"%string /\ ~ bad_period x /\ ~ bad_balance x /\ bad_nillable x) \/
     (number = "203"%string /\ ~ bad_period x /\ ~ bad_balance x /\ ~ bad_nillable x /\ no_type x)).
Proof.
  intros Hn.
  destruct (concept_from_xml_outcome x id q es) as [(c & Hv & _)|(er & code & E & Hab & _ & Hc)].
  { exfalso. exact (Hn c Hv). }
  exists er, code. split; [exact E|]. split; [exact Hab|].
  destruct Hc as [(H & ->)|[(H1 & H2 & ->)|[(H1 & H2 & H3 & ->)|(H1 & H2 & H3 & H4 & ->)]]].
  - left; auto.
  - right; left; auto.
  - right; right; left; auto.
  - right; right; right; auto.
Qed.

(** The attributes are valid exactly when there is none of the four faults. *)
Theorem C47_valid_iff x :
  (exists c, valid_concept x c) <-> ~ bad_period x /\ ~ bad_balance x /\ ~ bad_nillable x /\ ~ no_type x.
Proof.
  destruct (concept_from_xml_outcome x None (QName [] [] []) [])
    as [(c & Hv & _)|(er & code & _ & _ & Hv & Hc)].
  - split; [intros _|eauto]. destruct Hv as (E1 & E2 & E3 & E4 & E5 & E6). split; [|split; [|split]].
    + intros [H1 H2]. destruct E2 as [E2|E2]; congruence.
    + intros (b & Hb & H1 & H2). destruct E4 as [E4|[E4|E4]]; congruence.
    + intros (b & Hb & H1 & H2). destruct (c_nillable c); [congruence|]. destruct E5; congruence.
    + unfold no_type. congruence.
  - split; [intros (c & Hc'); exfalso; exact (Hv c Hc')|]. intros (H1 & H2 & H3 & H4). exfalso.
    destruct Hc as [(H & _)|[(_ & H & _)|[(_ & _ & H & _)|(_ & _ & _ & H & _)]]]; contradiction.
Qed.

(** Every constellation of the attributes occurs. *)
Definition sample (attrs : list (str * str)) : xml := Xml (Some (clark xs (u "element"))) attrs [] None [].
Definition ia (n : string) : str := u "{http://www.xbrl.org/2003/instance}" ++ u n.
Example C47_example_valid :
  valid_concept (sample [(ia "periodType", u "instant"); (ia "balance", u "credit");
                         (u "nillable", u "true"); (u "type", u "xbrli:monetaryItemType")])
    (Concept (u "instant") (Some (u "credit")) true (u "xbrli:monetaryItemType")).
Proof. unfold valid_concept. split; [vm_compute; reflexivity|]. cbn [c_period c_balance c_nillable c_type]. auto 10. Qed.
Example C47_example_faults :
  bad_period (sample [(u "type", u "t")]) /\
  bad_balance (sample [(ia "periodType", u "instant"); (ia "balance", u "Credit")]) /\
  bad_nillable (sample [(ia "periodType", u "instant"); (u "nillable", u "1")]) /\
  no_type (sample [(ia "periodType", u "instant")]).
Proof.
  split; [split; intros E; vm_compute in E; discriminate E|].
  split; [exists (u "Credit"); split; [vm_compute; reflexivity|]; split; intros E; vm_compute in E; discriminate E|].
  split; [exists (u "1"); split; [vm_compute; reflexivity|]; split; intros E; vm_compute in E; discriminate E|].
  vm_compute. reflexivity.
Qed.

(** XML Schema allows "1" and "0" for booleans; such concepts are dropped. *)
Theorem C47_boolean_forms_refuted x id q es :
  attr x (u "nillable") = Some (u "1") -> exists er es', concept_from_xml x id q es = Ok (None, es' ++ [er]).
Proof.
  intros H. destruct (C47_rejected x id q es) as (er & number & E & _); [|eauto].
  intros c (_ & _ & _ & _ & E & _). destruct (c_nillable c).
  - rewrite H in E. vm_compute in E. discriminate E.
  - destruct E as [E|E]; rewrite H in E; vm_compute in E; discriminate E.
Qed.

(** * C56: kinds of report elements *)

(** The class of a report element. *)
Definition kind_of_body (b : body) : ekind :=
  match b with
  | BConcept _ => KConcept | BAbstract => KAbstract | BLineItems => KLineItems | BHypercube => KHypercube
  | BDimension _ => KDimension | BMember => KMember
  end.

(** The class of the element made from a declaration is the one it declares; it carries the given
    name and the written id; at most one class fits. *)
Theorem C56_kind x q es e es' : create_element x q es = Ok (Some e, es') ->
  declares x (kind_of_body (r_body e)) /\ r_name e = q /\ r_id e = attr x (u "id") /\ es' = es /\
  (forall c, r_body e = BConcept c -> valid_concept x c).
Proof.
  intros H.
  destruct (create_cases x q es) as [(k & Hk & Hd & E)|[[Hd [(c & Hv & E)|(er & code & E & _)]]|[_ E]]];
    rewrite E in H; try discriminate H; injection H as <- <-; cbn [r_body r_name r_id].
  - split; [|split; [reflexivity|split; [reflexivity|split; [reflexivity|]]]].
    + destruct k; cbn [plain_body kind_of_body]; auto; congruence.
    + intros c Hc. destruct k; discriminate Hc.
  - split; [exact Hd|]. split; [reflexivity|]. split; [reflexivity|]. split; [reflexivity|].
    intros c' [= <-]. exact Hv.
Qed.

(** Conversely every declaration of a kind other than a concept makes an element. *)
Theorem C56_made x q es k : declares x k -> k <> KConcept ->
  exists e, create_element x q es = Ok (Some e, es) /\ kind_of_body (r_body e) = k.
Proof.
  intros Hd Hk.
  destruct (create_cases x q es) as [(k' & Hk' & Hd' & E)|[[Hd' _]|[Hn _]]].
  - rewrite (declares_one _ _ _ Hd' Hd) in *. eexists. split; [exact E|].
    destruct k; cbn [r_body plain_body kind_of_body]; congruence.
  - exfalso. apply Hk. exact (declares_one _ _ _ Hd Hd').
  - exfalso. exact (Hn _ Hd).
Qed.

Lemma group_end x local : in_group x local -> group_mentions x local.
Proof.
  intros (p & E & _). exists (p ++ u ":" ++ u local), (p ++ u ":"), []. split; [exact E|].
  rewrite app_nil_r, <- app_assoc. reflexivity.
Qed.

Lemma group_mentions_cases x local (text : string) : in_group x local -> ~ In (ch ":") (u text) ->
  contains (u text) (u local) = false -> group_mentions x text ->
  exists p, attr x (u "substitutionGroup") = Some (p ++ u ":" ++ u local) /\ contains (u text) p = true.
Proof.
  intros (p & E & Hp) Hc Hl (v & a & b & E' & Ev). exists p. split; [exact E|].
  rewrite E in E'. injection E' as <-.
  assert (H : contains (u text) (p ++ ch ":" :: u local) = true) by (apply contains_spec; eauto).
  rewrite contains_sep in H by exact Hc. rewrite Hl, orb_false_r in H. exact H.
Qed.

(** Declarations in the substitution groups of XBRL and XBRL Dimensions get the right class,
    provided that the type is not a domain item type. *)
Theorem C56_standard_kinds x : ~ is_domain x ->
  (in_group x "item" -> ~ is_abstract_decl x -> declares x KConcept) /\
  (in_group x "hypercubeItem" -> is_abstract_decl x -> declares x KHypercube) /\
  (in_group x "dimensionItem" -> is_abstract_decl x ->
     (forall p, attr x (u "substitutionGroup") = Some (p ++ u ":" ++ u "dimensionItem") ->
        contains (u "hypercubeItem") p = false) -> declares x KDimension) /\
  (in_group x "item" -> is_abstract_decl x ->
     (forall p, attr x (u "substitutionGroup") = Some (p ++ u ":" ++ u "item") ->
        contains (u "hypercubeItem") p = false /\ contains (u "dimensionItem") p = false) ->
     declares x KLineItems \/ declares x KAbstract).
Proof.
  intros Hd.
  assert (Hno : forall s, mem_char (ch ":") (u s) = false -> ~ In (ch ":") (u s)).
  { intros s Hs H. apply mem_char_In in H. congruence. }
  split; [|split; [|split]].
  - intros Hg Ha. apply D_concept; auto. apply group_end, Hg.
  - intros Hg Ha. apply D_hypercube; auto. apply group_end, Hg.
  - intros Hg Ha Hp. apply D_dimension; auto; [|apply group_end, Hg].
    intros Hh. destruct (group_mentions_cases x _ _ Hg (Hno "hypercubeItem"%string eq_refl) eq_refl Hh) as (p & E & Hc).
    rewrite (Hp p E) in Hc. discriminate Hc.
  - intros Hg Ha Hp.
    assert (N1 : ~ group_mentions x "hypercubeItem").
    { intros Hh. destruct (group_mentions_cases x _ _ Hg (Hno "hypercubeItem"%string eq_refl) eq_refl Hh) as (p & E & Hc).
      destruct (Hp p E) as [H _]. rewrite H in Hc. discriminate Hc. }
    assert (N2 : ~ group_mentions x "dimensionItem").
    { intros Hh. destruct (group_mentions_cases x _ _ Hg (Hno "dimensionItem"%string eq_refl) eq_refl Hh) as (p & E & Hc).
      destruct (Hp p E) as [_ H]. rewrite H in Hc. discriminate Hc. }
    assert (Hl : is_line_items_name x \/ ~ is_line_items_name x).
    { unfold is_line_items_name.
      destruct (bool_iff _ _ (contains_or x (u "name") [] (u "LineItems") eq_refl)) as [[_ H]|[_ H]]; auto. }
    destruct Hl as [Hl|Hl]; [left; apply D_line_items|right; apply D_abstract]; auto.
Qed.

(** The tests are for substrings.  A tuple declared through a prefix containing "item" is taken for
    a concept, an item whose type name merely contains "domainItemType" for a member. *)
Definition tuple_decl : xml := sample [(u "name", u "T"); (u "substitutionGroup", u "lineitem:tuple")].
Definition domain_like : xml := sample
  [(u "name", u "A"); (u "substitutionGroup", u "xbrli:item"); (ia "periodType", u "instant");
   (u "type", u "my:subdomainItemTypeX")].
Theorem C56_substrings_refuted :
  (in_group tuple_decl "tuple" /\ declares tuple_decl KConcept) /\
  (in_group domain_like "item" /\ ~ is_abstract_decl domain_like /\ declares domain_like KMember).
Proof.
  assert (Hc : forall s : str, mem_char (ch ":") s = false -> ~ In (ch ":") s).
  { intros s E H. apply mem_char_In in H. congruence. }
  split; [split|split; [|split]].
  - exists (u "lineitem"). split; [vm_compute; reflexivity|apply Hc; vm_compute; reflexivity].
  - apply D_concept.
    + intros (v & a & b & E & _). vm_compute in E. discriminate E.
    + intros E. vm_compute in E. discriminate E.
    + exists (u "lineitem:tuple"), (u "line"), (u ":tuple"). split; vm_compute; reflexivity.
  - exists (u "xbrli"). split; [vm_compute; reflexivity|apply Hc; vm_compute; reflexivity].
  - intros E. vm_compute in E. discriminate E.
  - apply D_member. exists (u "my:subdomainItemTypeX"), (u "my:sub"), (u "X"). split; vm_compute; reflexivity.
Qed.

(** ** All schemas *)

Local Opaque u insert.

(** After reading all schemas, the repository holds exactly the elements made by the first
    declaration of their name that makes anything; under each name there is one. *)
Theorem C56_first_declaration trees es r es' :
  NoDup (map fst trees) -> prefixes_usual trees ->
  parse_report_elements trees (empty_rrepo, es) = Ok (r, es') ->
  (forall e, In e (rr_get_all r) <-> first_made trees e) /\
  NoDup (map r_name (rr_get_all r)) /\
  (forall q e, rr_get_by_qname r q = Ok e <-> first_made trees e /\ r_name e = q).
Proof.
  intros Hn Hp H. rewrite parse_all_flat in H.
  destruct (parse_all_spec trees Hn Hp (all_decls trees) [] [] es r es') as (reg & new & -> & H1 & H2 & _ & _).
  - reflexivity.
  - constructor.
  - intros e. split; [intros []|]. intros (b & d & a & E & _). destruct b; discriminate E.
  - intros d [].
  - exact H.
  - rewrite stored_all by exact H1. split; [exact H2|]. split; [exact H1|].
    intros q e. rewrite stored_get by exact H1. rewrite H2. reflexivity.
Qed.

(** No declaration is lost: every one that can make an element has an element with its name. *)
Theorem C56_declared trees es r es' :
  NoDup (map fst trees) -> prefixes_usual trees ->
  parse_report_elements trees (empty_rrepo, es) = Ok (r, es') ->
  forall d, In d (all_decls trees) -> ~ makes_nothing d ->
  exists e, In e (rr_get_all r) /\ named d (r_name e).
Proof.
  intros Hn Hp H d Hd Hm. rewrite parse_all_flat in H.
  destruct (parse_all_spec trees Hn Hp (all_decls trees) [] [] es r es') as (reg & new & -> & H1 & _ & _ & _ & H2).
  - reflexivity.
  - constructor.
  - intros e. split; [intros []|]. intros (b & d' & a & E & _). destruct b; discriminate E.
  - intros d' [].
  - exact H.
  - rewrite stored_all by exact H1. destruct (H2 d Hd Hm) as (q & Hq & Hin). apply in_map_iff in Hin as (e & <- & He). eauto.
Qed.

(** The errors recorded are, in the order of the declarations, one for every concept with bad
    attributes and one for every dimension whose reference leads nowhere (when it is the first with
    its name); nothing else. *)
Theorem C56_errors trees es r es' :
  NoDup (map fst trees) -> prefixes_usual trees ->
  parse_report_elements trees (empty_rrepo, es) = Ok (r, es') ->
  exists new, es' = es ++ new /\ error_list trees [] (all_decls trees) new.
Proof.
  intros Hn Hp H. rewrite parse_all_flat in H.
  destruct (parse_all_spec trees Hn Hp (all_decls trees) [] [] es r es') as (reg & new & _ & _ & _ & E & El & _).
  - reflexivity.
  - constructor.
  - intros e. split; [intros []|]. intros (b & d & a & E & _). destruct b; discriminate E.
  - intros d [].
  - exact H.
  - eauto.
Qed.

(** Reading succeeds if every dimension has a domain in the sense of C57. *)
Theorem C56_total trees st :
  NoDup (map fst trees) -> prefixes_usual trees ->
  (forall root tns x, In (root, tns, x) (all_decls trees) -> declares x KDimension ->
     exists ty, domain_type trees root x ty) ->
  exists st', parse_report_elements trees st = Ok st'.
Proof.
  intros Hn Hp Hdom. rewrite parse_all_flat.
  assert (H : forall l, (forall d, In d l -> In d (all_decls trees)) -> forall st,
            exists st', for_all (step trees) l st = Ok st').
  2:{ apply H. auto. }
  clear st. induction l as [|d l IH]; intros Hl [r es]; cbn [for_all]; [eauto|].
  assert (Hs : exists st', step trees d (r, es) = Ok st').
  { assert (Hd := Hl d (or_introl eq_refl)). destruct d as [[root tns] x].
    cbn [step]. unfold parse_declaration.
    assert (Hname : exists name, get_str_attribute x (u "name") = Ok name).
    { unfold all_decls in Hd. apply in_flat_map in Hd as (t & _ & Hd). unfold decls_of in Hd.
      destruct (attr (snd t) (u "targetNamespace")); [|contradiction].
      apply in_map_iff in Hd as (k & [= <- <- <-] & Hk). apply filter_In in Hk as [_ Hk].
      unfold get_str_attribute. destruct (x_tag k); [|discriminate].
      destruct (attr k (u "name")); [eauto|discriminate]. }
    destruct Hname as (name & ->). cbn [bind].
    destruct (C32_parse_total (to_clark tns name) (x_scope x)) as [(q & ->) _]. cbn [bind].
    destruct (create_cases x q es) as [(k & Hk & Hdk & E)|[[Hdk [(c & Hv & E)|(er & code & E & _)]]|[_ E]]];
      rewrite E; cbn [bind r_body].
    - destruct (rr_has_qname r q); [eauto|]. destruct k; cbn [plain_body]; eauto.
      unfold resolve_domain. destruct (typed_ref_name x (Hp _ _ _ Hd Hdk)) as (qa & -> & Ea). cbn [bind].
      rewrite Ea. destruct (Hdom _ _ _ Hd Hdk) as (ty & [[Hr _]|[[Hr _]|(y & t & q' & Hr & Ht & Hq & _)]]).
      + rewrite Hr. cbn [bind]. eauto.
      + destruct Hr as (nm & i & t & Er & H1 & H2 & Hdoc & Hnone). rewrite Er.
        assert (Hs : split_char (ch "#") (nm ++ ch "#" :: i) = [nm; i]) by (apply split_two; auto).
        rewrite Hs. fold (lookup_doc trees root nm). apply lookup_doc_spec in Hdoc; [|exact Hn]. rewrite Hdoc.
        cbn [bind]. pose proof (find_id_spec t i) as Hf. destruct (find_id t i) as [y|]; [exfalso; exact (Hnone y Hf)|].
        destruct (reference_inserts es x i nm) as (er & _ & ->). cbn [bind]. eauto.
      + destruct Hr as (nm & i & t' & Er & H1 & H2 & Hdoc & Hfirst). rewrite Er.
        assert (Hs : split_char (ch "#") (nm ++ ch "#" :: i) = [nm; i]) by (apply split_two; auto).
        rewrite Hs. fold (lookup_doc trees root nm). apply lookup_doc_spec in Hdoc; [|exact Hn]. rewrite Hdoc.
        cbn [bind]. pose proof (find_id_spec t' i) as Hf. destruct (find_id t' i) as [y'|]; [|exfalso; exact (Hf y Hfirst)].
        rewrite (first_with_id_one _ _ _ _ Hf Hfirst). unfold get_str_attribute. rewrite Ht. cbn [bind].
        rewrite Hq. cbn [bind]. eauto.
    - destruct (rr_has_qname r q); eauto.
    - eauto.
    - eauto. }
  destruct Hs as (st' & ->). cbn [bind]. apply IH. intros d' Hd'. apply Hl. right; exact Hd'.
Qed.

(** * C57: typed dimensions *)

(** A dimension of the filing is typed exactly when its declaration refers to an element, by the type of
    which it is typed; without a reference, or with one that leads nowhere, it is explicit. *)
Theorem C57_dimension_types_partial trees es r es' e ty :
  NoDup (map fst trees) -> prefixes_usual trees ->
  parse_report_elements trees (empty_rrepo, es) = Ok (r, es') ->
  In e (rr_get_all r) -> r_body e = BDimension ty ->
  exists root tns x, In (root, tns, x) (all_decls trees) /\ named (root, tns, x) (r_name e) /\
    declares x KDimension /\
    match ty with
    | None => typed_domain_ref x = None \/ dangling trees root x
    | Some q => exists y t, ref_to trees root x y /\ attr y (u "type") = Some t /\
                  qname_from_str t (x_scope y) = Ok q
    end.
Proof.
  intros Hn Hp H He Hb. destruct (C56_first_declaration _ _ _ _ Hn Hp H) as (H1 & _).
  apply H1 in He as (before & [[root tns] x] & after & E & (Hnm & _ & Hm) & _).
  rewrite Hb in Hm. destruct Hm as [Hd Hty].
  exists root, tns, x. split; [rewrite E; apply in_elt|]. split; [exact Hnm|]. split; [exact Hd|].
  destruct Hty as [[Hr ->]|[[Hr ->]|(y & t & q & Hr & Ht & Hq & ->)]]; auto.
  exists y, t. auto.
Qed.

(** Documents for the examples. *)
Definition schema_scope (prefix : string) : scope :=
  [(Some (u "xs"), u "http://www.w3.org/2001/XMLSchema"); (Some (u "a"), u "http://a");
   (Some (u prefix), u "http://xbrl.org/2005/xbrldt")].
Definition in_schema (prefix : string) (attrs : list (str * str)) : xml :=
  Xml (Some (u "{http://www.w3.org/2001/XMLSchema}element")) attrs (schema_scope prefix) None [].
Definition typed_dim (prefix : string) (ref : string) : xml :=
  in_schema prefix [(u "name", u "Dim"); (u "id", u "a_Dim"); (u "abstract", u "true");
    (u "substitutionGroup", u prefix ++ u ":dimensionItem"); (u "type", u "xbrli:stringItemType");
    (u "{http://xbrl.org/2005/xbrldt}typedDomainRef", u ref)].
Definition domain_elem (prefix : string) : xml :=
  in_schema prefix [(u "name", u "Dom"); (u "id", u "a_Dom"); (u "type", u "xs:string")].
Definition schema (prefix : string) (kids : list xml) : xml :=
  Xml (Some (u "{http://www.w3.org/2001/XMLSchema}schema")) [(u "targetNamespace", u "http://a")]
      (schema_scope prefix) None kids.

Example C57_example : exists r es,
  parse_report_elements [(u "a.xsd", schema "xbrldt" [typed_dim "xbrldt" "#a_Dom"; domain_elem "xbrldt"])]
    (empty_rrepo, []) = Ok (r, es) /\
  rr_get_by_qname r (QName (u "http://a") (u "a") (u "Dim")) =
    Ok (RElement (QName (u "http://a") (u "a") (u "Dim")) (Some (u "a_Dim"))
          (BDimension (Some (QName (u "http://www.w3.org/2001/XMLSchema") (u "xs") (u "string"))))) /\ es = [].
Proof. eexists _, _. split; [vm_compute; reflexivity|]. split; vm_compute; reflexivity. Qed.

(** Under another prefix for the namespace, the same dimension is taken for an explicit one. *)
Theorem C57_other_prefix_refuted : exists r es,
  parse_report_elements [(u "a.xsd", schema "dim" [typed_dim "dim" "#a_Dom"; domain_elem "dim"])]
    (empty_rrepo, []) = Ok (r, es) /\
  rr_get_by_qname r (QName (u "http://a") (u "a") (u "Dim")) =
    Ok (RElement (QName (u "http://a") (u "a") (u "Dim")) (Some (u "a_Dim")) (BDimension None)) /\ es = [].
Proof. eexists _, _. split; [vm_compute; reflexivity|]. split; vm_compute; reflexivity. Qed.

(** Schemas are kept under their absolute address, but looked up under the written one: a reference
    to a schema in the same remote directory makes opening the filing fail. *)
Theorem C57_relative_refuted :
  parse_report_elements
    [(u "http://a.com/a.xsd", schema "xbrldt" [typed_dim "xbrldt" "b.xsd#a_Dom"]);
     (u "http://a.com/b.xsd", schema "xbrldt" [domain_elem "xbrldt"])] (empty_rrepo, []) = Raise KeyError.
Proof. vm_compute. reflexivity. Qed.

(** More generally, a reference to a document that is not kept under the written name raises. *)
Theorem C57_unknown_document trees root tns x es name i :
  usual_prefix x -> declares x KDimension -> (exists n, attr x (u "name") = Some n) ->
  typed_domain_ref x = Some (name ++ ch "#" :: i) -> ~ In (ch "#") name -> ~ In (ch "#") i ->
  name <> [] -> name <> u "." -> (forall t, ~ In (normalize_uri name, t) trees) ->
  parse_declaration trees root tns x (empty_rrepo, es) = Raise KeyError.
Proof.
  intros Hp Hd (n & Hnm) Hr H1 H2 H3 H4 Hno. unfold parse_declaration.
  unfold get_str_attribute at 1. rewrite Hnm. cbn [bind].
  destruct (C32_parse_total (to_clark tns n) (x_scope x)) as [(q & ->) _]. cbn [bind].
  destruct (create_cases x q es) as [(k & Hk & Hdk & E)|[[Hdk _]|[Hno' _]]].
  2:{ pose proof (declares_one _ _ _ Hd Hdk) as E; discriminate E. }
  2:{ exfalso. exact (Hno' _ Hd). }
  rewrite <- (declares_one _ _ _ Hd Hdk) in E. rewrite E. cbn [bind plain_body r_body].
  change (rr_has_qname empty_rrepo q) with false. cbn iota.
  unfold resolve_domain. destruct (typed_ref_name x Hp) as (qa & -> & Ea). cbn [bind]. rewrite Ea, Hr.
  assert (Hs : split_char (ch "#") (name ++ ch "#" :: i) = [name; i]) by (apply split_two; auto).
  rewrite Hs. fold (lookup_doc trees root name).
  assert (El : lookup_doc trees root name = Raise KeyError).
  { unfold lookup_doc. destruct (str_eqb_spec name []) as [|_]; [contradiction|].
    destruct (str_eqb_spec name (u ".")) as [|_]; [contradiction|]. cbn [negb andb].
    destruct (dict_get str_eqb trees (normalize_uri name)) as [t|] eqn:Eg; [|reflexivity].
    exfalso. apply (Hno t). exact (dict_get_in _ str_eqb_spec _ _ _ Eg). }
  rewrite El. reflexivity.
Qed.

(** * C58: locators *)

(** What a locator stands for: the last registered element with the id after the last "#" of the
    [href]; failing that, the fact with that id; failing that nothing, with one error. *)
Theorem C58_by_id {F} trees es r es' (facts : str -> option F) loc (href i : str) el :
  NoDup (map fst trees) -> prefixes_usual trees ->
  parse_report_elements trees (empty_rrepo, es) = Ok (r, es') ->
  ~ In (ch "#") i -> (href = i \/ exists doc, href = doc ++ ch "#" :: i) ->
  (forall e, last_with_id (rr_get_all r) i e ->
     locator_target r facts loc href el = Ok (Some (ToElement e), el)) /\
  ((forall e, ~ last_with_id (rr_get_all r) i e) -> forall f, facts i = Some f ->
     locator_target r facts loc href el = Ok (Some (ToFact f), el)) /\
  ((forall e, ~ last_with_id (rr_get_all r) i e) -> facts i = None ->
     exists er, er_context er = Some loc /\ locator_target r facts loc href el = Ok (None, el ++ [er])).
Proof.
  intros Hn Hp H Hi Hhref. rewrite parse_all_flat in H.
  destruct (parse_all_spec trees Hn Hp (all_decls trees) [] [] es r es') as (reg & new & -> & H1 & _).
  { reflexivity. } { constructor. }
  { intros e. split; [intros []|]. intros (b & d & a & E & _). destruct b; discriminate E. }
  { intros d []. } { exact H. }
  rewrite stored_all by exact H1. unfold locator_target.
  assert (Ei : last (split_char (ch "#") href) [] = i).
  { destruct Hhref as [->|(doc & ->)]; [apply last_split_none, Hi|apply last_split_app, Hi]. }
  rewrite Ei. split; [|split].
  - intros e He. apply stored_by_id in He. rewrite He. reflexivity.
  - intros Hno f Hf. destruct (rr_get_by_id (stored reg) i) as [e|] eqn:E.
    + apply stored_by_id in E. exfalso. exact (Hno e E).
    + rewrite Hf. reflexivity.
  - intros Hno Hf. destruct (rr_get_by_id (stored reg) i) as [e|] eqn:E.
    + apply stored_by_id in E. exfalso. exact (Hno e E).
    + rewrite Hf.
      assert (Hins : exists er, er_context er = Some loc /\
        insert el "XML_REFERENCED_LOCATOR_ELEMENT_NOT_FOUND" (Some loc) [((u "elem_id" : str), (i : str))] = Ok (el ++ [er])).
      { eexists (Error _ _ _ _ _ _). split; [|vm_compute; reflexivity]. reflexivity. }
      destruct Hins as (er & Hc & ->). exists er. auto.
Qed.

Lemma two_in {A} (a b : A) l : In a l -> In b l ->
  a = b \/ (exists p q s, l = p ++ a :: q ++ b :: s) \/ (exists p q s, l = p ++ b :: q ++ a :: s).
Proof.
  intros Ha Hb. apply in_split in Ha as (p & q & ->).
  apply in_app_or in Hb as [Hb|[Hb|Hb]]; auto.
  - apply in_split in Hb as (p1 & p2 & ->). right; right. exists p1, p2, q. rewrite <- app_assoc. reflexivity.
  - apply in_split in Hb as (q1 & q2 & ->). right; left. exists p, q1, q2. reflexivity.
Qed.

(** If no two declarations have the same id, every locator leads to the element declared in the
    document it names. *)
Theorem C58_locator_partial {F} trees es r es' (facts : str -> option F) loc href e el :
  NoDup (map fst trees) -> prefixes_usual trees -> ids_distinct trees ->
  parse_report_elements trees (empty_rrepo, es) = Ok (r, es') ->
  refers_to trees href e -> In e (rr_get_all r) ->
  locator_target r facts loc href el = Ok (Some (ToElement e), el).
Proof.
  intros Hn Hp Hids H (doc & i & root & tns & x & Hh & Hi & _ & Hin & Hx & Hm) He.
  destruct (C58_by_id trees es r es' facts loc href i el Hn Hp H Hi) as (H1 & _); [eauto|].
  apply H1. destruct (C56_first_declaration _ _ _ _ Hn Hp H) as (Hall & Hnd & _).
  pose proof He as He'. apply in_split in He' as (b & a & E).
  exists b, a. split; [exact E|].
  assert (Hid : r_id e = Some i) by (destruct Hm as (_ & Hm & _); congruence).
  split; [exact Hid|]. intros z Hz Hzi.
  assert (Hz' : In z (rr_get_all r)) by (rewrite E; apply in_or_app; right; right; exact Hz).
  apply Hall in Hz' as (bz & dz & az & Ez & Hmz & _). apply Hall in He as (be & de & ae & Ee & Hme & _).
  assert (Iz : In dz (all_decls trees)) by (rewrite Ez; apply in_elt).
  assert (Ie : In de (all_decls trees)) by (rewrite Ee; apply in_elt).
  assert (Ai : forall d e0, makes trees d e0 -> r_id e0 = attr (snd d) (u "id")).
  { intros [[? ?] ?] e0 (_ & Hq & _). exact Hq. }
  rewrite (Ai _ _ Hmz) in Hzi. rewrite (Ai _ _ Hme) in Hid.
  assert (Hzz : z = e).
  { destruct (two_in dz de _ Iz Ie) as [Eq|[(p & q & s & El)|(p & q & s & El)]].
    - subst dz. exact (makes_one _ _ _ _ Hn Hmz Hme).
    - exfalso. exact (Hids _ _ _ _ _ _ El Hzi Hid).
    - exfalso. exact (Hids _ _ _ _ _ _ El Hid Hzi). }
  subst z. rewrite E, map_app in Hnd. cbn [map] in Hnd. apply NoDup_remove_2 in Hnd. apply Hnd.
  apply in_or_app; right. apply in_map, Hz.
Qed.

(** Ids are unique per document only.  When two schemas use the same id, a locator into the first
    leads to the element of the second. *)
Definition member_decl (name : string) : xml :=
  in_schema "xbrldt" [(u "name", u name); (u "id", u "id1"); (u "type", u "nonnum:domainItemType")].
Theorem C58_same_id_refuted :
  let trees := [(u "a.xsd", schema "xbrldt" [member_decl "A"]); (u "b.xsd", schema "xbrldt" [member_decl "B"])] in
  exists r es eA, parse_report_elements trees (empty_rrepo, []) = Ok (r, es) /\
    refers_to trees (u "a.xsd#id1") eA /\ In eA (rr_get_all r) /\
    exists eB, locator_target (F := unit) r (fun _ => None) (member_decl "A") (u "a.xsd#id1") [] = Ok (Some (ToElement eB), []) /\
      r_name eA = QName (u "http://a") (u "a") (u "A") /\ r_name eB = QName (u "http://a") (u "a") (u "B").
Proof.
  intros trees. eexists _, _, (RElement (QName (u "http://a") (u "a") (u "A")) (Some (u "id1")) BMember).
  split; [vm_compute; reflexivity|]. split.
  - exists (u "a.xsd"), (u "id1"), (schema "xbrldt" [member_decl "A"]), (u "http://a"), (member_decl "A").
    split; [vm_compute; reflexivity|]. split; [intros Hh; apply mem_char_In in Hh; vm_compute in Hh; discriminate Hh|].
    split; [left; reflexivity|]. split; [vm_compute; left; reflexivity|]. split; [vm_compute; reflexivity|].
    split; [exists (u "A"); split; vm_compute; reflexivity|]. split; [vm_compute; reflexivity|].
    apply D_member. exists (u "nonnum:domainItemType"), (u "nonnum:"), []. split; vm_compute; reflexivity.
  - split; [vm_compute; left; reflexivity|]. eexists. split; [vm_compute; reflexivity|]. split; vm_compute; reflexivity.
Qed.

(** A locator to an undeclared id records an error: the hypotheses of the theorems can be met. *)
Example C58_example : exists r es e,
  parse_report_elements [(u "a.xsd", schema "xbrldt" [member_decl "A"; domain_elem "xbrldt"])] (empty_rrepo, []) = Ok (r, es) /\
  locator_target (F := unit) r (fun _ => None) (member_decl "A") (u "a.xsd#id1") [] = Ok (Some (ToElement e), []) /\
  exists er, locator_target (F := unit) r (fun _ => None) (member_decl "A") (u "a.xsd#id2") [] = Ok (None, [er]).
Proof.
  eexists _, _, _. split; [vm_compute; reflexivity|]. split; [vm_compute; reflexivity|].
  eexists. vm_compute. reflexivity.
Qed.

Print Assumptions C46_coherent.
Print Assumptions C46_local_part.
Print Assumptions C46_standard_types.
Print Assumptions C46_fraction_refuted.
Print Assumptions C47_created.
Print Assumptions C47_rejected.
Print Assumptions C47_valid_iff.
Print Assumptions C47_boolean_forms_refuted.
Print Assumptions C56_kind.
Print Assumptions C56_made.
Print Assumptions C56_standard_kinds.
Print Assumptions C56_substrings_refuted.
Print Assumptions C56_first_declaration.
Print Assumptions C56_declared.
Print Assumptions C56_errors.
Print Assumptions C56_total.
Print Assumptions C57_dimension_types_partial.
Print Assumptions C57_other_prefix_refuted.
Print Assumptions C57_relative_refuted.
Print Assumptions C57_unknown_document.
Print Assumptions C58_by_id.
Print Assumptions C58_locator_partial.
Print Assumptions C58_same_id_refuted.
