(** C98-C102: whole inline filings. *)
From Coq Require Import QArith Permutation.
From Verif Require Import Base QNameModel QNameProofs ErrBase ErrTable ErrModel NumModel DateModel CtxModel CtxSpec CtxProofs CtxExactProofs InlineModel InlineSpec
  InlineProofs InlineStepProofs InlineReportSpec InlineHeadSpec InlineDocProofs InlineProps InlineFrame InlineFilingModel InlineFilingSpec InlineFilingProofs InlineFootProofs InlineContProofs.
From Verif Require CtxReportSpec QNameSpec TextModel TextSpec LinkModel LinkSpec NetModel NetSpec LangModel FootModel FootSpec FootProps ConceptModel ConceptSpec ConceptLoad CompModel CompSpec
  FilingModel FilingSpec FilingProofs FilingStages.
Local Open Scope nat_scope.
Lemma two_tags : @Ok str (u "ix:nonNumeric") <> Ok (u "ix:nonFraction").
Proof. vm_compute. discriminate. Qed.
Local Opaque u create insert.

(** ** C99: which elements are read *)

Lemma below_order : forall r above, in_order (r :: above) (t_kids r) (below above r).
Proof.
  fix IH 1. intros [tag attrs sc text kids tail] above. cbn [below t_kids].
  set (r := Tree tag attrs sc text kids tail). clearbody r.
  induction kids as [|k ks IHk]; [constructor|]. cbn [flat_map app]. constructor; [apply IH|exact IHk].
Qed.
Lemma number_pairs n l : map (fun p => (p_tree p, p_above p)) (number_places n l) = l.
Proof.
  unfold number_places. rewrite map_map. cbn [p_tree p_above]. revert n. induction l as [|[t a] l IH]; intros n; [reflexivity|].
  cbn. f_equal. apply IH.
Qed.
Lemma ix_read names roots : forall n, ix_elements names roots (flat_map (ix_places names) (pages n roots)).
Proof.
  induction roots as [|r rs IH]; intros n; cbn [pages flat_map].
  { exists []. split; [constructor|reflexivity]. }
  destruct (IH (n + length (below [] r))) as (ls & H1 & H2).
  exists (filter (fun q => ix_named names r (fst q)) (below [] r) :: ls). split.
  - constructor; [|exact H1]. exists (below [] r). split; [apply below_order|reflexivity].
  - rewrite map_app, H2. cbn [concat]. f_equal. unfold ix_places, ix_named. cbn [fst snd].
    destruct (dict_get _ _ _) as [uri|].
    + rewrite <- (number_pairs n (below [] r)) at 2. symmetry. apply filter_map_comm. intros p. cbn [fst]. unfold has_tag.
      unfold p_xml. rewrite p_xml_tag. reflexivity.
    + clear. induction (below [] r) as [|q l IH]; [reflexivity|exact IH].
Qed.
(** All inline elements of the documents, each once and in document order: facts, footnotes and
    continuations, wherever they are. *)
Theorem C99_elements roots :
  ix_elements ["nonNumeric"; "nonFraction"]%string roots (fact_places roots) /\
  ix_elements ["footnote"%string] roots (note_places roots) /\ ix_elements ["continuation"%string] roots (cont_places roots).
Proof. split; [|split]; apply ix_read. Qed.
Theorem C99_found name roots t above : In name ["nonNumeric"; "nonFraction"]%string -> ix_element roots name t above ->
  exists p, In p (fact_places roots) /\ p_tree p = t /\ p_above p = above.
Proof. intros Hn H. apply ix_places_written. eauto. Qed.

(** ** C98: references to roles *)

(** Exactly what is reported about the references to roles and arc roles: nothing else happens with them. *)
Theorem C98_reports e r : does (parse_role_references e r) tt
  (flat_map (reference_problems (FootModel.e_uri e) "linktype") (r_roles r ++ r_arcroles r)).
Proof. apply does_references. Qed.

Lemma opt_str_neq (a : option str) b : a <> b -> opt_str_eqb a b = false.
Proof. intros H. unfold opt_str_eqb. destruct (opt_eqb_spec str_eqb str_eqb_spec a b); congruence. Qed.
(** The type is looked up under the wrong name: a reference as it should be is reported. *)
Theorem C98_type_refuted uri x : proper_reference uri x -> In ("ROLEREF_INVALID_LINKTYPE"%string, Some x) (reference_problems uri "linktype" x).
Proof.
  intros (_ & H & _). unfold reference_problems. rewrite H, opt_str_neq by discriminate. left. reflexivity.
Qed.
(** Looked up under the right name, it would not be; what remains is about the attribute roleURI. *)
Theorem C98_type uri x : proper_reference uri x ->
  reference_problems uri "type" x = uri_problems uri x (attr x (u "roleURI")) "ROLEREF_MISSING_ROLE_URI_ATTRIBUTE" "ROLEREF_INVALID_ROLE_URI_ATTRIBUTE".
Proof.
  intros (H1 & _ & (h & H2 & H3 & H4) & H5). unfold reference_problems. rewrite H1, H2, (opt_str_neq _ _ H5).
  assert (opt_str_eqb (Some (u "simple")) (Some (u "simple")) = true) as ->.
  { unfold opt_str_eqb. destruct (opt_eqb_spec str_eqb str_eqb_spec (Some (u "simple")) (Some (u "simple"))); congruence. }
  unfold uri_problems at 1. destruct h as [|c h]; [congruence|]. rewrite H4. cbn [problem_if negb app]. rewrite app_nil_r. reflexivity.
Qed.
(** Arc roles have no roleURI but an arcroleURI: this is reported as missing. *)
Theorem C98_arcrole_refuted uri x : proper_reference uri x -> attr x (u "roleURI") = None ->
  reference_problems uri "linktype" x = [("ROLEREF_INVALID_LINKTYPE", Some x); ("ROLEREF_MISSING_ROLE_URI_ATTRIBUTE", Some x)]%string.
Proof.
  intros (_ & H1 & (h & H2 & H3 & H4) & H5) H6. unfold reference_problems. rewrite H1, H2, (opt_str_neq _ _ H5), H6, opt_str_neq by discriminate.
  unfold uri_problems. destruct h as [|c h]; [congruence|]. rewrite H4. reflexivity.
Qed.

(** ** Reading *)

Section Filing.
Variable e : FootModel.env.
Variable tostring : TextModel.xml -> str.
Variable parse_date : str -> res date.
Variable py_float : str -> option bool.
Variable era_valid : list (part * str) -> res bool.
Variable element_str : xml -> str.
Variable number : str -> Q.
Notation reads := (reads_inline e tostring parse_date py_float era_valid element_str number).

Section Read.
Variable trees : list (str * tree).
Variable es : repo xml.
Variable f : inline_filing.
Hypothesis Hreads : reads trees es f.
Let roots := instance_roots (dict_values trees).
Let docs := dict_values (plain_trees trees).
Let rep := FilingModel.repository_of (FilingModel.fl_elements (il_filing f)).
Let docs0 := [holding (resource_parts "xbrli:context" roots)].
Let named := header_parts "ix:references" roots ++ resource_parts "xbrli:context" roots ++ resource_parts "xbrli:unit" roots.

(** ** C100: the rest of the filing *)

Lemma f_assembled : exists es1 later,
  FilingStages.assembled element_str number (plain_trees trees) es es1 later (note_networks (length (FilingModel.fl_nets (il_filing f))) (il_networks f)) [html_scope] (il_filing f).
Proof. destruct (inline_stages _ _ _ _ _ _ _ _ _ _ Hreads) as (fuel & es1 & r & taken & s & s2 & _ & _ & A & _). eauto. Qed.
Lemma f_facts : FilingModel.fl_facts (il_filing f) = plain_facts (il_facts f).
Proof. destruct (inline_stages _ _ _ _ _ _ _ _ _ _ Hreads) as (fuel & es1 & r & taken & s & s2 & _ & _ & _ & E & _). exact E. Qed.

(** Inline filings have no tables either. *)
Theorem C59_inline_refuted : FilingModel.fl_tables (il_filing f) = [].
Proof. destruct (inline_stages _ _ _ _ _ _ _ _ _ _ Hreads) as (fuel & es1 & r & taken & s & s2 & _ & _ & _ & _ & E). exact E. Qed.

(** Every node of a network points to something of the filing that belongs in the network. *)
Theorem C100_nodes w r n : In w (FilingModel.fl_nets (il_filing f)) -> In r (LinkModel.w_roots w) ->
  NetSpec.reach (LinkModel.ls_heap (FilingModel.fl_links (il_filing f))) r n ->
  exists x, nth_error (LinkModel.ls_heap (FilingModel.fl_links (il_filing f))) n = Some x /\
    FilingSpec.has_object (il_filing f) (NetModel.n_obj x) /\ FilingSpec.belongs (LinkModel.w_kind w) (NetModel.o_type (NetModel.n_obj x)).
Proof. destruct f_assembled as (es1 & later & A). eapply FilingStages.nodes; eassumption. Qed.

(** The components have the networks of their role; footnote networks are in no component. *)
Theorem C100_components c : In c (FilingModel.get_all_components (il_filing f)) ->
  FilingSpec.the_network (il_filing f) NetModel.KPresentation (CompModel.get_URI c) (CompModel.get_presentation_network c) /\
  FilingSpec.the_network (il_filing f) NetModel.KCalculation (CompModel.get_URI c) (CompModel.get_calculation_network c) /\
  FilingSpec.the_network (il_filing f) NetModel.KLogicalDefinition (CompModel.get_URI c) (CompModel.get_definition_network c).
Proof. destruct f_assembled as (es1 & later & A). eapply FilingStages.components; eassumption. Qed.

Lemma note_networks_nth n nws x : In x (note_networks n nws) <->
  exists i w, nth_error nws i = Some w /\ x = CompModel.Network (CompModel.NOther (u "FootnoteNetwork")) true (FootModel.nw_linkrole w) (n + i).
Proof.
  unfold note_networks. revert n. induction nws as [|w nws IH]; intros n; cbn [length seq combine map].
  - split; [intros []|]. intros (i & w & E & _). destruct i; discriminate E.
  - cbn [In]. rewrite IH. split.
    + intros [<-|(i & w' & E & ->)]; [exists 0, w; rewrite Nat.add_0_r; auto|]. exists (S i), w'. rewrite <- plus_n_Sm. auto.
    + intros ([|i] & w' & E & ->).
      * injection E as ->. left. rewrite Nat.add_0_r. reflexivity.
      * right. exists i, w'. rewrite <- plus_n_Sm. auto.
Qed.
(** The networks of the filing are those of the links and those of the footnotes, each once; those of the
    footnotes are physical. *)
Theorem C100_networks :
  let nets := FilingModel.fl_nets (il_filing f) in
  Permutation (map CompModel.n_object (FilingModel.get_all_networks (il_filing f))) (seq 0 (length nets + length (il_networks f))) /\
  (forall n, In n (FilingModel.get_all_networks (il_filing f)) ->
     (exists w, FilingModel.net_of (il_filing f) n = Some w /\ CompModel.n_role n = LinkModel.w_role w) \/
     exists i w, CompModel.n_object n = length nets + i /\ nth_error (il_networks f) i = Some w /\ CompModel.n_role n = FootModel.nw_linkrole w) /\
  (forall n, In n (FilingModel.get_all_physical_networks (il_filing f)) <->
     In n (FilingModel.get_all_networks (il_filing f)) /\
     forall w, FilingModel.net_of (il_filing f) n = Some w -> ~ In (LinkModel.w_kind w) [NetModel.KPresentation; NetModel.KCalculation; NetModel.KLogicalDefinition]).
Proof.
  intros nets. destruct f_assembled as (es1 & later & A). destruct (FilingStages.f_components _ _ _ _ _ _ _ _ _ A) as (Hp & _). fold nets in Hp.
  assert (C : forall n, In n (FilingModel.get_all_networks (il_filing f)) -> (exists i w, nth_error (il_networks f) i = Some w /\
      n = CompModel.Network (CompModel.NOther (u "FootnoteNetwork")) true (FootModel.nw_linkrole w) (length nets + i)) \/
      exists w, nth_error nets (CompModel.n_object n) = Some w /\ n = FilingModel.network_of (CompModel.n_object n, w)).
  { intros n Hn. eapply Permutation_in, in_app_iff in Hn as [Hn|Hn]; [| |exact Hp]; [left; apply note_networks_nth, Hn|right; apply FilingProofs.networks_of_nth, Hn]. }
  assert (N : forall i, FilingModel.net_of (il_filing f) (CompModel.Network (CompModel.NOther (u "FootnoteNetwork")) true i (length nets + 0)) = None ) by
    (intros i; unfold FilingModel.net_of; cbn [CompModel.n_object]; apply nth_error_None; fold nets; rewrite Nat.add_0_r; auto).
  split; [|split].
  - eapply Permutation_trans; [apply Permutation_map, Hp|]. rewrite map_app. unfold note_networks, FilingModel.networks_of. rewrite !map_map. cbn [FilingModel.network_of CompModel.n_object fst].
    assert (E : forall A B (h : nat * A -> B) (g : B -> nat) (l : list nat) (ws : list A), (forall q, g (h q) = fst q) -> length l = length ws ->
      map (fun x => g (h x)) (combine l ws) = l).
    { intros AA B h g l. induction l as [|a l IH]; intros [|w ws] Hg El; try discriminate El; [reflexivity|]. cbn. rewrite Hg. cbn. f_equal. apply IH; [exact Hg|]. injection El as El. exact El. }
    rewrite (E _ _ FilingModel.network_of CompModel.n_object) by (try apply seq_length; intros [? ?]; reflexivity).
    rewrite (E _ _ (fun p => fst p) (fun p => p)) by (try apply seq_length; reflexivity).
    rewrite seq_app. apply Permutation_app_comm.
  - intros n Hn. destruct (C n Hn) as [(i & w & E & ->)|(w & E & En)].
    + right. exists i, w. auto.
    + left. exists w. split; [exact E|]. rewrite En. reflexivity.
  - intros n. unfold FilingModel.get_all_physical_networks. rewrite filter_In. split; intros [Hn H]; (split; [exact Hn|]); destruct (C n Hn) as [(i & w & E & ->)|(w & E & En)].
    + intros w' Hw'. unfold FilingModel.net_of in Hw'. cbn [CompModel.n_object] in Hw'. fold nets in Hw'. exfalso.
      assert (K : nth_error nets (length nets + i) = None) by (apply nth_error_None, Nat.le_add_r). congruence.
    + intros w' Hw'. unfold FilingModel.net_of in Hw'. fold nets in Hw'. assert (w' = w) by congruence. subst w'. rewrite En in H. cbn in H.
      destruct (LinkModel.w_kind w); cbn in H |- *; try discriminate H; intuition discriminate.
    + reflexivity.
    + specialize (H w E). rewrite En. cbn. destruct (LinkModel.w_kind w); try reflexivity; exfalso; apply H; cbn; auto.
Qed.

(** The report elements by kind; their names differ. *)
Theorem C100_names : NoDup (map e_name (FilingModel.get_all_report_elements (il_filing f))).
Proof. destruct f_assembled as (es1 & later & A). eapply FilingStages.names; eassumption. Qed.

Section Links.
Hypothesis Husual : LinkSpec.all_usual docs.
(** The logical networks show exactly what the links of their role and kind say. *)
Theorem C100_shown k role el : NetModel.is_physical k = false ->
  ((exists w, FilingSpec.of_kind (il_filing f) k role w /\ FilingSpec.in_network (il_filing f) w el) <->
   exists link outside, LinkSpec.extended_link docs link outside /\ LinkSpec.xl "role" link = Some role /\ LinkSpec.link_kind link k /\
     FilingSpec.mentioned_there (FilingModel.get_all_report_elements (il_filing f)) link outside el).
Proof. destruct f_assembled as (es1 & later & A). eapply FilingStages.shown; eassumption. Qed.
Theorem C100_below k role el el' : NetModel.is_physical k = false ->
  ((exists w, FilingSpec.of_kind (il_filing f) k role w /\ FilingSpec.below_in (il_filing f) w el el') <->
   exists link outside, LinkSpec.extended_link docs link outside /\ LinkSpec.xl "role" link = Some role /\ LinkSpec.link_kind link k /\
     FilingSpec.put_below_there (FilingModel.get_all_report_elements (il_filing f)) link outside el el').
Proof. destruct f_assembled as (es1 & later & A). eapply FilingStages.below; eassumption. Qed.
(** The labels of a report element are those that label links give it. *)
Theorem C100_labels el l : In el (FilingModel.get_all_report_elements (il_filing f)) ->
  (In l (FilingModel.labels_in (il_filing f) el) <-> FilingSpec.labelled docs (FilingModel.get_all_report_elements (il_filing f)) el l).
Proof. destruct f_assembled as (es1 & later & A). eapply FilingStages.labels; eassumption. Qed.
End Links.

Section Declared.
Hypothesis Hdocs : NoDup (map fst trees).
Hypothesis Hprefixes : ConceptLoad.prefixes_usual (plain_trees trees).
Lemma plain_docs : NoDup (map fst (plain_trees trees)).
Proof. unfold plain_trees. rewrite map_map. exact Hdocs. Qed.
(** The report elements are those that are declared. *)
Theorem C100_elements q id k : In (q, id, k) (map (fun x => (e_name x, e_id x, e_kind x)) (FilingModel.get_all_report_elements (il_filing f))) <->
  FilingSpec.declared (plain_trees trees) q id k.
Proof. destruct f_assembled as (es1 & later & A). pose proof plain_docs. eapply FilingStages.elements; eassumption. Qed.
(** They are found by their names. *)
Theorem C100_lookup ord s : FilingSpec.names_usual (plain_trees trees) -> NetSpec.some_order ord ->
  (forall x, get_report_element_by_name ord (FilingModel.fl_namespaces (il_filing f)) rep s = Ok x <->
     FilingSpec.only (FilingModel.get_all_report_elements (il_filing f)) (fun x => QNameSpec.means s (e_name x)) x) /\
  (get_report_element_by_name ord (FilingModel.fl_namespaces (il_filing f)) rep s = Raise ValueError <->
     forall x, ~ FilingSpec.only (FilingModel.get_all_report_elements (il_filing f)) (fun x => QNameSpec.means s (e_name x)) x).
Proof. destruct f_assembled as (es1 & later & A). pose proof plain_docs. intros. eapply FilingStages.lookup; eassumption. Qed.
Theorem C100_concept_lookup ord s : FilingSpec.names_usual (plain_trees trees) -> NetSpec.some_order ord ->
  (forall x, get_concept_by_name ord (FilingModel.fl_namespaces (il_filing f)) rep s = Ok x <->
     FilingSpec.only (FilingModel.get_all_concepts (il_filing f)) (fun x => QNameSpec.means s (e_name x)) x) /\
  (get_concept_by_name ord (FilingModel.fl_namespaces (il_filing f)) rep s = Raise ValueError <->
     forall x, ~ FilingSpec.only (FilingModel.get_all_concepts (il_filing f)) (fun x => QNameSpec.means s (e_name x)) x).
Proof. destruct f_assembled as (es1 & later & A). pose proof plain_docs. intros. eapply FilingStages.concept_lookup; eassumption. Qed.
End Declared.

Section Usual.
(** The prefix of fact elements is the usual one. *)
Hypothesis Hprefix : forall p, In p (fact_places roots) -> usual_prefix p.

Lemma conventional_all fuel : forall n, In n (doc_facts (documents tostring fuel roots)) -> conventional n.
Proof. intros n. unfold roots. rewrite documents_facts. intros H. apply in_map_iff in H as (p & <- & Hp). exact (Hprefix p Hp). Qed.

Lemma nodes_are fuel r : chains fuel roots [] = Some r ->
  Forall2 (is_node tostring (cont_places roots)) (fact_places roots) (doc_facts (documents tostring fuel roots)).
Proof.
  intros Hr. unfold roots. rewrite documents_facts. fold roots.
  assert (G : incl (fact_places roots) (fact_places roots)) by apply incl_refl. revert G. generalize (fact_places roots) at 1 3 4.
  induction l as [|p l IH]; intros G; cbn [map]; constructor.
  - eapply node_of_is; [exact Hr|]. apply G. left. reflexivity.
  - apply IH. intros q Hq. apply G. right. exact Hq.
Qed.

(** What is known about the facts when all is read, with the errors [er] of this stage *)
Definition facts_stage (nodes : list node) (us : list (option characteristic * list (error xml)))
  (os : list (option ifact * list (error xml))) : Prop :=
  Forall2 (is_node tostring (cont_places roots)) (fact_places roots) nodes /\
  Forall2 unit_outcome (resource_parts "xbrli:unit" roots) us /\
  Forall2 (inline_outcome rep py_float era_valid (resource_parts "xbrli:context" roots) (somes (map fst us))
             (entity_shared docs0) (period_shared parse_date) (explicit_shared rep docs0) (typed_shared rep docs0)) nodes os /\
  stored (somes (map fst os)) (il_facts f).

Lemma found_taken pf ev un cs l taken os taken' : facts_found rep pf ev un cs l taken os taken' ->
  forall i, In i taken' <-> In i taken \/ exists x, In x (somes (map fst os)) /\ if_id x = Some i.
Proof.
  induction 1 as [taken|n l taken es0 os taken' Hf H IH|n l taken x es0 os taken' Hf H IH]; intros i; cbn [map fst somes].
  - split; [auto|]. intros [K|(x & [] & _)]. exact K.
  - apply IH.
  - rewrite IH. assert (Ex : if_id x = attr (n_el n) (u "id")).
    { inversion Hf as [|c y es1 _ _ Hy _|c y es1 _ _ Hy _]; subst; unfold if_id; apply Hy. }
    unfold take. split.
    + intros [K|(y & Hy & E)]; [|right; exists y; split; [right|]; assumption].
      destruct (attr (n_el n) (u "id")) as [j|]; [|left; exact K]. destruct K as [->|K]; [|left; exact K].
      right. exists x. split; [left; reflexivity|exact Ex].
    + intros [K|(y & [<-|Hy] & E)].
      * left. destruct (attr (n_el n) (u "id")); [right|]; exact K.
      * left. rewrite Ex in E. rewrite E. left. reflexivity.
      * right. eauto.
Qed.
Lemma in_last {A} (P : A -> Prop) (dec : forall x, {P x} + {~ P x}) l : (exists x, In x l /\ P x) -> exists x, last_with P l x.
Proof.
  induction l as [|a l IH]; intros (x & Hx & Px); [destruct Hx|].
  destruct (Exists_dec P l dec) as [E|E].
  - apply Exists_exists in E. destruct (IH E) as (y & b & c & -> & Hy & Hc). exists y, (a :: b), c. auto.
  - destruct Hx as [->|Hx]; [|destruct E; apply Exists_exists; eauto].
    exists x, [], l. split; [reflexivity|]. split; [exact Px|]. intros y Hy Py. apply E, Exists_exists. eauto.
Qed.
Lemma stored_ids fs r i : stored fs r -> ((exists x, In x fs /\ if_id x = Some i) <-> exists x, dict_get str_eqb (by_id r) i = Some x).
Proof.
  intros [_ H]. split.
  - intros K. assert (D : forall x : ifact, {if_id x = Some i} + {if_id x <> Some i}).
    { intros x. destruct (if_id x) as [j|]; [|right; discriminate]. destruct (list_eq_dec N.eq_dec j i) as [->|N]; [left; reflexivity|right; congruence]. }
    destruct (in_last _ D _ K) as (x & Hx). exists x. apply H, Hx.
  - intros (x & Hx). apply H in Hx as (b & a & -> & Ex & _). exists x. split; [apply in_elt|exact Ex].
Qed.

(** What is said about contexts and units. *)
Let heads_said (ec eu : list (error xml)) : Prop :=
  (no_period_word parse_date ->
   (forall x xp, In x (resource_parts "xbrli:context" roots) -> find_kid (u "period") x = Some xp -> plain_period xp) ->
   Forall2 CtxReportSpec.made (contexts_reports parse_date rep (rev (ids_of (header_parts "ix:references" roots))) []
     (resource_parts "xbrli:context" roots)) ec) /\
  Forall2 CtxReportSpec.made (units_reports (rev (ids_of (header_parts "ix:references" roots ++ resource_parts "xbrli:context" roots))) []
     (resource_parts "xbrli:unit" roots)) eu.
Lemma inline_read : exists fuel cr es1 r taken s s2 nodes us os ids e1 e2 e3 ec e6 e7 ks
    (known_unit known_context : str -> bool),
  chains fuel roots [] = Some cr /\
  r = sort_resources (flat_map x_kids (header_parts "ix:resources" roots)) no_resources /\
  read_footnotes e tostring fuel roots r taken (il_facts f) (after es1 s) = Ok ((il_notes f, il_networks f), s2) /\
  FilingStages.assembled element_str number (plain_trees trees) es es1 (s_errors s2)
    (note_networks (length (FilingModel.fl_nets (il_filing f))) (il_networks f)) [html_scope] (il_filing f) /\
  FilingModel.fl_facts (il_filing f) = plain_facts (il_facts f) /\
  facts_stage nodes us os /\
  s_errors s = e1 ++ e2 ++ e3 ++ ec ++ concat (map snd us) ++ e6 ++ e7 ++ concat (map snd os) /\
  Forall2 made (headers_problems (map plain roots)) e1 /\
  Forall2 made (references_problems [] (header_parts "ix:references" roots)) e2 /\
  Forall2 made (resources_problems (header_parts "ix:resources" roots)) e3 /\
  (Forall2 made (hidden_problems (header_parts "ix:hidden" roots)) e6 /\ heads_said ec (concat (map snd us))) /\
  continuations e fuel roots (rev (ids_of named)) = Some (ks, ids) /\
  Forall2 (fun k x => create (fst (fst k)) (Some (snd (fst k))) (snd k) = Ok x) ks e7 /\
  (forall i, known_unit i = true <-> exists c, In c (somes (map fst us)) /\ unit_named i c) /\
  (forall i, known_context i = true <-> exists x, In x (resource_parts "xbrli:context" roots) /\ usable i x) /\
  Forall2 made (elements_problems rep py_float era_valid known_unit known_context ids nodes) (concat (map snd os)) /\
  (forall i, In i taken <-> taken_before roots (il_facts f) i).
Proof.
  destruct (inline_stages _ _ _ _ _ _ _ _ _ _ Hreads) as (fuel & es1 & r & taken & s & s2 & H1 & H2 & A & Ef & _). fold roots in H1, H2. fold rep in H1.
  assert (Hc := conventional_all fuel).
  destruct (parse_inline_all _ _ _ _ _ _ _ _ _ _ _ H1) as (-> & osc & osu & osf & tu & tk & e1 & e2 & e3 & e6 & e7 & R).
  destruct (reading_outcomes _ _ _ _ _ _ _ _ _ _ _ _ _ _ _ _ _ _ _ _ R Hc) as [Hu Ho].
  destruct (rd_facts _ _ _ _ _ _ _ _ _ _ _ _ _ _ _ _ _ _ _ _ R Hc) as [Hf Hfr]. pose proof (rd_errors _ _ _ _ _ _ _ _ _ _ _ _ _ _ _ _ _ _ _ _ R Hc) as He.
  destruct R as [[_ R1] [_ R2] [_ R3] (tc & Hcf & Hur) [_ R6] (ks & Ek & R7) Ecs _ _ Hrep _ [Hsc (tc' & Hcf' & Hsu)]]. destruct (Hrep Hc) as [Hm _].
  assert (G := contexts_found_get _ _ _ _ _ _ _ Hcf). rewrite <- Ecs in G.
  destruct (contexts_dup parse_date rep py_float (continuations e fuel roots) _ _ _ _ _ Hcf) as [Etc _].
  destruct (units_dup parse_date py_float (continuations e fuel roots) _ _ _ _ Hur) as [Etu _].
  assert (Etk : tu = rev (ids_of named)).
  { rewrite Etu, Etc, takes_ids, app_nil_r. unfold named, roots. rewrite !ids_app, !rev_app_distr, <- app_assoc.
    unfold doc_contexts, doc_units, doc_references. rewrite !documents_resources, documents_parts. reflexivity. }
  rewrite Etk in Ek. destruct (continuations_taken _ _ _ _ _ _ Ek) as (Etake & cr & Hcr).
  pose proof (documents_resources tostring fuel (dict_values trees) "xbrli:unit") as Du. fold roots in Du.
  pose proof (documents_resources tostring fuel (dict_values trees) "xbrli:context") as Dc. fold roots in Dc.
  pose proof (documents_parts tostring fuel (dict_values trees)) as Dp. fold roots in Dp.
  pose proof (documents_roots tostring fuel (dict_values trees)) as Dr. fold roots in Dr.
  unfold doc_units in Hu, Ho. unfold doc_contexts in Ho, G. rewrite Du in Hu. rewrite Dc in Ho, G.
  exists fuel, cr, es1, (sort_resources (flat_map x_kids (header_parts "ix:resources" roots)) no_resources), taken, s, s2,
    (doc_facts (documents tostring fuel roots)), osu, osf, tk, e1, e2, e3, (concat (map snd osc)), e6, e7, ks. do 2 eexists.
  split; [exact Hcr|]. split; [reflexivity|]. split; [unfold doc_resources in H2; rewrite Dp in H2; exact H2|]. split; [exact A|]. split; [exact Ef|].
  split. { split; [eapply nodes_are, Hcr|]. split; [exact Hu|]. split; [exact Ho|]. rewrite Hfr. apply stored_fold. }
  split; [exact He|]. split; [rewrite <- Dr; exact R1|]. unfold doc_references in R2. unfold doc_resources in R3. unfold doc_hidden in R6. rewrite Dp in R2, R3, R6.
  split; [exact R2|]. split; [exact R3|].
  split.
  { split; [exact R6|]. destruct (contexts_dup parse_date rep py_float (continuations e fuel roots) _ _ _ _ _ Hcf') as [Etc' _].
    rewrite takes_ids, app_nil_r in Hsc, Etc'. rewrite Etc' in Hsu. unfold doc_contexts, doc_units, doc_references in Hsc, Hsu. rewrite Dc, Dp in Hsc. rewrite Du, Dc, Dp in Hsu.
    split; [exact Hsc|]. rewrite ids_app, rev_app_distr. exact Hsu. }
  split; [exact Ek|]. split; [exact R7|]. split; [|split; [|split; [exact Hm|]]].
  - intros i. cbv beta. assert (L := last_unit_spec i (somes (map fst osu))).
    destruct (last_unit i _) as [c|]; cbn [given].
    + split; [|reflexivity]. intros _. exists c. destruct L as (pre & post & -> & L & _).
      split; [apply in_or_app; right; left; reflexivity|exact L].
    + split; [discriminate|]. intros (c & K1 & K2). destruct (L c K1 K2).
  - intros i. cbv beta. specialize (G i). destruct (dict_get str_eqb (il_contexts f) i) as [c|]; cbn [given].
    + split; [|reflexivity]. intros _. destruct G as (xc & (pre & post & -> & Hx & _) & _). exists xc.
      split; [apply in_or_app; right; left; reflexivity|exact Hx].
    + split; [discriminate|]. intros (x & K1 & K2). destruct (G x K1 K2).
  - intros i. rewrite (found_taken _ _ _ _ _ _ _ _ Hf i), Etake, in_app_iff, <- !in_rev. unfold taken_before.
    assert (S : stored (somes (map fst osf)) (il_facts f)) by (rewrite Hfr; apply stored_fold).
    rewrite (stored_ids _ _ i S). unfold named. rewrite !ids_app, !in_app_iff. tauto.
Qed.

Lemma f_own : NoDup (dict_keys (by_id (il_facts f))).
Proof.
  destruct (inline_stages _ _ _ _ _ _ _ _ _ _ Hreads) as (fuel & es1 & r & taken & s & s2 & H1 & _). apply inline_folded in H1 as (fs & ->).
  assert (G : forall l r, NoDup (dict_keys (by_id r)) -> NoDup (dict_keys (by_id (fold_left ifacts_upsert l r)))).
  { induction l as [|x l IH]; intros r0 Hr; [exact Hr|]. cbn [fold_left]. apply IH. unfold ifacts_upsert. destruct (if_id x); [|exact Hr].
    cbn [by_id]. apply (dict_set_keys_nodup _ str_eqb_spec), Hr. }
  apply G. constructor.
Qed.
(** What the filing lists are these facts. *)
Theorem C99_listed : FilingModel.get_all_facts (il_filing f) = map (fun p => if_fact (snd p)) (by_id (il_facts f)) /\
  fr_without_id (FilingModel.fl_facts (il_filing f)) = map if_fact (without_id (il_facts f)).
Proof. unfold FilingModel.get_all_facts, facts_get_all. rewrite f_facts. cbn [plain_facts fr_by_id fr_without_id]. unfold dict_values. rewrite map_map. auto. Qed.

(** The characteristics of every fact are of report elements of the filing. *)
Theorem C99_characteristics x a c : In x (map snd (by_id (il_facts f))) \/ In x (without_id (il_facts f)) ->
  get_characteristic (f_context (if_fact x)) a = Some c -> FilingSpec.has_characteristic_elements (il_filing f) c.
Proof.
  intros Hx Hc. destruct inline_read as (fuel & cr & es1' & r' & taken & s & s2 & nodes & us & os & ids & e1 & e2 & e3 & ec & e6 & e7 & ks & ku & kc & _ & _ & _ & _ & _ & (F1 & F2 & F3 & F4) & _).
  assert (Ho : exists n er, inline_fact rep py_float era_valid (resource_parts "xbrli:context" roots) (somes (map fst us))
             (entity_shared docs0) (period_shared parse_date) (explicit_shared rep docs0) (typed_shared rep docs0) n x er).
  { assert (Hin : In x (somes (map fst os))).
    { destruct F4 as [S1 S2]. destruct Hx as [Hx|Hx]; [|rewrite S1 in Hx; apply filter_In in Hx; tauto].
      apply in_map_iff in Hx as ([i y] & Ey & Hx). cbn [snd] in Ey. subst y.
      apply (dict_get_in_nodup _ str_eqb_spec) in Hx; [|exact f_own]. apply S2 in Hx as (b & d & -> & _). apply in_elt. }
    apply FilingProofs.somes_in, in_map_iff in Hin as ([o er] & Eo & Hin). cbn [fst] in Eo. subst o.
    clear -F3 Hin. induction F3 as [|n o l l' H H' IH]; [destruct Hin|]. destruct Hin as [->|Hin]; [exists n, er; exact H|exact (IH Hin)]. }
  destruct Ho as (n & er & el & vs & cid & xc & c0 & H1 & H2 & _ & _ & (id & xp & xe & p & en & ds & _ & _ & _ & Hp & He & Hd & ->) & Hf & _).
  destruct f_assembled as (es1 & later & A). destruct (FilingStages.as_elements _ _ _ _ _ _ _ _ _ A) as (reg & Hn & Er).
  assert (Ht : forall t q y, get_typed_by_qname t rep q = Ok y -> In y (FilingModel.get_all_report_elements (il_filing f)) /\ t y = true).
  { intros t q y. unfold FilingModel.get_all_report_elements, rep. rewrite Er. intros H. apply (FilingProofs.repo_typed reg Hn) in H. tauto. }
  rewrite Hf, <- fold_left_app, fold_get in Hc by apply new_ok. cbn [new_context get_characteristic c_chars find option_map] in Hc.
  apply find_some in Hc as [Hc _]. cbn [app] in Hc. apply in_app_iff in Hc as [Hc|[<-|Hc]].
  - apply in_app_iff in Hc as [Hc|Hc].
    { destruct p as [p|]; [|destruct Hc]. destruct Hc as [<-|[]]. destruct Hp as (k & q & _ & _ & ->). exact Logic.I. }
    apply in_app_iff in Hc as [Hc|Hc].
    { destruct en as [en|]; [|destruct Hc]. destruct Hc as [<-|[]]. destruct He as (i1 & s1 & t1 & y & _ & _ & _ & ->). exact Logic.I. }
    unfold dimensions_are in Hd. destruct (find_kid (u "segment") xe) as [seg|]; [|subst ds; destruct Hc].
    destruct Hd as (rs & Hrs & ->). apply FilingProofs.somes_in in Hc.
    assert (Hk : exists k, dimension_is (explicit_shared rep docs0) (typed_shared rep docs0) k (Some c)).
    { clear -Hrs Hc. induction Hrs as [|k r ks rs Hk Hks IH]; [destruct Hc|]. destruct Hc as [->|Hc]; [eauto|apply IH, Hc]. }
    destruct Hk as (k & [[_ Hk]|(_ & _ & Hk)]).
    + destruct Hk as (dt & mt & d & m & dt' & mt' & d' & m' & y & _ & _ & Hw & _ & ->).
      destruct Hw as (_ & _ & _ & (q1 & _ & K1) & (q2 & _ & K2)). apply Ht in K1. apply Ht in K2. cbn [FilingSpec.has_characteristic_elements]. unfold FilingSpec.has_element.
      rewrite FilingStages.is_dimension_kind in K1. rewrite FilingStages.is_member_kind in K2. auto.
    + destruct Hk as (dt & v & d & dt' & v' & d' & y & _ & _ & Hw & _ & ->).
      destruct Hw as (_ & _ & q1 & _ & K1). apply Ht in K1. cbn [FilingSpec.has_characteristic_elements]. unfold FilingSpec.has_element.
      rewrite FilingStages.is_dimension_kind in K1. exact K1.
  - destruct H1 as (name & q & _ & _ & H1). apply Ht in H1. cbn [FilingSpec.has_characteristic_elements]. unfold FilingSpec.has_element.
    rewrite FilingStages.is_concept_kind in H1. exact H1.
  - assert (K : class_of c = ClsUnit).
    { assert (U : forall y, In y (somes (map fst us)) -> class_of y = ClsUnit).
      { intros y Hy. apply FilingProofs.somes_in, in_map_iff in Hy as ([o eu] & Eo & Hy). cbn [fst] in Eo. subst o.
        clear -F2 Hy. induction F2 as [|z o l l' H H' IH]; [destruct Hy|]. destruct Hy as [->|Hy]; [|exact (IH Hy)].
        destruct H as (id' & ns & dn & _ & _ & ->). reflexivity. }
      unfold fact_units in H2. destruct (attr (n_el n) (u "unitRef")) as [[|z w]|]; try (destruct H2 as [-> _]; destruct Hc).
      destruct H2 as [(y & -> & Hy)|[-> _]]; [|destruct Hc]. destruct Hc as [<-|[]]. apply last_with_in in Hy as [Hy _]. exact (U _ Hy). }
    destruct c; try discriminate K; exact Logic.I.
Qed.

Lemma ids_in l i : In i (ids_of l) <-> exists x, In x l /\ attr x (u "id") = Some i.
Proof.
  unfold ids_of. rewrite in_flat_map. split.
  - intros (x & Hx & Hi). exists x. split; [exact Hx|]. destruct (attr x (u "id")) as [j|]; [destruct Hi as [->|[]]; reflexivity|destruct Hi].
  - intros (x & Hx & E). exists x. split; [exact Hx|]. rewrite E. left. reflexivity.
Qed.
Lemma same_id l (Q : forall a q b i, l = a ++ q :: b -> attr (p_xml q) (u "id") = Some i -> ~ In i (ids_of (map p_xml a))) p q i :
  In p l -> In q l -> attr (p_xml p) (u "id") = Some i -> attr (p_xml q) (u "id") = Some i -> p = q.
Proof.
  intros Hp Hq Ep Eq. apply in_split in Hp as (a & b & Ha). apply in_split in Hq as (c & d & Hc).
  destruct (FilingStages.split_two _ _ _ _ _ _ _ Ha Hc) as [[_ E]|[K|K]]; [exact E| |].
  - exfalso. apply (Q a p b i Ha Ep), ids_in. exists (p_xml q). split; [apply in_map, K|exact Eq].
  - exfalso. apply (Q c q d i Hc Eq), ids_in. exists (p_xml p). split; [apply in_map, K|exact Ep].
Qed.
Lemma words_dec o (P : str -> Prop) (D : forall i, P i \/ ~ P i) : FootSpec.lists_sets (FootModel.e_set e) ->
  (forall i, FootSpec.refers o i -> P i) \/ exists j, FootSpec.refers o j /\ ~ P j.
Proof.
  intros Hs. assert (W := fun w => from_words e Hs o w). revert W. generalize (FootModel.e_set e (FootModel.words (match FootModel.given o with Some s => s | None => [] end))).
  intros l W. assert (G : (forall i, In i l -> P i) \/ exists j, In j l /\ ~ P j).
  { clear W. induction l as [|a l IH]; [left; intros i []|]. destruct (D a) as [Ha|Ha]; [|right; exists a; cbn; auto].
    destruct IH as [IH|(j & Hj & Nj)]; [left; intros i [<-|Hi]; auto|right; exists j; cbn; auto]. }
  destruct G as [G|(j & Hj & Nj)]; [left; intros i Hi; apply G, W, Hi|right; exists j; split; [apply W, Hj|exact Nj]].
Qed.
Lemma no_empty_note xs : forall ns es0 tk ns' es' tk', FootModel.parse_footnotes e xs ns es0 tk = Ok (ns', es', tk') ->
  dict_get str_eqb ns [] = None -> dict_get str_eqb ns' [] = None.
Proof.
  induction xs as [|x xs IH]; intros ns es0 tk ns' es' tk'; cbn [FootModel.parse_footnotes]; [intros [= <- _ _]; auto|].
  destruct (FootProps.parse_footnote_spec e x es0 tk) as (es1 & tk1 & o & -> & -> & _ & _). cbn [bind]. intros H H0. apply IH in H; [exact H|].
  destruct (FootModel.given (FootModel.ne_id x)) as [id|] eqn:Eg; cbn [option_map]; [|exact H0].
  apply FootProps.given_some in Eg as [_ Hne]. rewrite (dict_get_set_other _ str_eqb_spec); [exact H0|congruence].
Qed.
Lemma plain_docs' : NoDup (map fst trees) -> NoDup (map fst (plain_trees trees)).
Proof. unfold plain_trees. rewrite map_map. auto. Qed.

Section Reports.
(** The links use the usual prefix for XLink. *)
Hypothesis Husual : LinkSpec.all_usual docs.
(** Sets list their elements once each. *)
Hypothesis Hsets : FootSpec.lists_sets (FootModel.e_set e).

Lemma all_read : exists fuel cr es1 taken nodes us os ids e1 e2 e3 ec e6 e7 lk (known_unit known_context : str -> bool)
    nes ln ls er en ea el ew,
  chains fuel roots [] = Some cr /\
  FilingModel.fl_errors (il_filing f) =
    es1 ++ (e1 ++ e2 ++ e3 ++ ec ++ concat (map snd us) ++ e6 ++ e7 ++ concat (map snd os)) ++ (er ++ en ++ ea) ++ el ++ ew /\
  (exists later notes, FilingStages.assembled element_str number (plain_trees trees) es es1 later notes [html_scope] (il_filing f)) /\
  facts_stage nodes us os /\
  Forall2 made (headers_problems (map plain roots)) e1 /\
  Forall2 made (references_problems [] (header_parts "ix:references" roots)) e2 /\
  Forall2 made (resources_problems (header_parts "ix:resources" roots)) e3 /\
  (Forall2 made (hidden_problems (header_parts "ix:hidden" roots)) e6 /\ heads_said ec (concat (map snd us))) /\
  (forall i, In i ids <-> In i (ids_of named) \/ In i (ids_of (map p_xml (cont_places roots)))) /\
  continuation_problems roots (rev (ids_of named)) lk /\ Forall2 made lk e7 /\
  (forall i, known_unit i = true <-> exists c, In c (somes (map fst us)) /\ unit_named i c) /\
  (forall i, known_context i = true <-> exists x, In x (resource_parts "xbrli:context" roots) /\ usable i x) /\
  Forall2 made (elements_problems rep py_float era_valid known_unit known_context ids nodes) (concat (map snd os)) /\
  (forall i, In i taken <-> taken_before roots (il_facts f) i) /\
  Forall2 made (flat_map (reference_problems (FootModel.e_uri e) "linktype")
    (resource_parts "link:roleRef" roots ++ resource_parts "link:arcroleRef" roots)) er /\
  Forall2 (fun p n => note_of tostring (all_places roots) (chains_of fuel roots) p = Ok n) (note_places roots) nes /\
  notes_problems (FootModel.e_uri e) taken (note_places roots) ln /\ Forall2 made ln en /\
  (exists es1 t, FootModel.parse_footnotes e nes [] [] taken = Ok (il_notes f, es1, t)) /\
  Forall (has_order (FootModel.e_float e)) (resource_parts "ix:relationship" roots) /\
  Forall2 (fun x => such (relationship_cases (FootModel.e_uri e) (map fst (il_notes f)) (map fst (texts_of (il_facts f))) x))
    (resource_parts "ix:relationship" roots) ls /\
  Forall2 made (concat ls) ea /\
  ((forall x, In x (resource_parts "ix:relationship" roots) -> FootSpec.proper e (il_notes f) (texts_of (il_facts f)) (rel_of x)) ->
   exists keys, NoDup keys /\
     (forall l r', In (l, r') keys <-> exists x, In x (resource_parts "ix:relationship" roots) /\ FootSpec.in_group l r' (rel_of x)) /\
     Forall2 (fun k nw => FootSpec.is_network e (il_notes f) (texts_of (il_facts f)) (map rel_of (resource_parts "ix:relationship" roots)) (fst k) (snd k) nw /\
       FootModel.nw_linkrole nw = snd k) keys (il_networks f)) /\
  (exists l l1 l2 rss, (forall x around, In (x, around) l <-> LinkSpec.extended_link docs x around) /\
      LinkSpec.in_two_parts LinkSpec.looks_standard l l1 l2 /\
      Forall2 (fun p => LinkSpec.link_reported (FilingModel.find_in (FilingModel.fl_elements (il_filing f)) (FilingModel.fl_facts (il_filing f))) (fst p) (snd p)) (l1 ++ l2) rss /\
      Forall2 LinkSpec.made (concat rss) el) /\
  exists lw, ew = concat lw /\
    Forall2 (fun x l => exists role codes, attr x (u "roleURI") = Some role /\ NoDup codes /\
      Forall2 (fun code e => create code (Some x) [(u "linkrole_uri", role)] = Ok e) codes l /\
      forall code, In code codes <-> CompSpec.warned (FilingModel.networks_of (FilingModel.fl_nets (il_filing f))) x role code)
      (flat_map CompModel.role_types docs) lw.
Proof.
  destruct inline_read as (fuel & cr & es1 & r & taken & s & s2 & nodes & us & os & ids & e1 & e2 & e3 & ec & e6 & e7 & ks & ku & kc &
    Hcr & -> & Hn & A & Ef & FS & Es & H1 & H2 & H3 & H6 & Hk & H7 & Hu & Hc & Hp & Ht).
  destruct (read_footnotes_spec e tostring Hsets _ _ _ _ _ _ _ _ _ Hn) as (nes & ln & ls & er & en & ea & E2 & R1 & R2 & R3 & R4 & R5 & R6 & R7 & R8 & R9).
  destruct (FilingStages.f_later _ _ _ _ _ _ _ _ _ A Husual) as (el & ew & E3 & L1 & L2).
  destruct (sort_others (flat_map x_kids (header_parts "ix:resources" roots)) no_resources) as (O1 & O2 & O3).
  unfold resource_parts, kids_named. cbn [no_resources r_relationships r_roles r_arcroles app] in O1, O2, O3.
  rewrite O1, O2, O3 in *.
  exists fuel, cr, es1, taken, nodes, us, os, ids, e1, e2, e3, ec, e6, e7, (map (fun k => (fst (fst k), Some (snd (fst k)))) ks), ku, kc, nes, ln, ls, er, en, ea, el, ew.
  split; [exact Hcr|]. split; [rewrite E3, E2; unfold after; cbn [s_errors]; rewrite Es, <- !app_assoc; reflexivity|].
  split; [eauto|].
  do 5 (split; [assumption|]). split.
  { destruct (continuations_taken _ _ _ _ _ _ Hk) as (Etake & _). intros i. rewrite Etake, in_app_iff, <- !in_rev. tauto. }
  split; [exact (continuations_problems e Hsets roots Hprefix _ _ _ _ Hk)|].
  split; [clear -H7; induction H7 as [|k x l l' Hkx _ IH]; cbn [map]; constructor; [exists (snd k); exact Hkx|exact IH]|].
  repeat (split; [assumption|]). assumption.
Qed.
(** Every fact element has its outcome, in order: a fact with what the element says, or no fact and a report
    that says what is missing; the filing has these facts. *)
Theorem C99_facts_partial : exists nodes us os before after,
  FilingModel.fl_errors (il_filing f) = before ++ concat (map snd os) ++ after /\ facts_stage nodes us os.
Proof.
  destruct all_read as (fuel & cr & es1 & taken & nodes & us & os & ids & e1 & e2 & e3 & ec & e6 & e7 & lk & ku & kc & nes & ln & ls & er & en & ea & el & ew & _ & E & _ & FS & _).
  exists nodes, us, os, (es1 ++ e1 ++ e2 ++ e3 ++ ec ++ concat (map snd us) ++ e6 ++ e7), (er ++ en ++ ea ++ el ++ ew).
  split; [rewrite E, <- !app_assoc; reflexivity|exact FS].
Qed.

(** A comment in the text of a fact, or of a continuation of it, stops the reading of the whole filing. *)
Theorem C99_no_comments p c xc cid : In p (fact_places roots) -> tag_name (p_xml p) = Ok (u "ix:nonNumeric") ->
  fact_concept rep (p_xml p) c -> attr (p_xml p) (u "contextRef") = Some cid -> In xc (resource_parts "xbrli:context" roots) -> usable cid xc ->
  exists ts, parts (cont_places roots) p ts /\ contains_no_comment ts /\ forall ts', parts (cont_places roots) p ts' -> ts' = ts.
Proof.
  intros Hp Ht Hc Hr Hx Hus. destruct C99_facts_partial as (nodes & us & os & before & after & _ & Hn & _ & Ho & _).
  assert (N : exists n o, is_node tostring (cont_places roots) p n /\
    inline_outcome rep py_float era_valid (resource_parts "xbrli:context" roots) (somes (map fst us))
             (entity_shared docs0) (period_shared parse_date) (explicit_shared rep docs0) (typed_shared rep docs0) n o).
  { clear - Hp Hn Ho. revert os Ho Hp. induction Hn as [|q n ps ns Hq _ IH]; intros os Ho Hp; [destruct Hp|].
    destruct os as [|o os]; inversion Ho; subst. destruct Hp as [->|Hp]; [eauto|eauto]. }
  clear Hn Ho. destruct N as (n & o & (En & _ & _ & _ & N1 & N2) & Ho). unfold inline_outcome in Ho. rewrite En in *.
  assert (T : forall ts, parts (cont_places roots) p ts -> forall ts', parts (cont_places roots) p ts' -> ts' = ts).
  { intros ts (qs & Hq & ->) ts' (qs' & Hq' & ->). rewrite (goes_on_same _ _ _ Hq' _ Hq). reflexivity. }
  destruct (fst o) as [y|].
  - destruct Ho as (e' & us' & cid' & xc' & c' & _ & _ & _ & _ & _ & _ & _ & [[F _]|[_ [Htx _]]]).
    + rewrite En, Ht in F. exfalso. clear - F. exact (two_tags F).
    + destruct Htx as (content & codes & Hcont & _). destruct (escapes (n_el n)).
      * destruct (N2 _ Ht Hcont) as (ts & x & P1 & P2 & _). eauto.
      * destruct (N1 _ Ht Hcont) as (ts & P1 & P2 & _). eauto.
  - exfalso. destruct Ho as [F _|name Hname F _|F _|cid' F F' _]; rewrite En in *.
    + destruct Hc as (name & q & Ha & _). rewrite Ha in F. discriminate F.
    + exact (F c Hc).
    + rewrite Hr in F. discriminate F.
    + rewrite Hr in F. injection F as <-. exact (F' xc Hx Hus).
Qed.

(** All characteristics are exactly those of the context, if equal keys mean equal things. *)
Theorem C99_exact_partial : one_scheme docs0 -> one_explicit rep docs0 -> one_typed rep docs0 -> plain_dimensions docs0 ->
  plain_periods docs0 -> no_period_word parse_date ->
  exists nodes us os before after,
    FilingModel.fl_errors (il_filing f) = before ++ concat (map snd os) ++ after /\
    Forall2 (is_node tostring (cont_places roots)) (fact_places roots) nodes /\
    Forall2 unit_outcome (resource_parts "xbrli:unit" roots) us /\
    Forall2 (inline_outcome rep py_float era_valid (resource_parts "xbrli:context" roots) (somes (map fst us))
               entity_exact (period_exact parse_date) (explicit_exact rep) (typed_exact rep)) nodes os /\
    stored (somes (map fst os)) (il_facts f).
Proof.
  intros H1 H2 H3 H4 H5 H6. destruct C99_facts_partial as (nodes & us & os & b & a & E & F1 & F2 & F3 & F4).
  exists nodes, us, os, b, a. split; [exact E|]. split; [exact F1|]. split; [exact F2|]. split; [|exact F4]. revert F3. apply inline_mono.
  - intros x r Hx. apply entity_to_exact; assumption.
  - intros x r Hx. apply period_to_exact; auto.
  - intros x r Hx. apply explicit_to_exact; assumption.
  - intros x r Hx. apply typed_to_exact; assumption.
Qed.

(** ** C102: footnotes *)

(** Every footnote element with an identifier becomes the footnote it describes (the last, if some have the
    same); there are no others. *)
Theorem C102_footnotes :
  (forall id p, id <> [] -> last_with (fun p => attr (p_xml p) (u "id") = Some id) (note_places roots) p ->
     exists x, dict_get str_eqb (il_notes f) id = Some x /\ footnote_is (FootModel.e_uri e) tostring (cont_places roots) p id x) /\
  forall id x, dict_get str_eqb (il_notes f) id = Some x ->
    id <> [] /\ exists p, last_with (fun p => attr (p_xml p) (u "id") = Some id) (note_places roots) p.
Proof.
  destruct all_read as (fuel & cr & es1 & taken & nodes & us & os & ids & e1 & e2 & e3 & ec & e6 & e7 & lk & ku & kc & nes & ln & ls & er & en & ea & el & ew &
    Hcr & _ & _ & _ & _ & _ & _ & _ & _ & _ & _ & _ & _ & _ & _ & _ & Hn & _ & _ & (er' & t & Hp) & _).
  destruct (FootProps.C63_footnotes e nes [] [] taken) as (ns' & es' & tk' & Hp' & Hg & _). rewrite Hp in Hp'. injection Hp' as <- _ _.
  assert (Hid : Forall2 (fun p n => FootModel.ne_id n = attr (p_xml p) (u "id")) (note_places roots) nes).
  { clear -Hn. induction Hn as [|p n l l' H _ IH]; constructor; [apply note_of_ok in H; apply H|exact IH]. }
  split.
  - intros id p Hne Hl. destruct (Hg id Hne) as [(n & (b & a & En & Ei & Ha) & Hd)|[Hno _]].
    + exists (FootProps.the_note e n id). split; [exact Hd|].
      assert (Hpn : note_of tostring (all_places roots) (chains_of fuel roots) p = Ok n).
      { clear Hg Hd. subst nes. apply Forall2_app_inv_r in Hn as (pb & pa & Hb & Hr & Ep). inversion Hr as [|p' n' pa' l' Hpn Hr' Eq1 Eq2]; subst.
        assert (p' = p) as ->; [|exact Hpn]. eapply last_with_same; [|exact Hl]. rewrite Ep. exists pb, pa'. split; [reflexivity|]. apply note_of_ok in Hpn as (Hpi & _).
        split; [cbv beta; rewrite <- Hpi; exact Ei|]. intros q Hq Eq. cbv beta in Eq. clear -Hr' Hq Eq Ha. induction Hr' as [|q' m l l' H _ IH]; [destruct Hq|]. destruct Hq as [->|Hq].
        - apply note_of_ok in H as (Hi & _). apply (Ha m (or_introl eq_refl)). rewrite Hi. exact Eq.
        - apply IH; [intros z Hz; apply Ha; right; exact Hz|exact Hq]. }
      apply last_with_in in Hl as [Hin Hpi]. cbv beta in Hpi.
      destruct (note_of_ok _ _ _ _ _ Hpn) as (N1 & N2 & N3 & N4 & N5). destruct (N5 id (eq_trans N1 Hpi) Hne) as (y & Ey & Ec).
      split; [reflexivity|]. split; [exact N3|]. split; [|split].
      * cbn [FootProps.the_note FootModel.no_role]. rewrite N2. destruct (attr (p_xml p) (u "footnoteRole")) as [ro|]; [|right; split; [intros; discriminate|reflexivity]].
        destruct (FootModel.e_uri e ro) eqn:Eu; [left; eauto|right]. split; [intros ro' [= <-]; exact Eu|reflexivity].
      * cbn [FootProps.the_note FootModel.no_lang]. destruct (FootModel.ne_lang n) as [[|z w]|] eqn:El.
        -- right. split; [|reflexivity]. intros l0 Hl0. apply N4 in Hl0. congruence.
        -- left. exists (z :: w). split; [apply N4; reflexivity|]. split; [discriminate|reflexivity].
        -- right. split; [|reflexivity]. intros l0 Hl0. apply N4 in Hl0. congruence.
      * eexists. exists y. split; [eapply chain_parts; [exact Hcr|right; exact Hin]|]. apply extracted in Ey as [Ey1 Ey2]. auto.
    + exfalso. apply last_with_in in Hl as [Hin Hpi]. cbv beta in Hpi. clear -Hid Hin Hpi Hno. induction Hid as [|q n l l' H _ IH]; [destruct Hin|]. destruct Hin as [->|Hin].
      * apply (Hno n (or_introl eq_refl)). rewrite H. exact Hpi.
      * apply IH; [exact Hin|intros z Hz; apply Hno; right; exact Hz].
  - intros id x Hd. assert (Hne : id <> []).
    { intros ->. pose proof (no_empty_note nes [] [] taken _ _ _ Hp eq_refl) as K. congruence. }
    split; [exact Hne|]. destruct (Hg id Hne) as [(n & (b & a & En & Ei & Ha) & _)|[_ K]]; [|rewrite K in Hd; discriminate].
    subst nes. apply Forall2_app_inv_r in Hid as (pb & pa & Hb & Hr & Ep). inversion Hr as [|p n' pa' l' Hpn Hr' Eq1 Eq2]; subst. exists p. rewrite Ep.
    exists pb, pa'. split; [reflexivity|]. split; [cbv beta; rewrite <- Hpn; exact Ei|]. intros q Hq Eq. cbv beta in Eq. clear -Hr' Hq Eq Ha. induction Hr' as [|q' m l l' H _ IH]; [destruct Hq|]. destruct Hq as [->|Hq].
    + apply (Ha m (or_introl eq_refl)). rewrite H. exact Eq.
    + apply IH; [intros z Hz; apply Ha; right; exact Hz|exact Hq].
Qed.

(** The relationships of the same link role and arc role make one network; a relationship without an order,
    or whose order is no number, is never read (FootProps). *)
Definition sound_relationships : Prop := forall x, In x (resource_parts "ix:relationship" roots) ->
  FootSpec.proper e (il_notes f) (texts_of (il_facts f)) (rel_of x).
Theorem C102_networks_partial : sound_relationships ->
  exists keys, NoDup keys /\
    (forall l r', In (l, r') keys <-> exists x, In x (resource_parts "ix:relationship" roots) /\ FootSpec.in_group l r' (rel_of x)) /\
    Forall2 (fun k nw => FootSpec.is_network e (il_notes f) (texts_of (il_facts f)) (map rel_of (resource_parts "ix:relationship" roots)) (fst k) (snd k) nw /\
      FootModel.nw_linkrole nw = snd k) keys (il_networks f).
Proof.
  destruct all_read as (fuel & cr & es1 & taken & nodes & us & os & ids & e1 & e2 & e3 & ec & e6 & e7 & lk & ku & kc & nes & ln & ls & er & en & ea & el & ew &
    _ & _ & _ & _ & _ & _ & _ & _ & _ & _ & _ & _ & _ & _ & _ & _ & _ & _ & _ & _ & _ & _ & _ & H & _).
  exact H.
Qed.
Theorem C102_orders : Forall (has_order (FootModel.e_float e)) (resource_parts "ix:relationship" roots).
Proof.
  destruct all_read as (fuel & cr & es1 & taken & nodes & us & os & ids & e1 & e2 & e3 & ec & e6 & e7 & lk & ku & kc & nes & ln & ls & er & en & ea & el & ew &
    _ & _ & _ & _ & _ & _ & _ & _ & _ & _ & _ & _ & _ & _ & _ & _ & _ & _ & _ & _ & H & _).
  exact H.
Qed.

(** ** C101: what is reported *)

Hypothesis Hdocs : NoDup (map fst trees).
Hypothesis Hprefixes : ConceptLoad.prefixes_usual (plain_trees trees).

(** What is reported, in this order: what was there before, and what is wrong with declarations, headers,
    references, resources, contexts, units, hidden facts, continuations, facts, role references,
    footnotes, relationships, links, and the announcement of networks. *)
Theorem C101_reports_partial : exists e0 e1 e2 e3 ec eu e6 e7 ef er en ea el ew,
  FilingModel.fl_errors (il_filing f) = es ++ e0 ++ e1 ++ e2 ++ e3 ++ ec ++ eu ++ e6 ++ e7 ++ ef ++ er ++ en ++ ea ++ el ++ ew /\
  ConceptSpec.error_list (plain_trees trees) [] (ConceptSpec.all_decls (plain_trees trees)) e0 /\
  Forall2 made (headers_problems (map plain roots)) e1 /\
  Forall2 made (references_problems [] (header_parts "ix:references" roots)) e2 /\
  Forall2 made (resources_problems (header_parts "ix:resources" roots)) e3 /\
  (no_period_word parse_date ->
   (forall x xp, In x (resource_parts "xbrli:context" roots) -> find_kid (u "period") x = Some xp -> plain_period xp) ->
   Forall2 CtxReportSpec.made (contexts_reports parse_date rep (rev (ids_of (header_parts "ix:references" roots))) []
     (resource_parts "xbrli:context" roots)) ec) /\
  Forall2 CtxReportSpec.made (units_reports (rev (ids_of (header_parts "ix:references" roots ++ resource_parts "xbrli:context" roots))) []
     (resource_parts "xbrli:unit" roots)) eu /\
  Forall2 made (hidden_problems (header_parts "ix:hidden" roots)) e6 /\
  (exists lk, continuation_problems roots (rev (ids_of named)) lk /\ Forall2 made lk e7) /\
  (exists nodes us ids known_unit known_context,
     Forall2 (is_node tostring (cont_places roots)) (fact_places roots) nodes /\
     Forall2 unit_outcome (resource_parts "xbrli:unit" roots) us /\ eu = concat (map snd us) /\
     (forall i, In i ids <-> In i (ids_of named) \/ In i (ids_of (map p_xml (cont_places roots)))) /\
     (forall i, known_unit i = true <-> exists c, In c (somes (map fst us)) /\ unit_named i c) /\
     (forall i, known_context i = true <-> exists x, In x (resource_parts "xbrli:context" roots) /\ usable i x) /\
     Forall2 made (elements_problems rep py_float era_valid known_unit known_context ids nodes) ef) /\
  Forall2 made (flat_map (reference_problems (FootModel.e_uri e) "linktype")
    (resource_parts "link:roleRef" roots ++ resource_parts "link:arcroleRef" roots)) er /\
  (exists taken ln, (forall i, In i taken <-> taken_before roots (il_facts f) i) /\
     notes_problems (FootModel.e_uri e) taken (note_places roots) ln /\ Forall2 made ln en) /\
  (exists ls, Forall2 (fun x => such (relationship_cases (FootModel.e_uri e) (map fst (il_notes f)) (map fst (texts_of (il_facts f))) x))
       (resource_parts "ix:relationship" roots) ls /\ Forall2 made (concat ls) ea) /\
  (exists find l l1 l2 rss,
      (forall i, FilingSpec.stands_for (FilingModel.get_all_report_elements (il_filing f)) (FilingModel.get_all_facts (il_filing f)) i (find i)) /\
      (forall x around, In (x, around) l <-> LinkSpec.extended_link docs x around) /\
      LinkSpec.in_two_parts LinkSpec.looks_standard l l1 l2 /\
      Forall2 (fun p => LinkSpec.link_reported find (fst p) (snd p)) (l1 ++ l2) rss /\ Forall2 LinkSpec.made (concat rss) el) /\
  exists lw, ew = concat lw /\
    Forall2 (fun x l => exists role codes, attr x (u "roleURI") = Some role /\ NoDup codes /\
      Forall2 (fun code e => create code (Some x) [(u "linkrole_uri", role)] = Ok e) codes l /\
      forall code, In code codes <-> CompSpec.warned (FilingModel.networks_of (FilingModel.fl_nets (il_filing f))) x role code)
      (flat_map CompModel.role_types docs) lw.
Proof.
  destruct all_read as (fuel & cr & es1 & taken & nodes & us & os & ids & e1 & e2 & e3 & ec & e6 & e7 & lk & ku & kc & nes & ln & ls & er & en & ea & el & ew &
    Hcr & E & (later & notes & A) & (F1 & F2 & _) & H1 & H2 & H3 & H6 & Hids & Hlk & H7 & Hku & Hkc & Hef & Htk & Her & _ & Hln & Hen & _ & _ & Hls & Hea & _ & (l & l1 & l2 & rss & Hel) & Hew).
  destruct (FilingStages.f_declaration_reports _ _ _ _ _ _ _ _ _ A (plain_docs' Hdocs) Hprefixes) as (e0 & -> & H0).
  exists e0, e1, e2, e3, ec, (concat (map snd us)), e6, e7, (concat (map snd os)), er, en, ea, el, ew.
  split; [rewrite E, <- !app_assoc; reflexivity|]. destruct H6 as [H6 [Hsc Hsu]]. do 7 (split; [assumption|]). split; [eauto|].
  split; [exists nodes, us, ids, ku, kc; auto 8|]. split; [exact Her|]. split; [eauto|]. split; [eauto|].
  split; [|exact Hew].
  exists (FilingModel.find_in (FilingModel.fl_elements (il_filing f)) (FilingModel.fl_facts (il_filing f))), l, l1, l2, rss.
  split; [|exact Hel]. intros i. eapply FilingStages.found_stands, A.
Qed.

(** If nothing is reported, nothing is missing. *)
Hypothesis Hclean : FilingModel.fl_errors (il_filing f) = [].

Ltac parted E := repeat match type of E with [] = _ ++ _ => symmetry in E | _ ++ _ = [] => let E' := fresh "E" in apply app_eq_nil in E as [E' E] end.

(** Every declaration that brel understands has its report element. *)
Theorem C101_declarations_kept root tns x k : In (root, tns, x) (ConceptSpec.all_decls (plain_trees trees)) -> ConceptSpec.declares x k ->
  exists y, In y (FilingModel.get_all_report_elements (il_filing f)) /\ ConceptSpec.named (root, tns, x) (e_name y).
Proof.
  destruct all_read as (fuel & cr & es1 & taken & nodes & us & os & ids & e1 & e2 & e3 & ec & e6 & e7 & lk & ku & kc & nes & ln & ls & er & en & ea & el & ew &
    _ & E & (later & notes & A) & _). rewrite Hclean in E. symmetry in E. apply app_eq_nil in E as [E _].
  eapply FilingStages.declarations_kept; [exact A|exact (plain_docs' Hdocs)|exact Hprefixes|exact E].
Qed.

(** Every fact element has its fact (the last, if some have the same id). *)
Theorem C101_facts_kept : exists nodes us fs,
  Forall2 (is_node tostring (cont_places roots)) (fact_places roots) nodes /\
  Forall2 (fun x c => exists id ns ds, attr x (u "id") = Some id /\ reads_unit x ns ds /\ c = ChUnit id ns ds) (resource_parts "xbrli:unit" roots) us /\
  Forall2 (fun n x => inline_fact rep py_float era_valid (resource_parts "xbrli:context" roots) us
             (entity_shared docs0) (period_shared parse_date) (explicit_shared rep docs0) (typed_shared rep docs0) n x []) nodes fs /\
  stored fs (il_facts f).
Proof.
  destruct all_read as (fuel & cr & es1 & taken & nodes & us & os & ids & e1 & e2 & e3 & ec & e6 & e7 & lk & ku & kc & nes & ln & ls & er & en & ea & el & ew &
    _ & E & _ & (F1 & F2 & F3 & F4) & _). rewrite Hclean in E. symmetry in E. apply app_eq_nil in E as [_ E]. apply app_eq_nil in E as [E _].
  do 4 (apply app_eq_nil in E as [_ E]). apply app_eq_nil in E as [Eu E]. do 2 (apply app_eq_nil in E as [_ E]).
  exists nodes, (somes (map fst us)), (somes (map fst os)). split; [exact F1|]. split; [|split; [|exact F4]].
  - clear -F2 Eu. induction F2 as [|x [o er] l l' H _ IH]; [constructor|]. cbn [map concat snd] in Eu. apply app_eq_nil in Eu as [-> Eu].
    destruct o as [c|]; [|destruct (H eq_refl)]. cbn [map fst somes flat_map app]. constructor; [exact H|exact (IH Eu)].
  - clear -F3 E. revert F3. generalize (somes (map fst us)). intros un F3. induction F3 as [|n [o er] l l' H _ IH]; [constructor|]. cbn [map concat snd] in E. apply app_eq_nil in E as [-> E].
    destruct o as [x|]; [|destruct H as [_ K|name _ _ K|_ K|cid _ _ K]; destruct K as (kw & er & [] & _)]. cbn [map fst somes flat_map app]. constructor; [exact H|exact (IH E)].
Qed.

(** Every continuation has its own identifier and is used once, and every element that is continued finds
    all its continuations. *)
Theorem C101_continuations_sound :
  (forall q, In q (cont_places roots) -> exists i, attr (p_xml q) (u "id") = Some i /\ exists p, In p (continuables roots) /\ continues (cont_places roots) p q) /\
  NoDup (ids_of (map p_xml (cont_places roots))) /\
  (forall p i, In p (continuables roots) -> ~ runs_out (cont_places roots) (attr (p_xml p) (u "continuedAt")) i) /\
  (forall a p b p' q, continuables roots = a ++ p :: b -> In p' a -> continues (cont_places roots) p q -> ~ continues (cont_places roots) p' q) /\
  (forall p q, In p (continuables roots) -> ~ within_itself roots p q).
Proof.
  destruct all_read as (fuel & cr & es1 & taken & nodes & us & os & ids & e1 & e2 & e3 & ec & e6 & e7 & lk & ku & kc & nes & ln & ls & er & en & ea & el & ew &
    Hcr & E & _ & _ & _ & _ & _ & _ & _ & Hlk & H7 & _). rewrite Hclean in E. symmetry in E. apply app_eq_nil in E as [_ E]. apply app_eq_nil in E as [E _].
  do 6 (apply app_eq_nil in E as [_ E]). apply app_eq_nil in E as [-> _]. inversion H7 as [E|]; subst. clear H7.
  destruct Hlk as (P1 & P2 & P3 & P4 & P5 & _ & P6 & _).
  assert (Q1 : forall q, In q (cont_places roots) -> exists i, attr (p_xml q) (u "id") = Some i).
  { intros q Hq. destruct (attr (p_xml q) (u "id")) as [i|] eqn:Ei; [eauto|]. exfalso. apply (P1 (p_xml q)). eauto. }
  assert (Q2 : forall a q b i, cont_places roots = a ++ q :: b -> attr (p_xml q) (u "id") = Some i -> ~ In i (ids_of (map p_xml a))).
  { intros a q b i Ec Ei Hi. apply (P2 (p_xml q)). exists a, q, b, i. split; [exact Ec|]. split; [reflexivity|]. split; [exact Ei|]. apply in_or_app. auto. }
  split; [|split; [|split; [|split]]].
  - intros q Hq. destruct (Q1 q Hq) as (i & Ei). exists i. split; [exact Ei|].
    destruct (used_or_not roots Hprefix _ _ _ i Hcr) as [(p & q' & Hp & Hc & Ei')|N]; [|exfalso; destruct (proj2 P5) as (x & []); exists q, i; auto].
    exists p. split; [exact Hp|]. assert (q' = q) as <-; [|exact Hc].
    assert (Hq' : In q' (cont_places roots)) by (eapply continues_in, Hc). eapply same_id; [exact Q2|exact Hq'|exact Hq|exact Ei'|exact Ei].
  - clear -Q2. revert Q2. generalize (cont_places roots). intros l. induction l as [|q l IH] using rev_ind; intros Q2; [constructor|].
    rewrite map_app, ids_app. cbn [map ids_of flat_map]. rewrite app_nil_r. assert (IH' : NoDup (ids_of (map p_xml l))).
    { apply IH. intros a z b i ->. rewrite <- app_assoc in Q2. cbn [app] in Q2. eapply Q2. reflexivity. }
    destruct (attr (p_xml q) (u "id")) as [i|] eqn:Ei; [|rewrite app_nil_r; exact IH'].
    apply (Permutation_NoDup (Permutation_cons_append _ i)). constructor; [|exact IH']. exact (Q2 l q [] i eq_refl Ei).
  - intros p i Hp Ho. apply (P3 (p_xml p)). eauto.
  - intros a p b p' q Ec Hp' H1 H2. apply (P4 (p_xml p)). exists a, p, b, p', q. auto.
  - intros p q Hp Hw. apply (P6 (p_xml q)). exists p, q. auto.
Qed.

(** The footnotes have identifiers of their own, proper roles and languages. *)
Theorem C101_notes_sound :
  (forall p, In p (note_places roots) -> exists id, has_id p id /\ ~ taken_before roots (il_facts f) id /\
     (forall r, attr (p_xml p) (u "footnoteRole") = Some r -> FootModel.e_uri e r = true) /\
     exists l, LinkSpec.speaks (p_xml p) (map plain (p_above p)) l /\ l <> []) /\
  NoDup (ids_of (map p_xml (note_places roots))).
Proof.
  destruct all_read as (fuel & cr & es1 & taken & nodes & us & os & ids & e1 & e2 & e3 & ec & e6 & e7 & lk & ku & kc & nes & ln & ls & er & en & ea & el & ew &
    Hcr & E & _ & _ & _ & _ & _ & _ & _ & _ & _ & _ & _ & _ & Htk & _ & _ & Hln & Hen & _). rewrite Hclean in E. symmetry in E. do 2 (apply app_eq_nil in E as [_ E]). apply app_eq_nil in E as [E _].
  apply app_eq_nil in E as [_ E]. apply app_eq_nil in E as [-> _]. inversion Hen as [E|]; subst. clear Hen.
  assert (G : forall taken ps l, notes_problems (FootModel.e_uri e) taken ps l -> l = [] ->
    (forall p, In p ps -> exists id, has_id p id /\ ~ In id taken /\ (forall r, attr (p_xml p) (u "footnoteRole") = Some r -> FootModel.e_uri e r = true) /\
       exists l, LinkSpec.speaks (p_xml p) (map plain (p_above p)) l /\ l <> []) /\ NoDup (ids_of (map p_xml ps))).
  { clear. intros taken ps l. induction 1 as [taken|taken p ps l l' Hs _ IH]; intros El; [split; [intros p []|constructor]|].
    apply app_eq_nil in El as [-> El]. destruct (IH El) as [I1 I2].
    assert (Hp : exists id, has_id p id /\ ~ In id taken /\ (forall r, attr (p_xml p) (u "footnoteRole") = Some r -> FootModel.e_uri e r = true) /\
       exists l, LinkSpec.speaks (p_xml p) (map plain (p_above p)) l /\ l <> []).
    { unfold note_cases in Hs. inversion Hs as [| |? ? ? ? N1 Hs1]; subst. inversion Hs1 as [| |? ? ? ? N2 Hs2]; subst. inversion Hs2 as [| |? ? ? ? N3 Hs3]; subst. inversion Hs3 as [| |? ? ? ? N4 Hs4]; subst.
      assert (Hid : exists id, has_id p id).
      { destruct (FootModel.given (attr (p_xml p) (u "id"))) as [id|] eqn:Eg; [exists id; apply has_given, Eg|]. exfalso. apply N1. intros id Hid. apply has_given in Hid. congruence. }
      destruct Hid as (id & Hid). exists id. split; [exact Hid|]. split; [intros K; apply N2; eauto|]. split.
      - intros r Er. destruct (FootModel.e_uri e r) eqn:Eu; [reflexivity|]. exfalso. apply N3. exists id, r. auto.
      - destruct (LinkModel.elem_lang (map plain (p_tree p :: p_above p))) as [[|c w]|] eqn:El'.
        + exfalso. apply N4. exists id. split; [exact Hid|]. intros l Hl. apply (LinkProofs.elem_lang_some (p_xml p :: map plain (p_above p)) l) in Hl.
          cbn [map] in El'. unfold p_xml in Hl. congruence.
        + exists (c :: w). split; [|discriminate]. apply (LinkProofs.elem_lang_some (p_xml p :: map plain (p_above p))). exact El'.
        + exfalso. apply N4. exists id. split; [exact Hid|]. intros l Hl. apply (LinkProofs.elem_lang_some (p_xml p :: map plain (p_above p)) l) in Hl.
          cbn [map] in El'. unfold p_xml in Hl. congruence. }
    destruct Hp as (id & [Hid1 Hid2] & Hp). split.
    - intros q [<-|Hq]; [exists id; split; [split; assumption|exact Hp]|]. destruct (I1 q Hq) as (id' & H1 & H2 & H3). exists id'. split; [exact H1|]. split; [|exact H3].
      intros K. apply H2. apply in_or_app. right. exact K.
    - cbn [map ids_of flat_map]. rewrite Hid1. cbn [app]. constructor; [|exact I2]. intros K. apply in_flat_map in K as (y & Hy & Hi). apply in_map_iff in Hy as (q & <- & Hq).
      destruct (I1 q Hq) as (id' & [H1 _] & H2 & _). rewrite H1 in Hi. destruct Hi as [->|[]]. apply H2. cbn [map ids_of flat_map]. rewrite Hid1. left. reflexivity. }
  destruct (G _ _ _ Hln eq_refl) as [G1 G2]. split; [|exact G2]. intros p Hp. destruct (G1 p Hp) as (id & H1 & H2 & H3). exists id. split; [exact H1|]. split; [|exact H3].
  intros K. apply H2, Htk, K.
Qed.

(** The relationships refer to facts and footnotes of the filing, and make the networks. *)
Theorem C101_relationships_sound x : In x (resource_parts "ix:relationship" roots) ->
  ~ is_missing (attr x (u "fromRefs")) /\ ~ is_missing (attr x (u "toRefs")) /\
  (forall i, FootSpec.refers (attr x (u "fromRefs")) i -> (exists y, dict_get str_eqb (by_id (il_facts f)) i = Some y) /\ ~ FootSpec.refers (attr x (u "toRefs")) i) /\
  ((forall i, FootSpec.refers (attr x (u "toRefs")) i -> In i (map fst (il_notes f))) \/
   (forall i, FootSpec.refers (attr x (u "toRefs")) i -> In i (map fst (texts_of (il_facts f))) /\ ~ In i (map fst (il_notes f)))) /\
  ~ wrong_uri (FootModel.e_uri e) (attr x (u "arcrole")) /\ ~ wrong_uri (FootModel.e_uri e) (attr x (u "linkRole")).
Proof.
  intros Hx.
  destruct all_read as (fuel & cr & es1 & taken & nodes & us & os & ids & e1 & e2 & e3 & ec & e6 & e7 & lk & ku & kc & nes & ln & ls & er & en & ea & el & ew &
    _ & E & _ & _ & _ & _ & _ & _ & _ & _ & _ & _ & _ & _ & _ & _ & _ & _ & _ & _ & _ & Hls & Hea & _). rewrite Hclean in E. symmetry in E. do 2 (apply app_eq_nil in E as [_ E]). apply app_eq_nil in E as [E _].
  do 2 (apply app_eq_nil in E as [_ E]). subst ea. inversion Hea as [E|]; subst. clear Hea. symmetry in E.
  assert (Hs : such (relationship_cases (FootModel.e_uri e) (map fst (il_notes f)) (map fst (texts_of (il_facts f))) x) []).
  { clear -Hls E Hx. induction Hls as [|y l ys ls' H _ IH]; [destruct Hx|]. cbn [concat] in E. apply app_eq_nil in E as [-> E]. destruct Hx as [->|Hx]; [exact H|exact (IH Hx E)]. }
  unfold relationship_cases in Hs. cbv zeta in Hs.
  inversion Hs as [| |? ? ? ? N1 Hs1]; subst. inversion Hs1 as [| |? ? ? ? N2 Hs2]; subst. inversion Hs2 as [| |? ? ? ? N3 Hs3]; subst. inversion Hs3 as [| |? ? ? ? N4 Hs4]; subst.
  inversion Hs4 as [| |? ? ? ? N5 Hs5]; subst. inversion Hs5 as [| |? ? ? ? N6 Hs6]; subst. inversion Hs6 as [| |? ? ? ? N7 Hs7]; subst. inversion Hs7 as [| |? ? ? ? N8 Hs8]; subst.
  assert (D : forall l i, In i l \/ ~ In i (l : list str)) by (intros l i; destruct (in_dec (list_eq_dec N.eq_dec) i l); auto).
  split; [exact N1|]. split; [exact N2|]. split; [|split; [|auto]].
  - intros i Hi. split; [|intros K; apply N3; eauto]. destruct (D (map fst (texts_of (il_facts f))) i) as [K|K]; [|exfalso; apply N4; eauto].
    unfold texts_of in K. rewrite map_map in K. cbn [fst] in K. apply in_map_iff in K as ([j y] & <- & K). exists y. apply (dict_get_in_nodup _ str_eqb_spec) in K; [exact K|exact f_own].
  - destruct (words_dec (attr x (u "toRefs")) (fun i => In i (map fst (il_notes f))) (D _) Hsets) as [K|(j & Hj & Nj)]; [left; exact K|right].
    intros i Hi. destruct (D (map fst (il_notes f)) i) as [K|K]; [exfalso; apply N6; exists i, j; auto|]. split; [|exact K].
    destruct (D (map fst (texts_of (il_facts f))) i) as [K'|K']; [exact K'|exfalso; apply N5; eauto].
Qed.

(** Nothing is wrong with the links, and every network of a declared role is announced by it. *)
Theorem C101_links_sound link outside : LinkSpec.extended_link docs link outside -> FilingSpec.sound_link (il_filing f) link outside.
Proof. destruct f_assembled as (es1 & later & A). eapply FilingStages.links_sound; eassumption. Qed.
Theorem C101_announced x role : In x (flat_map CompModel.role_types docs) -> attr x (u "roleURI") = Some role ->
  ((exists w, FilingSpec.of_kind (il_filing f) NetModel.KPresentation role w) -> CompSpec.used_on x "link:presentationLink") /\
  ((exists w, FilingSpec.of_kind (il_filing f) NetModel.KCalculation role w) -> CompSpec.used_on x "link:calculationLink") /\
  ((exists w, FilingSpec.of_kind (il_filing f) NetModel.KLogicalDefinition role w \/ FilingSpec.of_kind (il_filing f) NetModel.KPhysicalDefinition role w) -> CompSpec.used_on x "link:definitionLink").
Proof. destruct f_assembled as (es1 & later & A). eapply FilingStages.announced; eassumption. Qed.
End Reports.
End Usual.
End Read.
End Filing.

Print Assumptions C99_elements.
Print Assumptions C99_found.
Print Assumptions C98_reports.
Print Assumptions C98_type_refuted.
Print Assumptions C98_type.
Print Assumptions C98_arcrole_refuted.
Print Assumptions C59_inline_refuted.
Print Assumptions C100_nodes.
Print Assumptions C100_components.
Print Assumptions C100_networks.
Print Assumptions C100_names.
Print Assumptions C100_shown.
Print Assumptions C100_below.
Print Assumptions C100_labels.
Print Assumptions C100_elements.
Print Assumptions C100_lookup.
Print Assumptions C100_concept_lookup.
Print Assumptions C99_listed.
Print Assumptions C99_characteristics.
Print Assumptions C99_facts_partial.
Print Assumptions C99_no_comments.
Print Assumptions C99_exact_partial.
Print Assumptions C102_footnotes.
Print Assumptions C102_networks_partial.
Print Assumptions C102_orders.
Print Assumptions C101_reports_partial.
Print Assumptions C101_declarations_kept.
Print Assumptions C101_facts_kept.
Print Assumptions C101_continuations_sound.
Print Assumptions C101_notes_sound.
Print Assumptions C101_relationships_sound.
Print Assumptions C101_links_sound.
Print Assumptions C101_announced.
