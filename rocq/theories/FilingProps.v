(** C89-C96: whole filings. *)
From Coq Require Import QArith Permutation.
From Verif Require Import Base QNameModel QNameSpec QNameProofs ErrBase ErrTable ErrModel CtxModel CtxSpec CtxProofs CtxParseProofs.
From Verif Require QNameProps CtxProps TableProps ConceptModel ConceptSpec ConceptProofs ConceptLoad ConceptProps NetModel NetSpec LangModel LinkModel LinkSpec LinkProofs
  LinkNetProofs LinkDocProofs LinkProps CompModel CompSpec CompProofs CompProps.
From Verif Require Import FilingModel FilingSpec FilingProofs FilingStages.
From Verif Require FilingNetProofs CtxReportSpec CtxReportProofs DtsRefs.
Local Open Scope nat_scope.
Local Opaque insert create.

Section Filing.
Variable parse_date : str -> res date.
Variable element_str : xml -> str.
Variable number : str -> Q.

(** The filing is read from the documents, in some order of the sets. *)
Definition reads (trees : list (str * xml)) (es : repo xml) (f : filing) : Prop :=
  exists edge_order root_order fuel shuffle, LinkSpec.orders edge_order root_order /\ NetSpec.some_order shuffle /\
    parse_filing parse_date element_str number edge_order root_order fuel shuffle trees es = Ok f.

Section Read.
Variable trees : list (str * xml).
Variable es : repo xml.
Variable f : filing.
Hypothesis Hreads : reads trees es f.
Let docs := dict_values trees.

Lemma f_assembled : exists es1 s, assembled element_str number trees es es1 (s_errors s) [] [] f /\
  parse_facts parse_date (repository_of (fl_elements f)) (nillable_in (fl_elements f)) docs (State es1 [] [] empty_facts) = Ok (tt, s) /\
  fl_facts f = s_facts s.
Proof.
  destruct Hreads as (eo & ro & fu & sh & Ho & Hs & H). apply filing_stages in H as (reg & es1 & s & Hd & H1 & H2 & H3 & H4 & Er & Ef & En & Ens).
  exists es1, s. rewrite <- Er in H1, H2, H3. split; [|auto]. unfold read_networks in H3. rewrite <- Ef in H3. constructor.
  - eauto.
  - exact H1.
  - destruct (parse_facts_sem parse_date _ _ docs _ _ (start_inv parse_date _ docs es1) H2) as (_ & os & _ & _ & Ha). rewrite Ef. cbn [s_facts] in Ha. rewrite Ha.
    apply folded_own_id. intros j y [].
  - exists eo, ro, fu, sh. auto.
  - constructor.
  - exact En.
  - rewrite En. exact H4.
  - exact Ens.
Qed.

Lemma f_elements : exists reg, NoDup (map ConceptModel.r_name reg) /\ fl_elements f = ConceptLoad.stored reg.
Proof. destruct f_assembled as (es1 & st & A & _). exact (as_elements _ _ _ _ _ _ _ _ _ A). Qed.

Lemma f_facts : exists os,
  Forall2 (outcome_of (concept_shared (repository_of (fl_elements f)) docs) (unit_shared docs) (entity_shared docs)
    (period_shared parse_date) (explicit_shared (repository_of (fl_elements f)) docs) (typed_shared (repository_of (fl_elements f)) docs))
    (all_fact_elements docs) os /\
  fl_facts f = fold_left facts_upsert (somes (map fst os)) empty_facts.
Proof.
  destruct Hreads as (eo & ro & fu & sh & _ & _ & H). apply filing_stages in H as (reg & es1 & s & H1 & _ & H2 & _ & _ & -> & -> & _).
  destruct (parse_facts_sem parse_date _ _ docs _ _ (start_inv parse_date _ docs es1) H2) as (_ & os & Hos & _ & Ha). exists os. split; [exact Hos|exact Ha].
Qed.

(** ** C59 *)

(** Whatever table linkbases the documents have, the filing has no tables (TableProps). *)
Theorem C59_filing_refuted : fl_tables f = [].
Proof.
  destruct Hreads as (eo & ro & fu & sh & _ & _ & H). unfold parse_filing in H. cbv zeta in H.
  apply LinkProofs.bind_ok in H as (r & _ & H). apply LinkProofs.bind_ok in H as (s & _ & H). apply LinkProofs.bind_ok in H as (n & _ & H).
  apply LinkProofs.bind_ok in H as (t & Ht & H). apply LinkProofs.bind_ok in H as (c & _ & H). injection H as <-. cbn [fl_tables].
  exact (TableProps.C59_never_stored_refuted _ _ _ Ht).
Qed.

(** ** C89 *)


Lemma fact_good x : repo_facts (fl_facts f) x ->
  (exists e, get_characteristic (f_context x) a_concept = Some (ChConcept e)) /\
  forall a c, get_characteristic (f_context x) a = Some c -> has_characteristic_elements f c.
Proof.
  intros Hx. destruct f_elements as (reg & Hn & Er). destruct f_facts as (os & Hos & Ef). rewrite Ef in Hx.
  apply folded_facts in Hx as [Hx|[[]|[]]]. apply somes_in, in_map_iff in Hx as ([o errs] & Eo & Hx). cbn [fst] in Eo. subst o.
  assert (Hi : exists ix, outcome_of (concept_shared (repository_of (fl_elements f)) docs) (unit_shared docs) (entity_shared docs)
    (period_shared parse_date) (explicit_shared (repository_of (fl_elements f)) docs) (typed_shared (repository_of (fl_elements f)) docs) ix (Some x, errs)).
  { clear -Hos Hx. induction Hos as [|ix o l l' H H' IH]; [destruct Hx|]. destruct Hx as [->|Hx]; [eauto|exact (IH Hx)]. }
  destruct Hi as ([i el] & Hi). cbn [outcome_of fst snd] in Hi. split.
  - eapply shared_concept, Hi.
  - intros a c Hc. pose proof (shared_elements parse_date (repository_of (fl_elements f))
      (fun t e => In e (get_all_report_elements f) /\ t e = true)) as G.
    assert (Ht : forall t q e, get_typed_by_qname t (repository_of (fl_elements f)) q = Ok e -> In e (get_all_report_elements f) /\ t e = true).
    { intros t q e. unfold get_all_report_elements. rewrite Er. intros H. apply (repo_typed reg Hn) in H. tauto. }
    specialize (G Ht docs i el x Hi a c Hc). unfold has_characteristic_elements, has_element. destruct c; cbn [char_elements] in G; try exact I.
    + rewrite is_concept_kind in G. exact G.
    + rewrite is_dimension_kind, is_member_kind in G. exact G.
    + rewrite is_dimension_kind in G. exact G.
Qed.

(** Every fact of the filing, also those without id, has a concept of the filing, and the dimensions and
    members of its characteristics are dimensions and members of the filing. *)
Theorem C89_facts x : In x (get_all_facts f) \/ In x (fr_without_id (fl_facts f)) ->
  (exists e, get_characteristic (f_context x) a_concept = Some (ChConcept e) /\ has_element f KConcept e) /\
  forall a c, get_characteristic (f_context x) a = Some c -> has_characteristic_elements f c.
Proof.
  intros Hx. destruct (fact_good x Hx) as [(e & He) H]. split; [|exact H]. exists e. split; [exact He|]. exact (H _ _ He).
Qed.


(** Every node of a network of the filing points to something of the filing that belongs in the
    network. *)
Theorem C89_nodes w r n : In w (fl_nets f) -> In r (LinkModel.w_roots w) -> NetSpec.reach (LinkModel.ls_heap (fl_links f)) r n ->
  exists x, nth_error (LinkModel.ls_heap (fl_links f)) n = Some x /\
    has_object f (NetModel.n_obj x) /\ belongs (LinkModel.w_kind w) (NetModel.o_type (NetModel.n_obj x)).
Proof. destruct f_assembled as (es1 & st & A & _). eapply FilingStages.nodes; eassumption. Qed.

(** ** C90 *)

(** The concepts of the facts can always be listed; they are concepts of the filing, and the facts by
    concept are all facts, each once. *)
Theorem C90_reported : exists l ls,
  CompModel.get_all_reported_concepts (get_all_facts f) = Ok l /\ incl l (get_all_concepts f) /\
  map_res (CompModel.get_facts_by_concept (repository_of (fl_elements f)) (get_all_facts f)) l = Ok ls /\
  Permutation (concat ls) (get_all_facts f) /\
  forall c fs, In (c, fs) (combine l ls) -> forall x, In x fs <-> In x (get_all_facts f) /\ CompSpec.reports x (e_name c).
Proof.
  destruct f_elements as (reg & Hn & Er).
  assert (Hc : forall x, In x (get_all_facts f) -> exists e, CompModel.fact_concept x = Ok e /\ has_element f KConcept e).
  { intros x Hx. destruct (C89_facts x (or_introl Hx)) as [(e & He & Hh) _]. exists e. unfold CompModel.fact_concept. rewrite He. auto. }
  destruct (CompProps.C60_reported_total (get_all_facts f)) as (l & Hl).
  { intros x Hx. destruct (Hc x Hx) as (e & He & _). exists (e_name e), e. split; [apply CompProps.concept_spec, He|reflexivity]. }
  assert (Hin : forall e, In e l -> has_element f KConcept e).
  { destruct (CompProps.collect_spec (get_all_facts f) [] l (NoDup_nil _) Hl) as (_ & _ & H & _).
    intros e He. destruct (H e He) as [[]|(x & Hx & Ex)]. destruct (Hc x Hx) as (e' & Ex' & Hh). congruence. }
  assert (Hrep : forall q e, dict_get qname_eqb (by_qname (repository_of (fl_elements f))) q = Some e -> e_name e = q).
  { intros q e. rewrite Er, (repo_get reg Hn). tauto. }
  assert (Hget : forall e, In e l -> exists fs, CompModel.get_facts_by_concept (repository_of (fl_elements f)) (get_all_facts f) e = Ok fs).
  { intros e He. destruct (Hin e He) as [H1 H2]. unfold CompModel.get_facts_by_concept, CompModel.get_facts_by_concept_name, get_typed_by_qname, get_by_qname.
    unfold get_all_report_elements in H1. rewrite Er in *. rewrite (proj2 (repo_get reg Hn (e_name e) e)) by auto. cbn [bind].
    rewrite (proj2 (is_concept_kind e) H2). cbn [bind]. clear -Hc.
    induction (get_all_facts f) as [|x fs IH]; [cbn; eauto|]. cbn [CompModel.filter_concept].
    destruct (Hc x (or_introl eq_refl)) as (c & -> & _). cbn [bind]. destruct IH as (l & ->); [intros; apply Hc; right; assumption|]. cbn [bind]. eauto. }
  assert (Hls : exists ls, map_res (CompModel.get_facts_by_concept (repository_of (fl_elements f)) (get_all_facts f)) l = Ok ls).
  { clear -Hget. induction l as [|e l IH]; [cbn; eauto|]. cbn [map_res]. destruct (Hget e (or_introl eq_refl)) as (fs & ->). cbn [bind].
    destruct IH as (ls & ->); [intros; apply Hget; right; assumption|]. cbn [bind]. eauto. }
  destruct Hls as (ls & Hls). exists l, ls. split; [exact Hl|]. split.
  { intros e He. destruct (Hin e He) as [H1 H2]. unfold get_all_concepts. apply filter_In. split; [exact H1|]. unfold is_kind. rewrite H2. reflexivity. }
  split; [exact Hls|]. split; [exact (CompProps.C60_partition _ _ _ _ Hrep Hl Hls)|].
  intros c fs Hcf. assert (Hfs : CompModel.get_facts_by_concept (repository_of (fl_elements f)) (get_all_facts f) c = Ok fs).
  { clear -Hls Hcf. revert ls Hls Hcf. induction l as [|e l IH]; intros ls Hls Hcf; [destruct Hcf|]. cbn [map_res] in Hls.
    destruct (CompModel.get_facts_by_concept _ _ e) as [fs0|] eqn:E; [|discriminate]. cbn [bind] in Hls. destruct (map_res _ l) as [ls0|]; [|discriminate]. cbn [bind] in Hls.
    injection Hls as <-. destruct Hcf as [[= <- <-]|Hcf]; [exact E|]. exact (IH _ eq_refl Hcf). }
  unfold CompModel.get_facts_by_concept in Hfs. destruct (CompProps.C60_facts_by_name _ _ _ _ Hrep Hfs) as (P & HP & ->).
  intros x. rewrite filter_In. split; intros [H1 H2]; (split; [exact H1|]); apply HP; assumption.
Qed.

(** ** C91 *)

Lemma f_components : Permutation (get_all_networks f) (networks_of (fl_nets f)) /\
  NoDup (map (fun w => (LinkModel.w_kind w, LinkModel.w_role w)) (filter LinkNetProofs.logical (fl_nets f))) /\
  Forall2 (CompSpec.declares (networks_of (fl_nets f))) (flat_map CompModel.role_types docs) (fl_components f) /\
  exists l, fl_errors f = LinkModel.ls_errors (fl_links f) ++ l /\
     forall e, In e l -> exists x code role, In x (flat_map CompModel.role_types docs) /\
       attr x (u "roleURI") = Some role /\
       CompSpec.warned (networks_of (fl_nets f)) x role code /\ create code (Some x) [(u "linkrole_uri", role)] = Ok e.
Proof.   destruct f_assembled as (es1 & s & A & _). exact (FilingStages.f_components _ _ _ _ _ _ _ _ _ A). Qed.

(** A component has the presentation, calculation and (logical) definition network of its role: the only
    one there is, or none if there is none. *)
Theorem C91_components c : In c (get_all_components f) ->
  the_network f NetModel.KPresentation (CompModel.get_URI c) (CompModel.get_presentation_network c) /\
  the_network f NetModel.KCalculation (CompModel.get_URI c) (CompModel.get_calculation_network c) /\
  the_network f NetModel.KLogicalDefinition (CompModel.get_URI c) (CompModel.get_definition_network c).
Proof. destruct f_assembled as (es1 & st & A & _). eapply FilingStages.components; eassumption. Qed.

(** One component for every declared role, in document order; what is reported about components is only
    that a network is not announced by usedOn. *)
Theorem C91_warnings : exists l, fl_errors f = LinkModel.ls_errors (fl_links f) ++ l /\
  forall e, In e l -> exists x role code, In x (flat_map CompModel.role_types docs) /\ attr x (u "roleURI") = Some role /\
    create code (Some x) [(u "linkrole_uri", role)] = Ok e /\
    ((code = "PRESENTATION_NETWORK_IN_COMPONENT_WITHOUT_USEDON_ELEMENT"%string /\ ~ CompSpec.used_on x "link:presentationLink" /\
        exists w, of_kind f NetModel.KPresentation role w) \/
     (code = "CALCULATION_NETWORK_IN_COMPONENT_WITHOUT_USEDON_ELEMENT"%string /\ ~ CompSpec.used_on x "link:calculationLink" /\
        exists w, of_kind f NetModel.KCalculation role w) \/
     (code = "DEFINITION_NETWORK_IN_COMPONENT_WITHOUT_USEDON_ELEMENT"%string /\ ~ CompSpec.used_on x "link:definitionLink" /\
        exists w, of_kind f NetModel.KPhysicalDefinition role w \/ of_kind f NetModel.KLogicalDefinition role w)).
Proof. destruct f_assembled as (es1 & st & A & _). eapply FilingStages.warnings; eassumption. Qed.

(** Locators lead to report elements by id. *)
Lemma all_numbers i e : nth_error (get_all_report_elements f) i = Some e -> e_tag e = i.
Proof. destruct f_assembled as (es1 & st & A & _). eapply FilingStages.all_numbers; eassumption. Qed.



Section Usual.
Hypothesis Husual : LinkSpec.all_usual docs.

(** A report element is in a network, or below another, only if a link of the role and kind says so. *)
Theorem C91_shown_written k role w e : NetModel.is_physical k = false -> of_kind f k role w -> in_network f w e ->
  exists link outside, LinkSpec.extended_link docs link outside /\ LinkSpec.xl "role" link = Some role /\ LinkSpec.link_kind link k /\
    mentioned (get_all_report_elements f) link outside e.
Proof. destruct f_assembled as (es1 & st & A & _). eapply FilingStages.shown_written; eassumption. Qed.
Theorem C91_below_written k role w e e' : NetModel.is_physical k = false -> of_kind f k role w -> below_in f w e e' ->
  exists link outside, LinkSpec.extended_link docs link outside /\ LinkSpec.xl "role" link = Some role /\ LinkSpec.link_kind link k /\
    put_below (get_all_report_elements f) link outside e e'.
Proof. destruct f_assembled as (es1 & st & A & _). eapply FilingStages.below_written; eassumption. Qed.


(** What links without cycles say is in the network of their role and kind. *)
Theorem C91_shown_kept_partial k role link outside e : NetModel.is_physical k = false -> LinkSpec.extended_link docs link outside ->
  LinkSpec.xl "role" link = Some role -> LinkSpec.link_kind link k -> LinkSpec.no_cycle link outside -> all_anchored (get_all_report_elements f) link outside ->
  mentioned (get_all_report_elements f) link outside e -> exists w, of_kind f k role w /\ in_network f w e.
Proof. destruct f_assembled as (es1 & st & A & _). eapply FilingStages.shown_kept_partial; eassumption. Qed.
Theorem C91_below_kept_partial k role link outside e e' : NetModel.is_physical k = false -> LinkSpec.extended_link docs link outside ->
  LinkSpec.xl "role" link = Some role -> LinkSpec.link_kind link k -> LinkSpec.no_cycle link outside -> all_anchored (get_all_report_elements f) link outside ->
  put_below (get_all_report_elements f) link outside e e' -> exists w, of_kind f k role w /\ below_in f w e e'.
Proof. destruct f_assembled as (es1 & st & A & _). eapply FilingStages.below_kept_partial; eassumption. Qed.

(** Exactly what is in the networks, whatever the links are like. *)
Theorem C91_shown k role e : NetModel.is_physical k = false ->
  ((exists w, of_kind f k role w /\ in_network f w e) <->
   exists link outside, LinkSpec.extended_link docs link outside /\ LinkSpec.xl "role" link = Some role /\ LinkSpec.link_kind link k /\
     mentioned_there (get_all_report_elements f) link outside e).
Proof. destruct f_assembled as (es1 & st & A & _). eapply FilingStages.shown; eassumption. Qed.
Theorem C91_below k role e e' : NetModel.is_physical k = false ->
  ((exists w, of_kind f k role w /\ below_in f w e e') <->
   exists link outside, LinkSpec.extended_link docs link outside /\ LinkSpec.xl "role" link = Some role /\ LinkSpec.link_kind link k /\
     put_below_there (get_all_report_elements f) link outside e e').
Proof. destruct f_assembled as (es1 & st & A & _). eapply FilingStages.below; eassumption. Qed.

(** ** C92 *)

(** A report element has the labels that the label links of the documents give it, and no others. *)
Theorem C92_labels e l : In e (get_all_report_elements f) ->
  (In l (labels_in f e) <-> labelled docs (get_all_report_elements f) e l).
Proof. destruct f_assembled as (es1 & st & A & _). eapply FilingStages.labels; eassumption. Qed.

(** So the table of all labels has one line for every label of every report element. *)
Theorem C92_table line : In line (get_all_labels f) <->
  exists e l, In e (get_all_report_elements f) /\ labelled docs (get_all_report_elements f) e l /\
    line = [ (u "text", inl (LangModel.l_text l)); (u "language", inl (LangModel.l_lang l)); (u "label_role", inl (LangModel.l_role l));
             (u "report_element", inr (e_name e)) ].
Proof. destruct f_assembled as (es1 & st & A & _). eapply FilingStages.table; eassumption. Qed.
End Usual.

(** ** C94 *)

(** The report elements by kind are the report elements, each under its kind, in the same order. *)
Theorem C94_kinds : 
  Permutation (get_all_report_elements f) (get_all_concepts f ++ get_all_abstracts f ++ get_all_line_items f ++ get_all_hypercubes f ++ get_all_dimensions f ++ get_all_members f) /\
  those (fun e => e_kind e = KConcept) (get_all_report_elements f) (get_all_concepts f) /\
  those (fun e => e_kind e = KAbstract) (get_all_report_elements f) (get_all_abstracts f) /\
  those (fun e => e_kind e = KLineItems) (get_all_report_elements f) (get_all_line_items f) /\
  those (fun e => e_kind e = KHypercube) (get_all_report_elements f) (get_all_hypercubes f) /\
  those (fun e => e_kind e = KDimension) (get_all_report_elements f) (get_all_dimensions f) /\
  those (fun e => e_kind e = KMember) (get_all_report_elements f) (get_all_members f).
Proof. apply FilingStages.kinds. Qed.

(** No two report elements have the same name. *)
Theorem C94_names : NoDup (map e_name (get_all_report_elements f)).
Proof. destruct f_assembled as (es1 & st & A & _). eapply FilingStages.names; eassumption. Qed.

(** The core facts are those with no characteristics but concept, period, entity and unit. *)
Theorem C94_core x : In x (get_all_core_facts f) <->
  In x (get_all_facts f) /\ forall a c, get_characteristic (f_context x) a = Some c -> In a [u "concept"; u "period"; u "entity"; u "unit"].
Proof.
  unfold get_all_core_facts. rewrite filter_In.
  assert (Hok : In x (get_all_facts f) -> ctx_ok (f_context x)).
  { intros Hx. destruct f_facts as (os & Hos & Ef). unfold get_all_facts in Hx. rewrite Ef in Hx.
    assert (Hx' : repo_facts (fold_left facts_upsert (somes (map fst os)) empty_facts) x) by (left; exact Hx).
    apply folded_facts in Hx' as [Hx'|[[]|[]]]. apply somes_in, in_map_iff in Hx' as ([o errs] & Eo & Ho). cbn [fst] in Eo. subst o.
    clear -Hos Ho. induction Hos as [|[i el] o l l' H H' IH]; [destruct Ho|]. destruct Ho as [->|Ho]; [|exact (IH Ho)]. eapply shared_ok. exact H. }
  split; intros [Hx H]; (split; [exact Hx|]); specialize (Hok Hx).
  - intros a c Hc. unfold fact_is_core in H. rewrite forallb_forall in H.
    assert (Ha : In a (c_aspects (f_context x))) by (apply ctx_aspect_get; [exact Hok|congruence]).
    apply H in Ha. unfold is_core_aspect in Ha. apply existsb_exists in Ha as (b & Hb & E). apply str_eqb_eq in E. subst b. exact Hb.
  - unfold fact_is_core. apply forallb_forall. intros a Ha. apply ctx_aspect_get in Ha; [|exact Hok].
    destruct (get_characteristic (f_context x) a) as [c|] eqn:Ec; [|congruence]. apply H in Ec. unfold is_core_aspect. apply existsb_exists.
    exists a. split; [exact Ec|apply str_eqb_refl].
Qed.

(** The networks of the filing are those that were read, each once; the physical ones are those of the
    physical kinds. *)
Theorem C94_networks :
  Permutation (map CompModel.n_object (get_all_networks f)) (seq 0 (length (fl_nets f))) /\
  (forall n, In n (get_all_networks f) -> exists w, net_of f n = Some w /\ CompModel.n_role n = LinkModel.w_role w) /\
  (forall n, In n (get_all_physical_networks f) <->
     In n (get_all_networks f) /\ exists w, net_of f n = Some w /\
       ~ In (LinkModel.w_kind w) [NetModel.KPresentation; NetModel.KCalculation; NetModel.KLogicalDefinition]).
Proof.
  destruct f_components as (Hp & _). split; [|split].
  - eapply Permutation_trans; [apply Permutation_map, Hp|]. unfold networks_of. rewrite map_map. cbn [network_of CompModel.n_object].
    assert (E : forall (l : list nat) (ws : list LinkModel.net), length l = length ws -> map (fun x => CompModel.n_object (network_of x)) (combine l ws) = l).
    { induction l as [|a l IH]; intros [|w ws] El; try discriminate El; [reflexivity|]. cbn. f_equal. apply IH. injection El as El. exact El. }
    rewrite E by apply seq_length. reflexivity.
  - intros n Hn. eapply Permutation_in, networks_of_nth in Hn as (w & Hw & E); [|exact Hp]. exists w. split; [exact Hw|]. rewrite E. reflexivity.
  - intros n. unfold get_all_physical_networks. rewrite filter_In.
    assert (G : In n (get_all_networks f) -> exists w, net_of f n = Some w /\ CompModel.n_physical n = NetModel.is_physical (LinkModel.w_kind w)).
    { intros Hn. eapply Permutation_in, networks_of_nth in Hn as (w & Hw & E); [|exact Hp]. exists w. split; [exact Hw|]. rewrite E. reflexivity. }
    split; intros [Hn H]; (split; [exact Hn|]); destruct (G Hn) as (w & Hw & E).
    + exists w. split; [exact Hw|]. rewrite E in H. destruct (LinkModel.w_kind w); cbn in H |- *; try discriminate H; intuition discriminate.
    + destruct H as (w' & Hw' & K). assert (w' = w) by congruence. subst w'. rewrite E.
      destruct (LinkModel.w_kind w); try reflexivity; exfalso; apply K; cbn; auto.
Qed.

(** ** C93 *)


Section Names.
Hypothesis Hdocs : NoDup (map fst trees).
Hypothesis Hprefixes : ConceptLoad.prefixes_usual trees.



(** The report elements are those that are declared: for every name the first declaration that makes
    anything. *)
Theorem C93_elements q id k : In (q, id, k) (map (fun e => (e_name e, e_id e, e_kind e)) (get_all_report_elements f)) <-> declared trees q id k.
Proof. destruct f_assembled as (es1 & st & A & _). eapply FilingStages.elements; eassumption. Qed.

(** A report element is known by its position. *)
Theorem C93_positions i e : nth_error (get_all_report_elements f) i = Some e -> e_tag e = i.
Proof. apply all_numbers. Qed.

Hypothesis Hnames : names_usual trees.



(** A text finds the only report element (concept) of the filing that it means, and fails with a
    ValueError when there is none or more than one. *)
Theorem C93_lookup ord s : NetSpec.some_order ord ->
  (forall e, get_report_element_by_name ord (fl_namespaces f) (repository_of (fl_elements f)) s = Ok e <->
     only (get_all_report_elements f) (fun x => means s (e_name x)) e) /\
  (get_report_element_by_name ord (fl_namespaces f) (repository_of (fl_elements f)) s = Raise ValueError <->
     forall e, ~ only (get_all_report_elements f) (fun x => means s (e_name x)) e).
Proof. destruct f_assembled as (es1 & st & A & _). eapply FilingStages.lookup; eassumption. Qed.
Theorem C93_concept_lookup ord s : NetSpec.some_order ord ->
  (forall e, get_concept_by_name ord (fl_namespaces f) (repository_of (fl_elements f)) s = Ok e <->
     only (get_all_concepts f) (fun x => means s (e_name x)) e) /\
  (get_concept_by_name ord (fl_namespaces f) (repository_of (fl_elements f)) s = Raise ValueError <->
     forall e, ~ only (get_all_concepts f) (fun x => means s (e_name x)) e).
Proof. destruct f_assembled as (es1 & st & A & _). eapply FilingStages.concept_lookup; eassumption. Qed.
End Names.

(** ** C95 *)

Lemma found_stands i : stands_for (get_all_report_elements f) (get_all_facts f) i (find_in (fl_elements f) (fl_facts f) i).
Proof. destruct f_assembled as (es1 & st & A & _). eapply FilingStages.found_stands; eassumption. Qed.

Section Reports.
Hypothesis Hdocs : NoDup (map fst trees).
Hypothesis Hprefixes : ConceptLoad.prefixes_usual trees.
Hypothesis Husual : LinkSpec.all_usual docs.

Lemma f_reports : exists e1 e2 e3 e4, fl_errors f = es ++ e1 ++ e2 ++ e3 ++ e4 /\
  ConceptSpec.error_list trees [] (ConceptSpec.all_decls trees) e1 /\
  (exists os, Forall2 (outcome_of (concept_shared (repository_of (fl_elements f)) docs) (unit_shared docs) (entity_shared docs)
      (period_shared parse_date) (explicit_shared (repository_of (fl_elements f)) docs) (typed_shared (repository_of (fl_elements f)) docs))
      (all_fact_elements docs) os /\ e2 = concat (map snd os) /\ fl_facts f = fold_left facts_upsert (somes (map fst os)) empty_facts) /\
  (exists l l1 l2 rss, (forall x around, In (x, around) l <-> LinkSpec.extended_link docs x around) /\
      LinkSpec.in_two_parts LinkSpec.looks_standard l l1 l2 /\
      Forall2 (fun p => LinkSpec.link_reported (find_in (fl_elements f) (fl_facts f)) (fst p) (snd p)) (l1 ++ l2) rss /\
      Forall2 LinkSpec.made (concat rss) e3) /\
  exists ls, e4 = concat ls /\
    Forall2 (fun x l => exists role codes, attr x (u "roleURI") = Some role /\ NoDup codes /\
      Forall2 (fun code e => create code (Some x) [(u "linkrole_uri", role)] = Ok e) codes l /\
      forall code, In code codes <-> CompSpec.warned (networks_of (fl_nets f)) x role code) (flat_map CompModel.role_types docs) ls.
Proof.
  destruct Hreads as (eo & ro & fu & sh & Ho & Hs & H). apply filing_stages in H as (reg & es1 & s & Hd & H1 & H2 & H3 & H4 & Er & Ef & _).
  destruct (parse_facts_sem parse_date _ _ docs _ _ (start_inv parse_date _ docs es1) H2) as (_ & os & Hos & Ha1 & Ha2). cbn [s_errors s_facts] in Ha1, Ha2.
  destruct (CompProps.C49_warnings _ _ _ _ _ H4) as (ls & El & Hls). rewrite stored_upserts in Hls.
  destruct (ConceptProps.C56_errors _ _ _ _ Hdocs Hprefixes H1) as (e1 & -> & HE).
  destruct (LinkProps.C78_reports_partial _ _ _ _ _ _ _ _ _ _ _ Husual H3) as (l & l1 & l2 & rss & e3 & A1 & _ & A2 & A3 & A4 & A5).
  exists e1, (concat (map snd os)), e3, (concat ls). split; [rewrite El, A4, Ha1, <- !app_assoc; reflexivity|]. split; [exact HE|]. rewrite Er, Ef.
  split; [exists os; auto|]. split; [exists l, l1, l2, rss; auto|exists ls; auto].
Qed.

(** What is reported: what was there before, then what is wrong with declarations, with facts, with
    links, and with the announcement of networks, in this order. *)
Theorem C95_reports : exists e1 e2 e3 e4, fl_errors f = es ++ e1 ++ e2 ++ e3 ++ e4 /\
  ConceptSpec.error_list trees [] (ConceptSpec.all_decls trees) e1 /\
  (exists os, Forall2 (outcome_of (concept_shared (repository_of (fl_elements f)) docs) (unit_shared docs) (entity_shared docs)
      (period_shared parse_date) (explicit_shared (repository_of (fl_elements f)) docs) (typed_shared (repository_of (fl_elements f)) docs))
      (all_fact_elements docs) os /\ e2 = concat (map snd os) /\ fl_facts f = fold_left facts_upsert (somes (map fst os)) empty_facts) /\
  (exists find l l1 l2 rss, (forall i, stands_for (get_all_report_elements f) (get_all_facts f) i (find i)) /\
      (forall x around, In (x, around) l <-> LinkSpec.extended_link docs x around) /\
      LinkSpec.in_two_parts LinkSpec.looks_standard l l1 l2 /\
      Forall2 (fun p => LinkSpec.link_reported find (fst p) (snd p)) (l1 ++ l2) rss /\
      Forall2 LinkSpec.made (concat rss) e3) /\
  exists ls, e4 = concat ls /\
    Forall2 (fun x l => exists role codes, attr x (u "roleURI") = Some role /\ NoDup codes /\
      Forall2 (fun code e => create code (Some x) [(u "linkrole_uri", role)] = Ok e) codes l /\
      forall code, In code codes <-> CompSpec.warned (networks_of (fl_nets f)) x role code) (flat_map CompModel.role_types docs) ls.
Proof.
  destruct f_reports as (e1 & e2 & e3 & e4 & E & H1 & H2 & (l & l1 & l2 & rss & H3) & H4). exists e1, e2, e3, e4. split; [exact E|]. split; [exact H1|]. split; [exact H2|].
  split; [|exact H4]. exists (find_in (fl_elements f) (fl_facts f)), l, l1, l2, rss. split; [exact found_stands|exact H3].
Qed.

Lemma nillable_is e : In e (get_all_report_elements f) -> e_kind e = KConcept ->
  forall x, declaration_of trees (e_name e) x -> (nillable_in (fl_elements f) e = true <-> attr x (u "nillable") = Some (u "true")).
Proof. destruct f_assembled as (es1 & st & A & _). eapply FilingStages.nillable_is; eassumption. Qed.

(** What is reported about facts: the problems of the fact elements, in order, and nothing else; the
    facts are those of the fact elements whose concept, unit and context can be read. *)
Theorem C95_fact_reports_partial : one_unit docs -> one_concept (repository_of (fl_elements f)) docs -> plain_periods docs -> no_period_word parse_date ->
  exists e1 e2 rest nillable os, fl_errors f = es ++ e1 ++ e2 ++ rest /\
    ConceptSpec.error_list trees [] (ConceptSpec.all_decls trees) e1 /\
    (forall e, In e (get_all_report_elements f) -> e_kind e = KConcept ->
       forall x, declaration_of trees (e_name e) x -> (nillable e = true <-> attr x (u "nillable") = Some (u "true"))) /\
    Forall2 CtxReportSpec.made (CtxReportSpec.facts_reports parse_date (repository_of (fl_elements f)) nillable [] (all_fact_elements docs)) e2 /\
    Forall2 (fun ix o => o <> None <-> CtxReportSpec.has_fact (repository_of (fl_elements f)) (fst ix) (snd ix) = true) (all_fact_elements docs) os /\
    fl_facts f = fold_left facts_upsert (somes os) empty_facts.
Proof.
  intros U1 U2 U3 U4.
  destruct Hreads as (eo & ro & fu & sh & Ho & Hs & H). apply filing_stages in H as (reg & es1 & s & Hd & H1 & H2 & H3 & H4 & Er & Ef & _).
  assert (HN := nillable_is). rewrite Er in *.
  destruct (CtxReportProofs.facts_says parse_date _ _ docs U1 U2 U3 U4 _ _ (start_inv parse_date _ docs es1)
    (conj (fun _ => eq_refl) (fun id (K : In id []) => match K with end)) H2) as (os & Hos & [Ha1 Ha2] & HR). cbn [s_errors s_facts] in Ha1, Ha2.
  destruct (CompProps.C49_warnings _ _ _ _ _ H4) as (ls & El & _).
  destruct (ConceptProps.C56_errors _ _ _ _ Hdocs Hprefixes H1) as (e1 & -> & HE).
  destruct (LinkProps.C78_reports_partial _ _ _ _ _ _ _ _ _ _ _ Husual H3) as (l & l1 & l2 & rss & e3 & _ & _ & _ & _ & A4 & _).
  exists e1, (concat (map snd os)), (e3 ++ concat ls), (nillable_in (ConceptLoad.stored reg)), (map fst os).
  split; [rewrite El, A4, Ha1, <- !app_assoc; reflexivity|]. split; [exact HE|]. split; [exact HN|]. split; [exact HR|]. split; [|rewrite Ef; exact Ha2].
  clear -Hos. induction Hos as [|ix o l os [_ Ho] _ IH]; cbn [map]; constructor; [|exact IH]. rewrite <- Ho. destruct (fst o); cbn; split; congruence.
Qed.

(** If nothing is reported, nothing is missing. *)
Hypothesis Hclean : fl_errors f = [].


(** Every declaration that brel understands has its report element. *)
Theorem C95_declarations_kept root tns x k : In (root, tns, x) (ConceptSpec.all_decls trees) -> ConceptSpec.declares x k ->
  exists e, In e (get_all_report_elements f) /\ ConceptSpec.named (root, tns, x) (e_name e).
Proof.
  destruct f_assembled as (es1 & s & A & H & _). eapply FilingStages.declarations_kept; try eassumption.
  destruct C95_reports as (e1 & e2 & e3 & e4 & E & HE & _). rewrite Hclean in E. symmetry in E. apply app_eq_nil in E as [E0 E]. apply app_eq_nil in E as [E1 _].
  destruct (f_declaration_reports _ _ _ _ _ _ _ _ _ A Hdocs Hprefixes) as (e1' & -> & _). pose proof (clean_later _ _ _ _ _ _ _ _ _ A Husual Hclean) as E2.
  destruct (parse_facts_sem parse_date _ _ docs _ _ (start_inv parse_date _ docs (es ++ e1')) H) as (_ & os & _ & Ha & _). cbn [s_errors] in Ha. rewrite Ha in E2.
  apply app_eq_nil in E2 as [E2 _]. exact E2.
Qed.

(** Every fact element has its fact (the last, if some have the same id). *)
Theorem C95_facts_kept : exists fs,
  Forall2 (fun ix => fact_as (concept_shared (repository_of (fl_elements f)) docs) (unit_shared docs) (entity_shared docs)
      (period_shared parse_date) (explicit_shared (repository_of (fl_elements f)) docs) (typed_shared (repository_of (fl_elements f)) docs) (fst ix) (snd ix))
    (all_fact_elements docs) fs /\
  fl_facts f = fold_left facts_upsert fs empty_facts.
Proof.
  destruct C95_reports as (e1 & e2 & e3 & e4 & E & _ & (os & Hos & E2 & Ef) & _). rewrite Hclean in E. symmetry in E.
  apply app_eq_nil in E as [_ E]. apply app_eq_nil in E as [_ E]. apply app_eq_nil in E as [E _]. rewrite E2 in E. exists (somes (map fst os)). split; [|exact Ef].
  clear Ef E2. revert E. induction Hos as [|ix [o er] l l' H H' IH]; intros E; [constructor|]. cbn [map concat snd] in E. apply app_eq_nil in E as [-> E]. cbn [map fst] in *.
  unfold outcome_of in H. cbn [fst snd] in H. destruct o as [y|]; [|congruence]. cbn [somes]. constructor; [exact H|exact (IH E)].
Qed.

Lemma fact_as_id C U E P X T i x y : fact_as C U E P X T i x y -> f_id y = attr x (u "id").
Proof. intros (cid & xc & e & us & _ & _ & _ & _ & _ & _ & H & _). exact H. Qed.
Theorem C95_each_fact i x : fact_ids_distinct docs -> In (i, x) (all_fact_elements docs) ->
  exists y, fact_as (concept_shared (repository_of (fl_elements f)) docs) (unit_shared docs) (entity_shared docs)
      (period_shared parse_date) (explicit_shared (repository_of (fl_elements f)) docs) (typed_shared (repository_of (fl_elements f)) docs) i x y /\
    match attr x (u "id") with
    | Some id => In y (get_all_facts f) /\ facts_get_by_id (fl_facts f) id = Ok y
    | None => In y (fr_without_id (fl_facts f))
    end.
Proof.
  intros Hd Hi. destruct C95_facts_kept as (fs & HF & Ef).
  apply in_split in Hi as (a & b & Ea). rewrite Ea in HF. apply Forall2_app_inv_l in HF as (fa & fb & HA & HB & ->).
  inversion HB as [|ix y lb fb' Hy HB']; subst. cbn [fst snd] in Hy. exists y. split; [exact Hy|].
  assert (Ey : f_id y = attr x (u "id")) by (eapply fact_as_id, Hy).
  assert (K : kept (fl_facts f) y).
  { rewrite Ef, fold_left_app. cbn [fold_left]. apply kept_rest; [apply kept_new|]. intros z id Hz Eid.
    assert (Hz' : exists ix, In ix b /\ f_id z = attr (snd ix) (u "id")).
    { clear -HB' Hz. induction HB' as [|ix z' l l' H H' IH]; [destruct Hz|]. destruct Hz as [->|Hz].
      - exists ix. split; [left; reflexivity|eapply fact_as_id, H].
      - destruct (IH Hz) as (ix' & Hin & E). exists ix'. split; [right; exact Hin|exact E]. }
    destruct Hz' as (ix & Hin & ->). apply in_split in Hin as (b1 & b2 & ->). eapply (Hd a (i, x) b1 ix b2); [exact Ea|]. cbn [snd]. congruence. }
  destruct (attr x (u "id")) as [id|]; [|unfold kept in K; rewrite Ey in K; exact K].
  destruct (kept_get _ _ id K Ey) as [K1 K2]. split; assumption.
Qed.

(** Nothing is wrong with the links. *)
Theorem C95_links_sound link outside : LinkSpec.extended_link docs link outside -> sound_link f link outside.
Proof. destruct f_assembled as (es1 & st & A & _). eapply FilingStages.links_sound; eassumption. Qed.


(** Every network of a declared role is announced by it. *)
Theorem C95_announced x role : In x (flat_map CompModel.role_types docs) -> attr x (u "roleURI") = Some role ->
  ((exists w, of_kind f NetModel.KPresentation role w) -> CompSpec.used_on x "link:presentationLink") /\
  ((exists w, of_kind f NetModel.KCalculation role w) -> CompSpec.used_on x "link:calculationLink") /\
  ((exists w, of_kind f NetModel.KLogicalDefinition role w \/ of_kind f NetModel.KPhysicalDefinition role w) -> CompSpec.used_on x "link:definitionLink").
Proof. destruct f_assembled as (es1 & st & A & _). eapply FilingStages.announced; eassumption. Qed.
End Reports.
End Read.

(** ** C96 *)


(** Reading the same documents again gives the same filing: only the order of labels and what networks
    look like inside can differ. *)
Theorem C96_same trees es f1 f2 : reads trees es f1 -> reads trees es f2 ->
  get_all_report_elements f1 = get_all_report_elements f2 /\ get_all_facts f1 = get_all_facts f2 /\ fl_namespaces f1 = fl_namespaces f2 /\
  fl_errors f1 = fl_errors f2 /\ get_all_networks f1 = get_all_networks f2 /\ get_all_components f1 = get_all_components f2 /\
  forall e, Permutation (labels_in f1 e) (labels_in f2 e).
Proof.
  intros R1 R2. destruct (f_assembled _ _ _ R1) as (es1 & s1 & A1 & B1 & F1), (f_assembled _ _ _ R2) as (es2 & s2 & A2 & B2 & F2).
  pose proof (as_declared _ _ _ _ _ _ _ _ _ A1) as D1. pose proof (as_declared _ _ _ _ _ _ _ _ _ A2) as D2. rewrite D1 in D2. injection D2 as Ee <-. rewrite Ee, B2 in B1.
  injection B1 as ->. destruct (same _ _ _ _ _ _ _ _ _ _ _ _ A1 A2) as (S1 & S2 & S3 & (l & S4 & S5) & S6 & S7 & S8); [congruence|reflexivity|].
  rewrite <- S5 in S4. repeat (split; [assumption|]). assumption.
Qed.

(** Corresponding networks have the same content: logical networks show the same report elements, in the
    same relations; physical ones have the same nodes but for the order of siblings. *)
Theorem C96_same_content trees es f1 f2 i w1 w2 : reads trees es f1 -> reads trees es f2 ->
  nth_error (fl_nets f1) i = Some w1 -> nth_error (fl_nets f2) i = Some w2 -> NetModel.is_physical (LinkModel.w_kind w1) = false ->
  LinkModel.w_kind w1 = LinkModel.w_kind w2 /\ LinkModel.w_role w1 = LinkModel.w_role w2 /\
  (forall e, in_network f1 w1 e <-> in_network f2 w2 e) /\ (forall e e', below_in f1 w1 e e' <-> below_in f2 w2 e e').
Proof.
  intros R1 R2. destruct (f_assembled _ _ _ R1) as (es1 & s1 & A1 & B1 & F1), (f_assembled _ _ _ R2) as (es2 & s2 & A2 & B2 & F2).
  pose proof (as_declared _ _ _ _ _ _ _ _ _ A1) as D1. pose proof (as_declared _ _ _ _ _ _ _ _ _ A2) as D2. rewrite D1 in D2. injection D2 as Ee <-. rewrite Ee, B2 in B1.
  injection B1 as ->. eapply same_content; [exact A1|exact A2|congruence].
Qed.
Theorem C96_same_physical trees es f1 f2 w1 : reads trees es f1 -> reads trees es f2 ->
  In w1 (fl_nets f1) -> NetModel.is_physical (LinkModel.w_kind w1) = true ->
  exists w2, In w2 (fl_nets f2) /\ LinkModel.w_kind w1 = LinkModel.w_kind w2 /\ LinkModel.w_role w1 = LinkModel.w_role w2 /\
    LinkSpec.same_tree (LinkModel.ls_heap (fl_links f1)) (LinkModel.ls_heap (fl_links f2)) (LinkModel.w_roots w1) (LinkModel.w_roots w2).
Proof.
  intros R1 R2. destruct (f_assembled _ _ _ R1) as (es1 & s1 & A1 & B1 & F1), (f_assembled _ _ _ R2) as (es2 & s2 & A2 & B2 & F2).
  pose proof (as_declared _ _ _ _ _ _ _ _ _ A1) as D1. pose proof (as_declared _ _ _ _ _ _ _ _ _ A2) as D2. rewrite D1 in D2. injection D2 as Ee <-. rewrite Ee, B2 in B1.
  injection B1 as ->. eapply same_physical; [exact A1|exact A2|congruence].
Qed.
End Filing.

(** ** An example *)

Definition x_scope0 : scope :=
  [(Some (u "xs"), u "http://www.w3.org/2001/XMLSchema"); (Some (u "t"), u "urn:t"); (Some (u "xbrldt"), u "http://xbrl.org/2005/xbrldt");
   (Some (u "link"), u "http://www.xbrl.org/2003/linkbase")].
Definition x_decl (attrs : list (str * str)) : xml := Xml (Some (u "{http://www.w3.org/2001/XMLSchema}element")) attrs x_scope0 None [].
Definition x_instance (n : string) : str := u "{http://www.xbrl.org/2003/instance}" ++ u n.
Definition x_cash : xml := x_decl [(u "name", u "Cash"); (u "id", u "t_Cash"); (u "substitutionGroup", u "xbrli:item"); (u "type", u "xbrli:monetaryItemType"); (x_instance "periodType", u "instant")].
Definition x_assets : xml := x_decl [(u "name", u "Assets"); (u "id", u "t_Assets"); (u "abstract", u "true"); (u "substitutionGroup", u "xbrli:item"); (u "type", u "xbrli:stringItemType")].
Definition x_role : xml := Xml (Some (u "{http://www.xbrl.org/2003/linkbase}roleType")) [(u "roleURI", u "r")] x_scope0 None
  [Xml (Some (u "{http://www.xbrl.org/2003/linkbase}definition")) [] x_scope0 (Some (u "Balance sheet")) [];
   Xml (Some (u "{http://www.xbrl.org/2003/linkbase}usedOn")) [] x_scope0 (Some (u "link:presentationLink")) []].
Definition x_schema : xml := Xml (Some (u "{http://www.w3.org/2001/XMLSchema}schema")) [(u "targetNamespace", u "urn:t")] x_scope0 None [x_role; x_cash; x_assets].
Definition x_instance_doc : xml := CtxProps.s_instance [CtxProps.c1; CtxProps.f1].
Definition x_link : xml := LinkProps.l_link "presentationLink" "r"
  [LinkProps.l_loc "a" "t_Assets"; LinkProps.l_loc "c" "t_Cash"; LinkProps.l_arc "pc" "a" "c"].
Definition x_labels : xml := LinkProps.l_link "labelLink" "r"
  [LinkProps.l_loc "c" "t_Cash"; LinkProps.en (LinkProps.l_res "x" "std" "Cash"); LinkProps.en (LinkProps.l_res "y" "terse" "Money");
   LinkProps.l_arc "cl" "c" "x"; LinkProps.l_arc "cl" "c" "y"].
Definition x_trees : list (str * xml) :=
  [(u "a.xsd", x_schema); (u "i.xml", x_instance_doc); (u "pre.xml", LinkProps.l_doc [x_link]); (u "lab.xml", LinkProps.l_doc [x_labels])].
Definition x_read (eo : list NetModel.edge -> list NetModel.edge) : res filing :=
  parse_filing CtxProps.iso_date (fun _ => []) (fun _ => 1%Q) (fun _ => eo) (fun _ l => l) 100 (fun l => l) x_trees [].
Definition x_first : element := Element (QName (u "urn:t") (u "t") (u "Cash")) (Some (u "t_Cash")) KConcept 0.
Definition x_elements : list element := [x_first; Element (QName (u "urn:t") (u "t") (u "Assets")) (Some (u "t_Assets")) KAbstract 1].
Definition x_reads : filing -> Prop := reads CtxProps.iso_date (fun _ => []) (fun _ => 1%Q) x_trees [].

(** It can be read, without a report, in every order that sets have. *)
Definition x_seen (f : filing) : Prop :=
  fl_errors f = [] /\ map (fun e => (q_local (e_name e), e_kind e)) (get_all_report_elements f) = [(u "Cash", KConcept); (u "Assets", KAbstract)] /\
  map f_value (get_all_facts f) = [u "7"] /\ map LinkModel.w_kind (fl_nets f) = [NetModel.KLabel; NetModel.KPresentation] /\
  map (fun e => map LangModel.l_text (labels_in f e)) (get_all_report_elements f) = [[u "Cash"; u "Money"]; []] /\
  map (fun c => (CompModel.c_uri c, option_map CompModel.n_object (CompModel.c_presentation c))) (get_all_components f) = [(u "r", Some 1)].

Lemma read_case (r : res filing) (P : filing -> Prop) : match r with Ok f => P f | Raise _ => False end -> exists f, r = Ok f /\ P f.
Proof. destruct r as [f|]; [eauto|intros []]. Qed.
Lemma x_read_reads eo f : LinkSpec.orders (fun _ => eo) (fun _ l => l) -> x_read eo = Ok f -> x_reads f.
Proof. unfold x_read, x_reads, reads. generalize x_trees. intros trees O E. exists (fun _ => eo), (fun _ l => l), 100, (fun l => l). split; [exact O|]. split; [intros l; apply Permutation_refl|exact E]. Qed.

Example C89_example : exists f, x_reads f /\ x_seen f.
Proof.
  destruct (read_case (x_read (fun l => l)) x_seen) as (f & E & S); [vm_compute; repeat split|]. exists f. split; [|exact S].
  apply (x_read_reads _ f LinkProps.same_order E).
Qed.

(** In another order of the arcs, labels are in another order. *)
Example C96_example : exists f1 f2, x_reads f1 /\ x_reads f2 /\
  map (fun e => map LangModel.l_text (labels_in f1 e)) (get_all_report_elements f1) = [[u "Cash"; u "Money"]; []] /\
  map (fun e => map LangModel.l_text (labels_in f2 e)) (get_all_report_elements f2) = [[u "Money"; u "Cash"]; []].
Proof.
  destruct (read_case (x_read (fun l => l)) (fun f => map (fun e => map LangModel.l_text (labels_in f e)) (get_all_report_elements f) = [[u "Cash"; u "Money"]; []]))
    as (f1 & E1 & S1); [vm_compute; reflexivity|].
  destruct (read_case (x_read (@rev NetModel.edge)) (fun f => map (fun e => map LangModel.l_text (labels_in f e)) (get_all_report_elements f) = [[u "Money"; u "Cash"]; []]))
    as (f2 & E2 & S2); [vm_compute; reflexivity|].
  exists f1, f2. split; [apply (x_read_reads _ f1 LinkProps.same_order E1)|]. split; [|split; assumption].
  refine (x_read_reads _ f2 _ E2). split; intros n l; [apply Permutation_rev|apply Permutation_refl].
Qed.

(** Its documents meet the hypotheses of the theorems. *)
Lemma x_links link outside : LinkSpec.extended_link (dict_values x_trees) link outside ->
  (link = x_link /\ outside = [LinkProps.l_doc [x_link]]) \/ (link = x_labels /\ outside = [LinkProps.l_doc [x_labels]]).
Proof.
  intros H. apply LinkProofs.in_all_links in H.
  assert (E : LinkModel.all_links (dict_values x_trees) = [(x_link, [LinkProps.l_doc [x_link]]); (x_labels, [LinkProps.l_doc [x_labels]])]) by (vm_compute; reflexivity).
  rewrite E in H. destruct H as [H|[H|[]]]; [left|right]; split; congruence.
Qed.
Lemma usual_kids l : forallb (fun q => match dict_get key_eqb (x_scope q) (Some (u "xlink")) with Some s => str_eqb s LinkSpec.XLINK | None => false end) l = true -> forall x, In x l -> LinkSpec.usual x.
Proof.
  intros H x Hx. pose proof (proj1 (forallb_forall _ _) H x Hx) as Hu. cbv beta in Hu. unfold LinkSpec.usual.
  destruct (dict_get key_eqb (x_scope x) (Some (u "xlink"))) as [s|]; [|discriminate]. f_equal. destruct (str_eqb_spec s LinkSpec.XLINK); [assumption|discriminate].
Qed.
Example C91_example_usual : LinkSpec.all_usual (dict_values x_trees).
Proof.
  intros link outside H.
  assert (K : forallb (fun q => match dict_get key_eqb (x_scope q) (Some (u "xlink")) with Some s => str_eqb s LinkSpec.XLINK | None => false end)
    (link :: map fst (LinkModel.inner outside link)) = true) by (destruct (x_links _ _ H) as [[-> ->]|[-> ->]]; vm_compute; reflexivity).
  split; [exact (usual_kids _ K link (or_introl eq_refl))|]. intros x around Hi. apply LinkProofs.inner_inside in Hi.
  apply (usual_kids _ K x). right. apply in_map_iff. exists (x, around). auto.
Qed.
Lemma arcs_of link outside arc aa : LinkSpec.element_of link outside "arc" arc aa -> In arc (map fst (LinkSpec.elements_of link outside ["arc"%string])).
Proof.
  intros (Hi & Ht & Hy). apply LinkProofs.inner_inside in Hi. apply in_map_iff. exists (arc, aa). split; [reflexivity|]. apply filter_In. split; [exact Hi|]. cbn [fst].
  rewrite Hy. destruct (x_tag arc); [|congruence]. cbn [existsb]. destruct (str_eqb_spec (u "arc") (u "arc")); [reflexivity|congruence].
Qed.
Example C91_example_links f : x_reads f -> forall link outside, LinkSpec.extended_link (dict_values x_trees) link outside ->
  LinkSpec.no_cycle link outside /\ all_anchored (get_all_report_elements f) link outside.
Proof.
  intros R link outside H. destruct (read_case (x_read (fun l => l)) (fun f => get_all_report_elements f = x_elements)) as (f0 & E0 & S0); [vm_compute; reflexivity|].
  rewrite (proj1 (C96_same _ _ _ _ _ _ _ R (x_read_reads _ f0 LinkProps.same_order E0))), S0. clear f R f0 E0 S0.
  assert (A : forall arc aa, LinkSpec.element_of link outside "arc" arc aa ->
    (LinkSpec.xl "from" arc = Some (u "a") /\ LinkSpec.xl "to" arc = Some (u "c") /\ link = x_link) \/
    (LinkSpec.xl "from" arc = Some (u "c") /\ (LinkSpec.xl "to" arc = Some (u "x") \/ LinkSpec.xl "to" arc = Some (u "y")) /\ link = x_labels)).
  { intros arc aa Ha. apply arcs_of in Ha. destruct (x_links _ _ H) as [[-> ->]|[-> ->]].
    - left. assert (E : map fst (LinkSpec.elements_of x_link [LinkProps.l_doc [x_link]] ["arc"%string]) = [LinkProps.l_arc "pc" "a" "c"]) by (vm_compute; reflexivity).
      rewrite E in Ha. destruct Ha as [<-|[]]. split; [vm_compute; reflexivity|]. split; [vm_compute; reflexivity|reflexivity].
    - right. assert (E : map fst (LinkSpec.elements_of x_labels [LinkProps.l_doc [x_labels]] ["arc"%string]) = [LinkProps.l_arc "cl" "c" "x"; LinkProps.l_arc "cl" "c" "y"]) by (vm_compute; reflexivity).
      rewrite E in Ha. destruct Ha as [<-|[<-|[]]]; (split; [vm_compute; reflexivity|]); (split; [|reflexivity]); [left|right]; vm_compute; reflexivity. }
  split.
  - assert (C : forall s t, LinkSpec.chain link outside s t -> (s = u "a" /\ t = u "c") \/ (s = u "c" /\ (t = u "x" \/ t = u "y"))).
    { assert (D : forall s t : str, ((s = u "a" /\ t = u "c") \/ (s = u "c" /\ (t = u "x" \/ t = u "y"))) -> (t = u "a" \/ t = u "c") -> t = u "c" /\ s = u "a").
      { intros s t [[-> ->]|[-> [->| ->]]] [D|D]; try (exfalso; revert D; vm_compute; discriminate); auto. }
      intros s t K. induction K as [arc aa t Ha Hf Ht|arc aa t v K IH Ha Hf Ht].
      - destruct (A arc aa Ha) as [(F & T & _)|(F & [T|T] & _)]; [left|right|right]; split; first [congruence|left; congruence|right; congruence].
      - exfalso. destruct (A arc aa Ha) as [(F & T & L)|(F & T & L)].
        + assert (t = u "a") by congruence. destruct (D _ _ IH) as [D1 _]; [auto|]. assert (X : u "a" = u "c") by congruence. revert X. vm_compute. discriminate.
        + assert (t = u "c") by congruence. destruct (D _ _ IH) as [_ D1]; [auto|]. subst s. clear -K A L. exfalso.
          assert (N : forall t, ~ LinkSpec.chain link outside (u "a") t).
          { intros t' K'. induction K' as [arc aa t' Ha Hf Ht|arc aa t' v K' IH]; [|exact IH]. destruct (A arc aa Ha) as [(_ & _ & L')|(F & _ & _)].
            - assert (X : x_link = x_labels) by congruence. apply (f_equal x_tag) in X. revert X. vm_compute. discriminate.
            - assert (X : u "a" = u "c") by congruence. revert X. vm_compute. discriminate. }
          exact (N _ K). }
    intros s K. apply C in K as [[-> K]|[-> [K|K]]]; revert K; vm_compute; discriminate.
  - intros arc aa Ha. destruct (x_links _ _ H) as [[-> ->]|[-> ->]].
    + destruct (A arc aa Ha) as [(F & _)|(_ & _ & L)]; [|apply (f_equal x_tag) in L; revert L; vm_compute; discriminate].
      exists (LinkProps.l_loc "a" "t_Assets"), [x_link; LinkProps.l_doc [x_link]], (nth 1 x_elements x_first). rewrite F.
      split; [|split; [|vm_compute; reflexivity]].
      * split; [apply LinkSpec.inside_kid; left; reflexivity|]. split; [discriminate|vm_compute; reflexivity].
      * exists (u "a.xsd#t_Assets"). split; [vm_compute; reflexivity|]. exists [x_first], []. split; [reflexivity|]. split; [vm_compute; reflexivity|intros z []].
    + destruct (A arc aa Ha) as [(_ & _ & L)|(F & _)]; [apply (f_equal x_tag) in L; revert L; vm_compute; discriminate|].
      exists (LinkProps.l_loc "c" "t_Cash"), [x_labels; LinkProps.l_doc [x_labels]], x_first. rewrite F.
      split; [|split; [|vm_compute; reflexivity]].
      * split; [apply LinkSpec.inside_kid; left; reflexivity|]. split; [discriminate|vm_compute; reflexivity].
      * exists (u "a.xsd#t_Cash"). split; [vm_compute; reflexivity|]. exists [], [nth 1 x_elements x_first]. split; [reflexivity|]. split; [vm_compute; reflexivity|].
        intros z [<-|[]]. vm_compute. discriminate.
Qed.

(** So the presentation network shows the cash under the assets. *)
Example C91_example f : x_reads f -> exists w, of_kind f NetModel.KPresentation (u "r") w /\ below_in f w (nth 1 x_elements x_first) x_first.
Proof.
  intros R. assert (X : LinkSpec.extended_link (dict_values x_trees) x_link [LinkProps.l_doc [x_link]]).
  { apply LinkProofs.in_all_links.
    assert (E : LinkModel.all_links (dict_values x_trees) = [(x_link, [LinkProps.l_doc [x_link]]); (x_labels, [LinkProps.l_doc [x_labels]])]) by (vm_compute; reflexivity).
    rewrite E. left. reflexivity. }
  assert (Es : get_all_report_elements f = x_elements).
  { destruct (read_case (x_read (fun l => l)) (fun f => get_all_report_elements f = x_elements)) as (f0 & E0 & S0); [vm_compute; reflexivity|].
    rewrite (proj1 (C96_same _ _ _ _ _ _ _ R (x_read_reads _ f0 LinkProps.same_order E0))). exact S0. }
  apply (C91_below_kept_partial _ _ _ _ _ _ R C91_example_usual NetModel.KPresentation (u "r") x_link [LinkProps.l_doc [x_link]]); [reflexivity|exact X|vm_compute; reflexivity| | | |].
  - eexists. split; [reflexivity|]. cbv zeta. exists (u "{http://www.xbrl.org/2003/linkbase}"), []. vm_compute. reflexivity.
  - apply (C91_example_links f R), X.
  - apply (C91_example_links f R), X.
  - rewrite Es.
    exists (LinkProps.l_arc "pc" "a" "c"), [x_link; LinkProps.l_doc [x_link]], (LinkProps.l_loc "a" "t_Assets"), [x_link; LinkProps.l_doc [x_link]], (LinkProps.l_loc "c" "t_Cash"), [x_link; LinkProps.l_doc [x_link]].
    split; [split; [apply LinkSpec.inside_kid; right; right; left; reflexivity|split; [discriminate|vm_compute; reflexivity]]|].
    split; [split; [apply LinkSpec.inside_kid; left; reflexivity|split; [discriminate|vm_compute; reflexivity]]|].
    split; [split; [apply LinkSpec.inside_kid; right; left; reflexivity|split; [discriminate|vm_compute; reflexivity]]|].
    split; [vm_compute; reflexivity|]. split; [vm_compute; reflexivity|]. split.
    + exists (u "a.xsd#t_Assets"). split; [vm_compute; reflexivity|]. exists [x_first], []. split; [reflexivity|]. split; [vm_compute; reflexivity|intros z []].
    + exists (u "a.xsd#t_Cash"). split; [vm_compute; reflexivity|]. exists [], [nth 1 x_elements x_first]. split; [reflexivity|]. split; [vm_compute; reflexivity|].
      intros z [<-|[]]. vm_compute. discriminate.
Qed.

Example C93_example : NoDup (map fst x_trees) /\ ConceptLoad.prefixes_usual x_trees /\ names_usual x_trees /\ fact_ids_distinct (dict_values x_trees).
Proof.
  assert (D : ConceptSpec.all_decls x_trees = [(x_schema, u "urn:t", x_cash); (x_schema, u "urn:t", x_assets)]) by (vm_compute; reflexivity).
  split; [|split; [|split]].
  - constructor; [intros K; cbn [map fst In x_trees] in K; destruct K as [K|[K|[K|[]]]]; revert K; vm_compute; discriminate|].
    constructor; [intros K; cbn [map fst In x_trees] in K; destruct K as [K|[K|[]]]; revert K; vm_compute; discriminate|].
    constructor; [intros K; cbn [map fst In x_trees] in K; destruct K as [K|[]]; revert K; vm_compute; discriminate|].
    constructor; [intros []|constructor].
  - intros root tns x Hx _. rewrite D in Hx. assert (Sx : x_scope x = x_scope0) by (destruct Hx as [Hx|[Hx|[]]]; injection Hx as _ _ <-; reflexivity).
    unfold ConceptSpec.usual_prefix. rewrite Sx. split; [|right; right; left; reflexivity]. cbn [map fst x_scope0].
    repeat (constructor; [intros K; cbn [In] in K; repeat (destruct K as [K|K]; [revert K; vm_compute; discriminate|]); exact K|]). constructor.
  - intros root tns x name Hx Hn. rewrite D in Hx. assert (Sx : x_scope x = x_scope0) by (destruct Hx as [Hx|[Hx|[]]]; injection Hx as _ _ <-; reflexivity). rewrite Sx.
    assert (Et : tns = u "urn:t") by (destruct Hx as [Hx|[Hx|[]]]; congruence). subst tns.
    split; [vm_compute; discriminate|]. split; [intros K; vm_compute in K; repeat (destruct K as [K|K]; [discriminate K|]); exact K|].
    assert (En : name = u "Cash" \/ name = u "Assets").
    { destruct Hx as [Hx|[Hx|[]]]; [left|right]; assert (Ex : x = x_cash \/ x = x_assets) by (first [left; congruence|right; congruence]);
        [assert (Ey : x = x_cash) by congruence|assert (Ey : x = x_assets) by congruence]; rewrite Ey in Hn; vm_compute in Hn; injection Hn as <-; vm_compute; reflexivity. }
    split; [destruct En as [->| ->]; vm_compute; discriminate|]. split; [destruct En as [->| ->]; intros K; vm_compute in K; repeat (destruct K as [K|K]; [discriminate K|]); exact K|].
    split; [exists (u "t"); right; left; reflexivity|]. intros K. cbn [In x_scope0] in K. repeat (destruct K as [K|K]; [discriminate K|]). exact K.
  - intros a ix b ix' c i E _. exfalso. assert (L : length (all_fact_elements (dict_values x_trees)) = 1) by (vm_compute; reflexivity).
    rewrite E, !app_length in L. cbn [length] in L. rewrite app_length in L. cbn [length] in L. lia.
Qed.

(** The facts of its documents meet the conditions of [C95_fact_reports_partial]. *)
Example C95_example f : x_reads f ->
  one_unit (dict_values x_trees) /\ one_concept (repository_of (fl_elements f)) (dict_values x_trees) /\ plain_periods (dict_values x_trees) /\
  no_period_word CtxProps.iso_date.
Proof.
  intros R. split; [|split; [|split; [|exact CtxProps.sample_no_period_word]]].
  - intros i j id x y Hi _ F _. exfalso. apply find_some in F as [F E]. apply andb_true_iff in E as [E _].
    assert (K : forallb (fun d => forallb (fun k => negb (has_local (u "unit") k)) (x_kids d)) (dict_values x_trees) = true) by (vm_compute; reflexivity).
    rewrite forallb_forall in K. specialize (K i Hi). rewrite forallb_forall in K. specialize (K x F). rewrite E in K. discriminate K.
  - assert (G : forall x tag e, names_concept (repository_of (fl_elements f)) x tag e -> e = x_first).
    { intros x tag e (_ & q & _ & Hg).
      assert (Es : get_all_report_elements f = x_elements).
      { destruct (read_case (x_read (fun l => l)) (fun f => get_all_report_elements f = x_elements)) as (f0 & E0 & S0); [vm_compute; reflexivity|].
        rewrite (proj1 (C96_same _ _ _ _ _ _ _ R (x_read_reads _ f0 LinkProps.same_order E0))). exact S0. }
      unfold get_typed_by_qname, get_by_qname in Hg. destruct (dict_get qname_eqb (by_qname (repository_of (fl_elements f))) q) as [e'|] eqn:Ed; [|discriminate Hg].
      cbn [bind] in Hg. destruct (is_concept e') eqn:Ek; [|discriminate Hg]. injection Hg as <-.
      apply (dict_get_in _ qname_eqb_spec) in Ed. assert (Hin : In e' (get_all_report_elements f)) by (apply in_map_iff; eexists; split; [|exact Ed]; reflexivity).
      rewrite Es in Hin. destruct Hin as [<-|[<-|[]]]; [reflexivity|discriminate Ek]. }
    intros x y tag e e' _ _ H1 H2. rewrite (G _ _ _ H1), (G _ _ _ H2). reflexivity.
  - assert (K : forallb (fun d => forallb (fun x => forallb (fun n => match find_kid n x with
        Some i => match x_text i with Some t => negb (mem_char (ch " ") t) | None => true end | None => true end) [u "instant"; u "startDate"; u "endDate"])
        (descendants d)) (dict_values x_trees) = true) by (vm_compute; reflexivity).
    intros x (d & Hd & Hx) n i t Hn Hf Ht Hs. rewrite forallb_forall in K. specialize (K d Hd). rewrite forallb_forall in K. specialize (K x Hx).
    rewrite forallb_forall in K. specialize (K n Hn). rewrite Hf, Ht in K. apply negb_true_iff in K.
    assert (mem_char (ch " ") t = true) by (apply DtsRefs.mem_char_In; exact Hs). congruence.
Qed.

Print Assumptions C59_filing_refuted.
Print Assumptions C89_facts.
Print Assumptions C89_nodes.
Print Assumptions C90_reported.
Print Assumptions C91_components.
Print Assumptions C91_warnings.
Print Assumptions C91_shown_written.
Print Assumptions C91_below_written.
Print Assumptions C91_shown_kept_partial.
Print Assumptions C91_below_kept_partial.
Print Assumptions C92_labels.
Print Assumptions C92_table.
Print Assumptions C94_kinds.
Print Assumptions C94_names.
Print Assumptions C94_core.
Print Assumptions C94_networks.
Print Assumptions C93_elements.
Print Assumptions C93_positions.
Print Assumptions C93_lookup.
Print Assumptions C93_concept_lookup.
Print Assumptions C95_reports.
Print Assumptions C95_fact_reports_partial.
Print Assumptions C95_declarations_kept.
Print Assumptions C95_facts_kept.
Print Assumptions C95_each_fact.
Print Assumptions C95_links_sound.
Print Assumptions C95_announced.
Print Assumptions C96_same.
Print Assumptions C96_same_content.
Print Assumptions C96_same_physical.
Print Assumptions C91_shown.
Print Assumptions C91_below.
