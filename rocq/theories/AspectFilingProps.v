(** C119: what facts of a filing give for an aspect. *)
From Coq Require Import QArith Permutation.
From Verif Require Import Base Regex RegexProofs QNameModel QNameSpec QNameProofs ErrBase ErrTable ErrModel NumModel DateModel CtxModel CtxSpec CtxProofs InlineModel InlineSpec
  InlineFilingModel InlineFilingSpec InlineFilingProofs InlineFilingProps.
From Verif Require TextModel LinkModel LinkProps FootModel FootProps CtxProps InlineProps InlineSameProps ConceptSpec ConceptLoad FilingModel FilingSpec FilingProofs FilingStages FilingProps.
Local Open Scope nat_scope.
Local Opaque u create insert.

(** ** Specification *)

(** The characteristic is one for the aspect of this name: a concept for "concept" and so on; a dimension for
    its own name, written with its prefix or its namespace. *)
Definition fits (a : str) (c : characteristic) : Prop :=
  match c with
  | ChConcept _ => a = u "concept"
  | ChPeriod _ => a = u "period"
  | ChEntity _ _ => a = u "entity"
  | ChUnit _ _ _ => a = u "unit"
  | ChExplicit d _ _ | ChTyped d _ _ => a = prefix_local_notation (e_name d) \/ a = clark_notation (e_name d)
  end.
(** The names of declared elements can be written (no empty prefix: lxml has the key None for the default
    namespace). *)
Definition names_written (trees : list (str * xml)) : Prop :=
  forall root tns x name, In (root, tns, x) (ConceptSpec.all_decls trees) -> attr x (u "name") = Some name ->
    tns <> [] /\ without (ch "}") tns /\ name <> [] /\ without (ch "{") name /\ ~ In (Some []) (map fst (x_scope x)).

(** ** Names *)

Lemma clark_re_parts s c : re_match clark_re s = Some c -> exists uri l, s = to_clark uri l /\ c = [(2, l); (1, uri)].
Proof.
  intros H0. assert (G : exists p0 l', s = to_clark p0 l' /\ p0 <> [] /\ without (ch "}") p0 /\ l' <> [] /\ without (ch "{") l').
  { apply re_match_sound in H0 as (s' & H). cbn [clark_re rseq fold_right MT] in H.
    destruct H as (s1 & c1 & (E1 & _) & s2 & c2 & (c0 & p & (p0 & E2 & Hp & Lp & _ & _) & E3 & _) & s3 & c3 & (E4 & _)
                 & s5 & c5 & (c4 & l & (l0 & E5 & Hl & Ll & _ & _) & E6 & _)
                 & s6 & c6 & (He & -> & _) & (-> & _)).
    assert (Hp1 : p0 <> []) by (intros ->; cbn in Lp; lia).
    assert (Hl1 : l0 <> []) by (intros ->; cbn in Ll; lia).
    apply all_without in Hp, Hl. exists p0. apply at_end_cases in He as [-> | ->].
    - exists l0. subst s s1 s2 s3. rewrite app_nil_r. repeat split; assumption.
    - exists (l0 ++ [10%N]). subst s s1 s2 s3. repeat split; try assumption.
      + destruct l0; discriminate.
      + unfold without. rewrite in_app_iff. intros [H|[H|[]]]; [contradiction|discriminate]. }
  destruct G as (p0 & l' & -> & G1 & G2 & G3 & G4). exists p0, l'. split; [reflexivity|]. rewrite clark_re_to_clark in H0 by assumption. injection H0 as H0. symmetry. exact H0.
Qed.
(** What was written is the name, with prefix or namespace, unless it has no prefix. *)
Lemma from_str_written s sc q : qname_from_str s sc = Ok q -> q_prefix q <> [] -> s = prefix_local_notation q \/ s = clark_notation q.
Proof.
  unfold qname_from_str. destruct (re_match clark_re s) as [c|] eqn:E1.
  - unfold qname_from_clark. rewrite E1. intros [= <-] _. right. destruct (clark_re_parts _ _ E1) as (uri & l & -> & ->). reflexivity.
  - destruct (re_match colon_re s) as [c|] eqn:E2.
    + unfold qname_from_colon. rewrite E2. intros [= <-] _. left. destruct (colon_re_some _ _ E2) as (p & l & K). rewrite (colon_re_prefixed _ _ _ K) in E2. injection E2 as <-.
      destruct K as (-> & _). reflexivity.
    + intros [= <-] H. destruct H. reflexivity.
Qed.
Lemma inverted_prefix sc uri p : dict_get str_eqb (inverted sc) uri = Some p -> p = Some (u "xml") \/ In p (map fst sc).
Proof.
  destruct (str_eqb_spec uri xml_ns) as [->|N].
  - unfold inverted. rewrite (dict_get_set_same _ str_eqb_spec). intros [= <-]. left. reflexivity.
  - rewrite inverted_get by exact N. destruct (filter _ _) as [|kv l] eqn:E; [discriminate|]. intros [= <-]. right.
    assert (K : In kv (filter (fun kv => str_eqb (snd kv) uri) (rev sc))) by (rewrite E; left; reflexivity).
    apply filter_In in K as [K _]. apply in_map. apply in_rev. exact K.
Qed.
(** Declared elements have prefixes. *)
Lemma declared_prefixed trees root tns x q : names_written trees -> In (root, tns, x) (ConceptSpec.all_decls trees) -> ConceptSpec.named (root, tns, x) q -> q_prefix q <> [].
Proof.
  intros He Hd (name & Hn & Hq) Hp. destruct (He _ _ _ _ Hd Hn) as (N1 & N2 & N3 & N4 & N5). unfold qname_from_str in Hq. pose proof (clark_re_to_clark tns name N1 N2 N3 N4) as E1. rewrite E1 in Hq.
  unfold qname_from_clark in Hq. rewrite E1 in Hq. injection Hq as <-. cbn [q_prefix] in Hp.
  destruct (dict_get str_eqb (inverted (x_scope x)) _) as [p|] eqn:Ep; [|revert Hp; vm_compute; discriminate].
  destruct p as [p|]; [|revert Hp; vm_compute; discriminate]. cbn [str_opt] in Hp. subst p.
  destruct (inverted_prefix _ _ _ Ep) as [K|K]; [revert K; vm_compute; discriminate|exact (N5 K)].
Qed.

(** ** Contexts *)

Section Contexts.
Variable rep : repository.
Hypothesis Hrep : forall q d, get_typed_by_qname is_dimension rep q = Ok d -> e_name d = q /\ q_prefix q <> [].

Lemma dims_fit docs xe ds c : dimensions_are (explicit_shared rep docs) (typed_shared rep docs) xe ds -> In c ds -> fits (aspect_of c) c.
Proof.
  unfold dimensions_are. destruct (find_kid (u "segment") xe) as [seg|]; [|intros -> []].
  intros (rs & Hrs & ->) Hc. apply FilingProofs.somes_in in Hc.
  assert (Hk : exists k, dimension_is (explicit_shared rep docs) (typed_shared rep docs) k (Some c)).
  { clear -Hrs Hc. induction Hrs as [|k r ks rs Hk Hks IH]; [destruct Hc|]. destruct Hc as [->|Hc]; [eauto|apply IH, Hc]. }
  destruct Hk as (k & [[_ Hk]|(_ & _ & Hk)]).
  - destruct Hk as (dt & mt & d & m & dt' & mt' & d' & m' & y & _ & _ & (_ & _ & _ & (q & Hq & Hd) & _) & _ & ->). cbn [aspect_of fits].
    destruct (Hrep _ _ Hd) as [E P]. rewrite E. exact (from_str_written _ _ _ Hq P).
  - destruct Hk as (dt & v & d & dt' & v' & d' & y & _ & _ & (_ & _ & (q & Hq & Hd)) & _ & ->). cbn [aspect_of fits].
    destruct (Hrep _ _ Hd) as [E P]. rewrite E. exact (from_str_written _ _ _ Hq P).
Qed.
Lemma context_fits parse_date docs chars c id xp xe p en ds : (forall y, In y chars -> fits (aspect_of y) y) ->
  period_shared parse_date xp p -> entity_shared docs xe en -> dimensions_are (explicit_shared rep docs) (typed_shared rep docs) xe ds ->
  c = fold_left add_characteristic (chars ++ opt_list p ++ opt_list en ++ ds) (new_context id) ->
  ctx_ok c /\ forall a y, get_characteristic c a = Some y -> a = aspect_of y /\ fits a y.
Proof.
  intros Hch Hp He Hd ->. split; [apply fold_ok, new_ok|]. intros a y Hy. rewrite fold_get in Hy by apply new_ok.
  cbn [get_characteristic new_context c_chars find option_map] in Hy. apply find_some in Hy as [Hy Ea].
  destruct (str_eqb_spec (aspect_of y) a) as [Ea'|]; [clear Ea; subst a|discriminate Ea]. split; [reflexivity|].
  apply in_app_iff in Hy as [Hy|Hy]; [exact (Hch y Hy)|]. apply in_app_iff in Hy as [Hy|Hy].
  { destruct p as [p|]; [|destruct Hy]. destruct Hy as [<-|[]]. destruct Hp as (k & q & _ & _ & ->). reflexivity. }
  apply in_app_iff in Hy as [Hy|Hy].
  { destruct en as [en|]; [|destruct Hy]. destruct Hy as [<-|[]]. destruct He as (i1 & s1 & t1 & y1 & _ & _ & _ & ->). reflexivity. }
  exact (dims_fit _ _ _ _ Hd Hy).
Qed.
End Contexts.

(** ** Filings *)

Section Assembled.
Variable element_str : xml -> str.
Variable number : str -> Q.
Variable trees : list (str * xml).
Variables es es1 later : repo xml.
Variable notes : list CompModel.network.
Variable scopes : list scope.
Variable f : FilingModel.filing.
Hypothesis A : FilingStages.assembled element_str number trees es es1 later notes scopes f.
Hypothesis Hdocs : NoDup (map fst trees).
Hypothesis Hprefixes : ConceptLoad.prefixes_usual trees.
Hypothesis Hnames : names_written trees.
Lemma dimension_names q d : get_typed_by_qname is_dimension (FilingModel.repository_of (FilingModel.fl_elements f)) q = Ok d -> e_name d = q /\ q_prefix q <> [].
Proof.
  intros Hd. destruct (FilingStages.as_elements _ _ _ _ _ _ _ _ _ A) as (reg & Hn & Er).
  assert (Hin : In d (FilingModel.get_all_report_elements f) /\ e_name d = q).
  { unfold FilingModel.get_all_report_elements. rewrite Er in Hd |- *. apply (FilingProofs.repo_typed reg Hn) in Hd. tauto. }
  destruct Hin as [Hin En]. split; [exact En|].
  destruct (FilingStages.f_made _ _ _ _ _ _ _ _ _ A Hdocs Hprefixes d Hin) as (x & (b & [[root tns] y] & a & Ed & (Hnm & _) & _) & Ex & _).
  rewrite En in Ex. rewrite <- Ex in Hnm. apply (declared_prefixed trees root tns y q Hnames); [rewrite Ed; apply in_elt|exact Hnm].
Qed.
End Assembled.

(** The four names are not those of dimensions. *)
Lemma core_other a c : fits a c -> In a [u "concept"; u "period"; u "entity"; u "unit"] ->
  match c with ChExplicit _ _ _ | ChTyped _ _ _ => False | _ => True end.
Proof.
  assert (G : forall q, In a [u "concept"; u "period"; u "entity"; u "unit"] -> ~ (a = prefix_local_notation q \/ a = clark_notation q)).
  { intros q Ha E. assert (K : In (ch ":") a \/ In (ch "{") a).
    { destruct E as [E|E]; subst a; [left; unfold prefix_local_notation; apply in_app_iff; right; left; reflexivity|right; left; reflexivity]. }
    clear E. destruct Ha as [<-|[<-|[<-|[<-|[]]]]]; vm_compute in K; intuition discriminate. }
  intros Hf Ha. destruct c; try exact Logic.I; exact (G _ Ha Hf).
Qed.
Theorem C119_core a c : fits a c ->
  (a = u "concept" <-> exists e, c = ChConcept e) /\ (a = u "period" <-> exists p, c = ChPeriod p) /\
  (a = u "entity" <-> exists i s, c = ChEntity i s) /\ (a = u "unit" <-> exists n ns ds, c = ChUnit n ns ds).
Proof.
  intros Hf. pose proof (core_other a c Hf) as K. cbn [In] in K.
  assert (N : u "concept" <> u "period" /\ u "concept" <> u "entity" /\ u "concept" <> u "unit" /\ u "period" <> u "entity" /\ u "period" <> u "unit" /\ u "entity" <> u "unit")
    by (repeat split; vm_compute; discriminate).
  destruct N as (N1 & N2 & N3 & N4 & N5 & N6).
  destruct c as [e|i s|p|n ns ds|d m y|d v y]; cbn [fits] in Hf; (split; [|split; [|split]]); split; intros E;
    first [solve [exact Hf]|solve [eexists; reflexivity]|solve [eexists; eexists; reflexivity]|solve [eexists; eexists; eexists; reflexivity]
          |solve [destruct E as (? & E); discriminate E]|solve [destruct E as (? & ? & E); discriminate E]|solve [destruct E as (? & ? & ? & E); discriminate E]|solve [exfalso; subst a; congruence]|solve [exfalso; apply K; rewrite <- E; tauto]].
Qed.

(** *** Filings in XML *)

Section Xml.
Variable parse_date : str -> res date.
Variable element_str : xml -> str.
Variable number : str -> Q.
Variable trees : list (str * xml).
Variable es : repo xml.
Variable f : FilingModel.filing.
Hypothesis Hreads : FilingProps.reads parse_date element_str number trees es f.
Hypothesis Hdocs : NoDup (map fst trees).
Hypothesis Hprefixes : ConceptLoad.prefixes_usual trees.
Hypothesis Hnames : names_written trees.
Let docs := dict_values trees.

(** What a fact gives for an aspect is a characteristic for this aspect; it gives some for just the aspects that
    it lists, and always a concept. *)
Theorem C119_facts x : In x (FilingModel.get_all_facts f) \/ In x (fr_without_id (FilingModel.fl_facts f)) ->
  (forall a c, get_characteristic (f_context x) a = Some c -> fits a c) /\
  (forall a, In a (c_aspects (f_context x)) <-> get_characteristic (f_context x) a <> None) /\
  exists e, get_characteristic (f_context x) (u "concept") = Some (ChConcept e).
Proof.
  intros Hx. destruct (FilingProps.f_facts _ _ _ _ _ _ Hreads) as (os & Hos & Ef).
  assert (Hr : FilingProofs.repo_facts (FilingModel.fl_facts f) x) by exact Hx. rewrite Ef in Hr.
  apply FilingProofs.folded_facts in Hr as [Hr|[[]|[]]]. apply FilingProofs.somes_in, in_map_iff in Hr as ([o errs] & Eo & Hr). cbn [fst] in Eo. subst o.
  set (rep := FilingModel.repository_of (FilingModel.fl_elements f)) in *.
  assert (Hi : exists ix, outcome_of (concept_shared rep docs) (unit_shared docs) (entity_shared docs)
    (period_shared parse_date) (explicit_shared rep docs) (typed_shared rep docs) ix (Some x, errs)).
  { clear -Hos Hr. induction Hos as [|ix o l l' H H' IH]; [destruct Hr|]. destruct Hr as [->|Hr]; [eauto|exact (IH Hr)]. }
  destruct Hi as ([i el] & Hi). cbn [outcome_of fst snd] in Hi.
  pose proof (FilingProofs.shared_concept _ _ _ _ _ _ Hi) as Hcon.
  destruct Hi as (cid & xc & e & us & _ & _ & _ & Hus & (id & xp & xe & p & en & ds & _ & _ & _ & Hp & He & Hd & Hc) & _).
  destruct (FilingProps.f_assembled _ _ _ _ _ _ Hreads) as (es1 & st & A & _).
  destruct (context_fits rep (dimension_names _ _ _ _ _ _ _ _ _ A Hdocs Hprefixes Hnames) parse_date docs (ChConcept e :: us) (f_context x) id xp xe p en ds) as [K1 K2];
    [|exact Hp|exact He|exact Hd|exact Hc|].
  - intros y [<-|Hy]; [reflexivity|]. unfold units_are in Hus. destruct (attr el (u "unitRef")) as [[|ch0 r0]|]; [subst us; destruct Hy| |subst us; destruct Hy].
    destruct Hus as (c & -> & _ & j & _ & (xu & ns & ds0 & _ & _ & ->)). destruct Hy as [<-|[]]. reflexivity.
  - split; [intros a c H; apply (K2 a c H)|]. split; [intros a; apply ctx_aspect_get, K1|exact Hcon].
Qed.
End Xml.

(** *** Inline filings *)

Section Inline.
Variable e : FootModel.env.
Variable tostring : TextModel.xml -> str.
Variable parse_date : str -> res date.
Variable py_float : str -> option bool.
Variable era_valid : list (part * str) -> res bool.
Variable element_str : xml -> str.
Variable number : str -> Q.
Variable trees : list (str * tree).
Variable es : repo xml.
Variable il : inline_filing.
Hypothesis Hreads : reads_inline e tostring parse_date py_float era_valid element_str number trees es il.
Hypothesis Hdocs : NoDup (map fst trees).
Hypothesis Hprefixes : ConceptLoad.prefixes_usual (plain_trees trees).
Hypothesis Hnames : names_written (plain_trees trees).
Hypothesis Hprefix : forall p, In p (fact_places (instance_roots (dict_values trees))) -> usual_prefix p.

Theorem C119_inline_facts x : In x (FilingModel.get_all_facts (il_filing il)) \/ In x (fr_without_id (FilingModel.fl_facts (il_filing il))) ->
  (forall a c, get_characteristic (f_context x) a = Some c -> fits a c) /\
  (forall a, In a (c_aspects (f_context x)) <-> get_characteristic (f_context x) a <> None) /\
  exists c, get_characteristic (f_context x) (u "concept") = Some (ChConcept c).
Proof.
  destruct (C99_listed _ _ _ _ _ _ _ _ _ _ Hreads) as [L1 L2]. rewrite L1, L2. intros Hx.
  assert (Hy : exists y, (In y (map snd (by_id (il_facts il))) \/ In y (without_id (il_facts il))) /\ x = if_fact y).
  { destruct Hx as [Hx|Hx]; apply in_map_iff in Hx as (y & <- & Hx); [exists (snd y)|exists y]; (split; [|reflexivity]); [left; apply in_map, Hx|right; exact Hx]. }
  clear Hx L1 L2. destruct Hy as (y & Hx & ->).
  destruct (inline_read _ _ _ _ _ _ _ _ _ _ Hreads Hprefix) as (fuel & cr & es1' & r' & taken & s & s2 & nodes & us & os & ids & e1 & e2 & e3 & ec & e6 & e7 & ks & ku & kc & _ & _ & _ & _ & _ & (F1 & F2 & F3 & F4) & _).
  set (rep := FilingModel.repository_of (FilingModel.fl_elements (il_filing il))) in *. set (roots := instance_roots (dict_values trees)) in *.
  set (docs0 := [holding (resource_parts "xbrli:context" roots)]) in *.
  assert (Ho : exists n er, inline_fact rep py_float era_valid (resource_parts "xbrli:context" roots) (somes (map fst us))
             (entity_shared docs0) (period_shared parse_date) (explicit_shared rep docs0) (typed_shared rep docs0) n y er).
  { assert (Hin : In y (somes (map fst os))).
    { destruct F4 as [S1 S2]. destruct Hx as [Hx|Hx]; [|rewrite S1 in Hx; apply filter_In in Hx; tauto].
      apply in_map_iff in Hx as ([i z] & Ey & Hx). cbn [snd] in Ey. subst z.
      apply (dict_get_in_nodup _ str_eqb_spec) in Hx; [|eapply f_own; eassumption]. apply S2 in Hx as (b & d & -> & _). apply in_elt. }
    apply FilingProofs.somes_in, in_map_iff in Hin as ([o er] & Eo & Hin). cbn [fst] in Eo. subst o.
    clear -F3 Hin. induction F3 as [|n o l l' H H' IH]; [destruct Hin|]. destruct Hin as [->|Hin]; [exists n, er; exact H|exact (IH Hin)]. }
  destruct Ho as (n & er & el & vs & cid & xc & c0 & H1 & H2 & _ & _ & (id & xp & xe & p & en & ds & _ & _ & _ & Hp & He & Hd & Hc) & Hf & _).
  destruct (InlineFilingProps.f_assembled _ _ _ _ _ _ _ _ _ _ Hreads) as (es1 & later & A).
  assert (Hd' : NoDup (map fst (plain_trees trees))) by (unfold plain_trees; rewrite map_map; exact Hdocs).
  destruct (context_fits rep (dimension_names _ _ _ _ _ _ _ _ _ A Hd' Hprefixes Hnames) parse_date docs0 [] c0 id xp xe p en ds (fun y H => match H with end) Hp He Hd Hc) as [K1 K2].
  rewrite Hf.
  assert (Hvs : forall c, In c vs -> exists a b d, c = ChUnit a b d).
  { unfold fact_units in H2. intros c Hc'. destruct (attr (n_el n) (u "unitRef")) as [[|q w]|]; [destruct H2 as [-> _]; destruct Hc'| |destruct H2 as [-> _]; destruct Hc'].
    destruct H2 as [(c1 & -> & (b & a & _ & [Hu _] & _))|(-> & _)]; [|destruct Hc']. destruct Hc' as [<-|[]]. destruct c1; try discriminate Hu. eauto. }
  assert (Hg : forall a c, get_characteristic (fold_left add_characteristic (ChConcept el :: vs) c0) a = Some c -> a = aspect_of c /\ fits a c).
  { intros a c H. rewrite fold_get in H by exact K1. destruct (get_characteristic c0 a) as [z|] eqn:Ez.
    - injection H as <-. exact (K2 _ _ Ez).
    - apply find_some in H as [H Ea]. destruct (str_eqb_spec (aspect_of c) a) as [<-|]; [|discriminate Ea]. split; [reflexivity|].
      destruct H as [<-|H]; [reflexivity|]. destruct (Hvs c H) as (a & b & d & ->). reflexivity. }
  split; [intros a c H; apply (Hg a c H)|]. split; [intros a; apply ctx_aspect_get, fold_ok, K1|].
  assert (Hn : get_characteristic (fold_left add_characteristic (ChConcept el :: vs) c0) (u "concept") <> None).
  { rewrite fold_get by exact K1. destruct (get_characteristic c0 (u "concept")); [discriminate|]. cbn [find aspect_of]. unfold a_concept. rewrite str_eqb_refl. discriminate. }
  destruct (get_characteristic (fold_left _ _ _) (u "concept")) as [c|] eqn:Ec; [|congruence]. destruct (Hg _ _ Ec) as [_ G].
  destruct (proj1 (proj1 (C119_core _ _ G)) eq_refl) as (c1 & ->). eauto.
Qed.
End Inline.

(** ** Filings with a dimension *)

Definition d_decl (name sg type : string) : xml :=
  FilingProps.x_decl [(u "name", u name); (u "id", u "t_" ++ u name); (u "abstract", u "true"); (u "substitutionGroup", u sg); (u "type", u type)].
Definition d_schema : xml :=
  Xml (Some (u "{http://www.w3.org/2001/XMLSchema}schema")) [(u "targetNamespace", u "urn:t")] FilingProps.x_scope0 None
    [FilingProps.x_cash; d_decl "Axis" "xbrldt:dimensionItem" "xbrli:stringItemType"; d_decl "M1" "xbrli:item" "nonnum:domainItemType"].
(** The dimension with its prefix, or with its namespace; a third context leaves out the prefix. *)
Definition d_context (id dim : string) : xml :=
  CtxProps.s_context id (CtxProps.s_instant "2020-12-31") (CtxProps.s_entity "E1" "urn:s1" [CtxProps.s_member dim "t:M1" CtxProps.s_scope]).
Definition d_xml : xml := CtxProps.s_instance
  [d_context "c1" "t:Axis"; d_context "c2" "{urn:t}Axis"; d_context "c3" "Axis";
   CtxProps.s_fact (CtxProps.s_ref "c1" [(u "id", u "f1")]) "7"; CtxProps.s_fact (CtxProps.s_ref "c2" [(u "id", u "f2")]) "8";
   CtxProps.s_fact (CtxProps.s_ref "c3" [(u "id", u "f3")]) "9"].
Definition d_trees : list (str * xml) := [(u "a.xsd", d_schema); (u "i.xml", d_xml)].
Definition d_read : res FilingModel.filing :=
  FilingModel.parse_filing CtxProps.iso_date (fun _ => []) (fun _ => 1%Q) (fun _ l => l) (fun _ l => l) 100 (fun l => l) d_trees [].
Definition d_reads : FilingModel.filing -> Prop := FilingProps.reads CtxProps.iso_date (fun _ => []) (fun _ => 1%Q) d_trees [].
Definition shown (f : FilingModel.filing) : list (option str * list (str * str)) :=
  map (fun x => (f_id x, map (fun a => (a, match get_characteristic (f_context x) a with Some c => value_str c | None => [] end)) (c_aspects (f_context x)))) (FilingModel.get_all_facts f).
Definition d_core : list (str * str) := [(u "concept", u "t:Cash"); (u "entity", u "{urn:s1}E1"); (u "period", u "2020-12-31")].
Definition i_trees : list (str * tree) :=
  [(u "a.xsd", InlineSameProps.bare d_schema);
   (u "i.xhtml", InlineSameProps.y_page [InlineProps.i_context2] [InlineSameProps.y_elem (InlineProps.ix "nonFraction") [("name", "t:Cash"); ("contextRef", "c2"); ("unitRef", "usd"); ("id", "f9"); ("decimals", "0")]%string "3" [] ""])].
Definition i_read : res inline_filing :=
  parse_inline_filing FootProps.env0 InlineSameProps.y_tostring 100 CtxProps.iso_date (fun _ => Some false) (fun _ => Ok true) (fun _ => []) (fun _ => 1%Q)
    (fun _ l => l) (fun _ l => l) (fun l => l) i_trees [].
Definition i_reads : inline_filing -> Prop :=
  reads_inline FootProps.env0 InlineSameProps.y_tostring CtxProps.iso_date (fun _ => Some false) (fun _ => Ok true) (fun _ => []) (fun _ => 1%Q) i_trees [].
Definition i_core : list (str * str) := [(u "concept", u "t:Cash"); (u "entity", u "{urn:s}E1"); (u "period", u "2020-12-31")].
Definition d_seen (f : FilingModel.filing) : Prop :=
  shown f = [(Some (u "f1"), d_core ++ [(u "t:Axis", u "t:M1")]); (Some (u "f2"), d_core ++ [(u "{urn:t}Axis", u "t:M1")]); (Some (u "f3"), d_core)] /\
  map er_code (FilingModel.fl_errors f) = [u "010"].
Definition i_seen (g : inline_filing) : Prop :=
  shown (il_filing g) = [(Some (u "f1"), i_core ++ [(u "unit", u "usd")]); (Some (u "f9"), i_core ++ [(u "t:Axis", u "t:M1"); (u "unit", u "usd")])] /\
  FilingModel.fl_errors (il_filing g) = [].
(** The dimension is an aspect under the name that was written; without prefix it is not found, and reported. *)
Example C119_example : (exists f, d_reads f /\ d_seen f) /\ exists g, i_reads g /\ i_seen g.
Proof.
  split.
  - destruct (FilingProps.read_case d_read d_seen) as (f & E & S); [vm_compute; repeat split|]. exists f. split; [|exact S].
    clear S. revert E. unfold d_read, d_reads, FilingProps.reads. generalize d_trees. intros ts E. exists (fun _ l => l), (fun _ l => l), 100, (fun l => l).
    split; [split; intros n l; apply Permutation_refl|]. split; [intros l; apply Permutation_refl|exact E].
  - destruct (InlineSameProps.inline_case i_read i_seen) as (g & E & S); [vm_compute; repeat split|]. exists g. split; [|exact S].
    clear S. revert E. unfold i_read, i_reads, reads_inline. generalize i_trees. intros ts E. exists 100, (fun _ l => l), (fun _ l => l), (fun l => l).
    split; [exact LinkProps.same_order|]. split; [intros l; apply Permutation_refl|exact E].
Qed.
(** Their documents meet the hypotheses. *)
Lemma d_decls : ConceptSpec.all_decls d_trees =
  map (fun x => (d_schema, u "urn:t", x)) [FilingProps.x_cash; d_decl "Axis" "xbrldt:dimensionItem" "xbrli:stringItemType"; d_decl "M1" "xbrli:item" "nonnum:domainItemType"].
Proof. vm_compute. reflexivity. Qed.
Example C119_example_hypotheses : NoDup (map fst d_trees) /\ ConceptLoad.prefixes_usual d_trees /\ names_written d_trees /\
  NoDup (map fst i_trees) /\ ConceptLoad.prefixes_usual (plain_trees i_trees) /\ names_written (plain_trees i_trees) /\
  forall p, In p (fact_places (instance_roots (dict_values i_trees))) -> usual_prefix p.
Proof.
  assert (D : ConceptSpec.all_decls (plain_trees i_trees) = ConceptSpec.all_decls d_trees) by (vm_compute; reflexivity).
  assert (Sx : forall root tns x, In (root, tns, x) (ConceptSpec.all_decls d_trees) -> x_scope x = FilingProps.x_scope0).
  { intros root tns x Hx. rewrite d_decls in Hx. destruct Hx as [Hx|[Hx|[Hx|[]]]]; injection Hx as _ _ <-; reflexivity. }
  assert (P : ConceptLoad.prefixes_usual d_trees).
  { intros root tns x Hx _. unfold ConceptSpec.usual_prefix. rewrite (Sx _ _ _ Hx). split; [|right; right; left; reflexivity]. cbn [map fst FilingProps.x_scope0].
    repeat (constructor; [intros K; cbn [In] in K; repeat (destruct K as [K|K]; [revert K; vm_compute; discriminate|]); exact K|]). constructor. }
  assert (W : names_written d_trees).
  { intros root tns x name Hx Hn. rewrite (Sx _ _ _ Hx).
    assert (Et : tns = u "urn:t") by (rewrite d_decls in Hx; destruct Hx as [Hx|[Hx|[Hx|[]]]]; congruence). subst tns.
    split; [vm_compute; discriminate|]. split; [intros K; vm_compute in K; repeat (destruct K as [K|K]; [discriminate K|]); exact K|].
    assert (En : name = u "Cash" \/ name = u "Axis" \/ name = u "M1").
    { rewrite d_decls in Hx. destruct Hx as [Hx|[Hx|[Hx|[]]]]; injection Hx as _ <-; vm_compute in Hn; injection Hn as <-; [left|right; left|right; right]; vm_compute; reflexivity. }
    split; [destruct En as [->|[->| ->]]; vm_compute; discriminate|].
    split; [intros K; destruct En as [->|[->| ->]]; vm_compute in K; repeat (destruct K as [K|K]; [discriminate K|]); exact K|].
    intros K. vm_compute in K. repeat (destruct K as [K|K]; [discriminate K|]). exact K. }
  assert (N : forall A (x y : A), x <> y -> NoDup [x; y]).
  { intros A x y H. constructor; [intros [K|[]]; congruence|]. constructor; [intros []|constructor]. }
  split; [apply N; vm_compute; discriminate|]. split; [exact P|]. split; [exact W|]. split; [apply N; vm_compute; discriminate|].
  split; [unfold ConceptLoad.prefixes_usual in *; rewrite D; exact P|]. split; [unfold names_written in *; rewrite D; exact W|].
  apply InlineSameProps.usual_prefixes. vm_compute. reflexivity.
Qed.

Print Assumptions C119_core.
Print Assumptions C119_facts.
Print Assumptions C119_inline_facts.
