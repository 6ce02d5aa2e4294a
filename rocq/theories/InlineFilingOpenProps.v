(** Property C108: which inline filings can be read to their end. *)
From Coq Require Import QArith Permutation Lia.
From Verif Require Import Base QNameModel QNameProofs ErrBase ErrTable ErrModel NumModel DateModel CtxModel CtxSpec CtxProofs InlineModel InlineSpec InlineReportSpec
  InlineProofs InlineStepProofs InlineDocProofs InlineProps InlineOpenProofs InlineOpenProps InlineFrame InlineFilingModel InlineFilingSpec InlineFilingProofs InlineContProofs
  InlineFootProofs InlineFilingProps InlineSameProofs InlineSameProps InlineFilingOpenSpec InlineFilingOpenProofs.
From Verif Require CtxProps FilingProps FootProps LinkProps CtxReportSpec ConceptModel ConceptLoad ConceptOpen NetSpec NetModel LinkModel LinkSpec LinkProofs LinkReadSpec LinkReadProofs TableProps CompModel
  FilingModel FilingProofs FilingOpenSpec FilingOpenProofs TextModel TextSpec TextProofs FootModel FootSpec FootOpenSpec.
Local Open Scope nat_scope.
Local Opaque u create insert.

Section Filing.
Variable e : FootModel.env.
Variable tostring : TextModel.xml -> str.
Variable parse_date : str -> res date.
Variable py_float : str -> option bool.
Variable era_valid : list (part * str) -> res bool.
Variable element_str : xml -> str.
Variable number : str -> Q.
Variable trees : list (str * tree).
Variable es : repo xml.
Let docs := map plain (dict_values trees).
Let roots := instance_roots (dict_values trees).
Let contexts := resource_parts "xbrli:context" roots.

Hypothesis He : FootSpec.lists_sets (FootModel.e_set e).
Hypothesis Hdocs : NoDup (map fst trees).
Hypothesis Hprefixes : ConceptLoad.prefixes_usual (plain_trees trees).
Hypothesis Husual : LinkSpec.all_usual docs.
Hypothesis Htables : forall d, In d docs -> x_tag d <> Some (u "{http://xbrl.org/2003/linkbase}linkbase").
Hypothesis Hprefix : forall p, In p (fact_places roots) -> usual_prefix p.
Hypothesis Hplain : plain_dimensions [holding contexts].

(** The report elements that are read *)
Definition inline_elements (r : ConceptModel.rrepo) (e1 : repo xml) : Prop :=
  ConceptModel.parse_report_elements (plain_trees trees) (ConceptModel.empty_rrepo, es) = Ok (r, e1).
(** The elements of facts, with their texts *)
Definition fact_elements : list node := map (node_of tostring (all_places roots) (chains_of (enough roots) roots)) (fact_places roots).

(** What they are: in their texts, comments are what stops the reading. *)
Theorem C108_elements : texts_end roots -> Forall2 (fun p n => is_node tostring (cont_places roots) p n /\
  (tag_name (p_xml p) = Ok (u "ix:nonNumeric") -> forall b ts, parts (cont_places roots) p ts ->
     (contains_no_comment ts <-> exists c, n_content n b = Ok c))) (fact_places roots) fact_elements.
Proof.
  intros Ht. destruct (any_taken roots Hprefix (enough roots) [] (le_n _) Ht) as (cr & Hcr & _). unfold fact_elements.
  assert (G : incl (fact_places roots) (fact_places roots)) by apply incl_refl. revert G. generalize (fact_places roots) at 1 3 4.
  induction l as [|p l IH]; intros G; cbn [map]; constructor; [|apply IH; intros q Hq; apply G; right; exact Hq].
  assert (Hp : In p (fact_places roots)) by (apply G; left; reflexivity). split; [eapply node_of_is; [exact Hcr|exact Hp]|].
  intros Htag b ts Hts. assert (P := chain_parts _ _ _ p Hcr (or_introl (conj Hp (tag_nonNumeric p Htag)))).
  assert (ts = p_tree p :: chain_trees (all_places roots) (chains_of (enough roots) roots) (p_key p)) as ->.
  { destruct Hts as (qs & Hq & ->). destruct P as (qs' & Hq' & ->). rewrite (goes_on_same _ _ _ Hq _ Hq'). reflexivity. }
  cbn [node_of n_content]. unfold text_content, contains_no_comment.
  set (ts0 := p_tree p :: _). assert (C := TextProofs.chain_content (marked (p_tree p)) (map marked (chain_trees (all_places roots) (chains_of (enough roots) roots) (p_key p)))).
  change (marked (p_tree p) :: map marked (chain_trees (all_places roots) (chains_of (enough roots) roots) (p_key p))) with (map marked ts0) in C.
  destruct (TextSpec.has_remark _).
  - rewrite C. split; [discriminate|]. intros (c & H). discriminate H.
  - destruct C as (x & -> & _). split; [intros _; eexists; reflexivity|reflexivity].
Qed.

(** The documents can be read: headers, contexts, units, hidden parts, texts and facts. *)
Definition inline_fine (rep : repository) : Prop :=
  ~ headers_fatal (map plain roots) /\ ~ references_fatal (header_parts "ix:references" roots) /\ ~ resources_fatal (header_parts "ix:resources" roots) /\
  Forall (fun x => attr x (u "id") <> None /\ CtxReportSpec.context_ok parse_date rep x = true) contexts /\
  Forall (fun x => attr x (u "id") <> None /\ CtxReportSpec.unit_ok x = true) (resource_parts "xbrli:unit" roots) /\
  ~ hidden_fatal (header_parts "ix:hidden" roots) /\
  texts_end roots /\
  forall n, In n fact_elements -> ~ fact_fatal rep era_valid contexts n.

Lemma inline_runs rep fuel :
  runs (parse_inline parse_date rep py_float era_valid (continuations e fuel roots) (documents tostring fuel roots)) empty_state <->
  inline_fine rep /\ exists cr, chains fuel roots [] = Some cr.
Proof.
  set (k := continuations e fuel roots). set (ds := documents tostring fuel roots).
  assert (Hc : forall n, In n (doc_facts ds) -> conventional n).
  { intros n. unfold ds, roots. rewrite documents_facts. intros H. apply in_map_iff in H as (p & <- & Hp). exact (Hprefix p Hp). }
  assert (Dc : doc_contexts ds = contexts) by (unfold doc_contexts, ds, roots; rewrite documents_resources; reflexivity).
  assert (Hp : plain_dimensions [holding (doc_contexts ds)]) by (rewrite Dc; exact Hplain).
  assert (R : (exists cs fr errors, opened parse_date rep py_float era_valid k ds cs fr errors) <-> runs (parse_inline parse_date rep py_float era_valid k ds) empty_state).
  { unfold opened, parse_facts_xhtml, runs, mbind. destruct (parse_inline parse_date rep py_float era_valid k ds empty_state) as [[[r [[t cs] fr]] s]|ex].
    - split; [eauto|]. intros _. exists cs, fr, (s_errors s), t, s. split; reflexivity.
    - split; [intros (cs & fr & es' & t & s & H & _); discriminate H|intros (x & H); discriminate H]. }
  rewrite <- R, (C105_opens_partial parse_date rep py_float era_valid k ds Hc Hp). clear R Hc Hp. unfold inline_fine.
  rewrite Dc. assert (Dr : map d_root (instances ds) = map plain roots) by (unfold ds, roots; apply documents_roots). rewrite Dr.
  assert (Df : doc_references ds = header_parts "ix:references" roots) by (unfold doc_references, ds, roots; apply documents_parts). rewrite Df.
  assert (Ds : doc_resources ds = header_parts "ix:resources" roots) by (unfold doc_resources, ds, roots; apply documents_parts). rewrite Ds.
  assert (Du : doc_units ds = resource_parts "xbrli:unit" roots) by (unfold doc_units, ds, roots; rewrite documents_resources; reflexivity). rewrite Du.
  assert (Dh : doc_hidden ds = header_parts "ix:hidden" roots) by (unfold doc_hidden, ds, roots; apply documents_parts). rewrite Dh.
  unfold k. rewrite kont_ends. clear Dc Dr Df Ds Du Dh k.
  assert (F : forall cr, chains fuel roots [] = Some cr -> doc_facts ds = fact_elements).
  { intros cr Hcr. unfold ds, fact_elements, roots. rewrite documents_facts. fold roots. rewrite (chains_enough roots Hprefix fuel cr Hcr). reflexivity. }
  split.
  - intros (H1 & H2 & H3 & H4 & H5 & H6 & H7 & H8). destruct (chains_taken _ _ _ [] H7) as (cr & Hcr). rewrite (F cr Hcr) in H8.
    split; [|eauto]. repeat (split; [assumption|]). split; [exact (ends_some _ Hprefix _ _ _ Hcr)|exact H8].
  - intros ((H1 & H2 & H3 & H4 & H5 & H6 & H7 & H8) & cr & Hcr). rewrite (F cr Hcr). repeat (split; [assumption|]). split; [|exact H8].
    apply (chains_taken _ _ []). eauto.
Qed.

(** What the facts say *)
Definition fact_values (rep : repository) : str -> str -> Prop := says rep py_float era_valid contexts fact_elements.

Lemma inline_values rep fuel r taken cs fr s :
  parse_inline parse_date rep py_float era_valid (continuations e fuel roots) (documents tostring fuel roots) empty_state = Ok ((r, (taken, cs, fr)), s) ->
  r_relationships r = resource_parts "ix:relationship" roots /\
  forall i v, dict_get str_eqb (texts_of fr) i = Some v <-> fact_values rep i v.
Proof.
  intros H. split.
  - destruct (parse_inline_all _ _ _ _ _ _ _ _ _ _ _ H) as [-> _]. destruct (sort_others (flat_map x_kids (doc_resources (documents tostring fuel roots))) no_resources) as [-> _].
    cbn [no_resources r_relationships app]. transitivity (kids_named "ix:relationship" (doc_resources (documents tostring fuel roots))); [reflexivity|].
    unfold roots. apply documents_resources.
  - destruct (inline_chains _ _ _ _ _ _ _ _ _ _ _ _ _ H) as (cr & Hcr).
    assert (O : opened parse_date rep py_float era_valid (continuations e fuel roots) (documents tostring fuel roots) cs fr (s_errors s)).
    { exists taken, s. split; [|reflexivity]. unfold parse_facts_xhtml, mbind. rewrite H. reflexivity. }
    assert (Hc : forall n, In n (doc_facts (documents tostring fuel roots)) -> conventional n).
    { intros n. unfold roots. rewrite documents_facts. intros K. apply in_map_iff in K as (p & <- & Hp). exact (Hprefix p Hp). }
    destruct (C64_facts_partial _ _ _ _ _ _ _ _ _ O Hc) as (us & os & _ & Ho & [Hs _]). intros i v. unfold fact_values.
    assert (Dc : doc_contexts (documents tostring fuel roots) = contexts) by (unfold doc_contexts, roots; rewrite documents_resources; reflexivity).
    assert (Df : doc_facts (documents tostring fuel roots) = fact_elements)
      by (unfold fact_elements, roots; rewrite documents_facts; fold roots; rewrite (chains_enough roots Hprefix fuel cr Hcr); reflexivity).
    rewrite Dc, Df in Ho. exact (texts_say _ _ _ _ _ _ _ _ _ _ _ _ i v Ho Hs).
Qed.

(** In every order of the sets, an inline filing can be read to its end if its declarations can be read, then
    its documents, its footnotes and their relationships, each of its links with a role, and each of its role
    types. *)
Theorem C108_opens_partial edge_order root_order shuffle : LinkSpec.orders edge_order root_order -> NetSpec.some_order shuffle ->
  ((exists fuel f, parse_inline_filing e tostring fuel parse_date py_float era_valid element_str number edge_order root_order shuffle trees es = Ok f) <->
   ConceptOpen.declarable (plain_trees trees) /\
   (forall r e1, inline_elements r e1 ->
      let rep := FilingModel.repository_of r in
      inline_fine rep /\ notes_fine roots /\ relationships_fine e roots (fact_values rep) /\
      FilingOpenSpec.links_fine docs (QNameModel.get_all rep) (fun i => exists v, fact_values rep i v)) /\
   FilingOpenSpec.roles_fine docs).
Proof.
  intros Ho Hs. assert (Hd : NoDup (map fst (plain_trees trees))) by (unfold plain_trees; rewrite map_map; exact Hdocs).
  rewrite <- (ConceptOpen.declarations_iff (plain_trees trees) es Hd Hprefixes). unfold parse_inline_filing, inline_elements. cbv zeta.
  fold (plain_trees trees). fold docs. fold roots.
  destruct (ConceptModel.parse_report_elements (plain_trees trees) (ConceptModel.empty_rrepo, es)) as [[r e1]|ex] eqn:E1; cbn [bind];
    [|split; [intros (fu & f & H); discriminate H|intros ((r & H) & _); discriminate H]].
  cbn [fst snd]. replace (State e1 [] [] empty_facts) with (after e1 empty_state) by (unfold after; cbn; rewrite app_nil_r; reflexivity).
  assert (X : forall r' e', Ok (r, e1) = Ok (r', e') -> r' = r /\ e' = e1) by (intros r' e' [= <- <-]; auto).
  set (rep := FilingModel.repository_of r).
  assert (G : (forall r' e', Ok (r, e1) = Ok (r', e') -> inline_fine (FilingModel.repository_of r') /\ notes_fine roots /\
      relationships_fine e roots (fact_values (FilingModel.repository_of r')) /\
      FilingOpenSpec.links_fine docs (QNameModel.get_all (FilingModel.repository_of r')) (fun i => exists v, fact_values (FilingModel.repository_of r') i v)) <->
    inline_fine rep /\ notes_fine roots /\ relationships_fine e roots (fact_values rep) /\
      FilingOpenSpec.links_fine docs (QNameModel.get_all rep) (fun i => exists v, fact_values rep i v)).
  { split; [intros H; exact (H r e1 eq_refl)|]. intros H r' e' K. destruct (X _ _ K) as [-> ->]. exact H. }
  rewrite G. clear G X.
  destruct (proj2 (LinkReadProofs.links_as_read_iff docs (LinkModel.sorted_links docs) Husual) eq_refl) as (l0 & l1 & l2 & L).
  assert (Hl : LinkReadSpec.links_as_read docs (LinkModel.sorted_links docs)) by (exists l0, l1, l2; exact L). clear L l0 l1 l2.
  assert (N : forall fr errs, (forall i v, dict_get str_eqb (texts_of fr) i = Some v <-> fact_values rep i v) ->
    ((exists fuel r0, FilingModel.read_networks element_str number edge_order root_order fuel shuffle r (plain_facts fr) docs errs = Ok r0) <->
     FilingOpenSpec.links_fine docs (QNameModel.get_all rep) (fun i => exists v, fact_values rep i v))).
  { intros fr errs Hv. unfold FilingModel.read_networks.
    rewrite (LinkReadProofs.networks_iff element_str number (FilingModel.find_in r (plain_facts fr)) edge_order root_order Ho shuffle Hs docs errs _ Husual Hl).
    destruct (FilingProofs.elements_stored _ _ _ E1) as (reg & Hn & Er). cbn [fst] in Er. unfold rep in *. clear E1. subst r.
    rewrite <- (FilingOpenProofs.links_fine_iff docs reg (plain_facts fr) _ Hn)
      by (intros i; rewrite plain_has; split; intros (v & K); exists v; apply Hv; exact K).
    split; intros [A B]; (split; [exact A|]); [|exact (B _ Hl)].
    intros l H. apply (LinkReadProofs.links_as_read_iff docs l Husual) in H. rewrite H. exact B. }
  unfold FilingModel.read_tables, FilingOpenSpec.roles_fine. split.
  - intros (fu & f & H). split; [eauto|]. rewrite fr_inline in H.
    destruct (parse_inline parse_date rep py_float era_valid (continuations e fu roots) (documents tostring fu roots) empty_state) as [[[ir [[taken cs] fr]] s]|ex] eqn:E2; [|discriminate H].
    cbn [bind fst snd] in H. destruct (inline_values _ _ _ _ _ _ _ E2) as [Hr Hv]. destruct (proj1 (inline_runs rep fu) (ex_intro _ _ E2)) as [I (cr & Hcr)].
    destruct (read_footnotes e tostring fu roots ir taken fr (after e1 s)) as [[[ns nws] s2]|ex] eqn:E3; [|discriminate H]. cbn [bind fst snd] in H.
    destruct (proj1 (footnotes_run e tostring fu roots cr ir taken fr (after e1 s) He Hcr Hr) (ex_intro _ _ E3)) as [K1 K2].
    destruct (FilingModel.read_networks _ _ _ _ _ _ _ _ _ _) as [n|ex] eqn:E4; [|discriminate H]. cbn [bind] in H.
    rewrite (TableProps.C59_no_tables_refuted _ docs Htables) in H. cbn [bind] in H. apply LinkProofs.bind_ok in H as (c & H & _).
    split; [|exact (proj1 (FilingOpenProofs.components_iff _ docs _) (ex_intro _ c H))].
    split; [exact I|]. split; [exact K1|]. split; [exact (proj1 (relationships_ext e roots _ _ Hv) K2)|]. apply (N fr (s_errors s2) Hv). eauto.
  - intros (_ & (I & K1 & K2 & K3) & R).
    assert (Ht : texts_end roots) by (destruct I as (_ & _ & _ & _ & _ & _ & Ht & _); exact Ht).
    destruct (any_taken roots Hprefix (enough roots) [] (le_n _) Ht) as (cr & Hcr & _).
    destruct (proj2 (inline_runs rep (enough roots)) (conj I (ex_intro _ cr Hcr))) as ([[ir [[taken cs] fr]] s] & E2).
    destruct (inline_values _ _ _ _ _ _ _ E2) as [Hr Hv].
    destruct (proj2 (footnotes_run e tostring (enough roots) roots cr ir taken fr (after e1 s) He Hcr Hr) (conj K1 (proj2 (relationships_ext e roots _ _ Hv) K2))) as ([[ns nws] s2] & E3).
    destruct (proj2 (N fr (s_errors s2) Hv) K3) as (fl & n & E4).
    exists (Nat.max (enough roots) fl). assert (Hm := Nat.le_max_l (enough roots) fl).
    rewrite fr_inline, (inline_more _ _ _ _ _ _ roots _ _ Hprefix Ht Hm), E2. cbn [bind fst snd].
    rewrite (footnotes_more _ _ roots _ _ _ _ _ Hprefix Ht Hm), E3. cbn [bind fst snd]. unfold FilingModel.read_networks in *.
    rewrite (networks_more _ _ _ _ _ _ _ _ _ _ _ (Nat.le_max_r (enough roots) fl) E4). cbn [bind].
    rewrite (TableProps.C59_no_tables_refuted _ docs Htables). cbn [bind].
    destruct (proj2 (FilingOpenProofs.components_iff (map CompModel.OpUpsert (note_networks (length (fst n)) nws ++ FilingModel.networks_of (fst n))) docs (LinkModel.ls_errors (snd n))) R) as (c & Ec).
    unfold store_all. rewrite Ec. cbn [bind]. eauto.
Qed.
End Filing.

(** Whether it can be read does not depend on the orders of sets, nor on how lists are shown. *)
Theorem C108_any_order_partial uri float set set' repr repr' tostring parse_date py_float era_valid element_str number trees es edge_order root_order shuffle :
  FootSpec.lists_sets set -> FootSpec.lists_sets set' -> NoDup (map fst trees) -> ConceptLoad.prefixes_usual (plain_trees trees) ->
  LinkSpec.all_usual (map plain (dict_values trees)) ->
  (forall d, In d (map plain (dict_values trees)) -> x_tag d <> Some (u "{http://xbrl.org/2003/linkbase}linkbase")) ->
  (forall p, In p (fact_places (instance_roots (dict_values trees))) -> usual_prefix p) ->
  plain_dimensions [holding (resource_parts "xbrli:context" (instance_roots (dict_values trees)))] ->
  LinkSpec.orders edge_order root_order -> NetSpec.some_order shuffle ->
  ((exists f, reads_inline (FootModel.Env uri float set' repr') tostring parse_date py_float era_valid element_str number trees es f) <->
   exists fuel f, parse_inline_filing (FootModel.Env uri float set repr) tostring fuel parse_date py_float era_valid element_str number edge_order root_order shuffle trees es = Ok f).
Proof.
  intros S S' A B C D E F Ho Hs.
  assert (G := fun st rp (Hst : FootSpec.lists_sets st) => C108_opens_partial (FootModel.Env uri float st rp) tostring parse_date py_float era_valid element_str number trees es Hst A B C D E F).
  split.
  - intros (f & fu & eo & ro & sh & Ho' & Hs' & H). apply (G set repr S _ _ _ Ho Hs). exact (proj1 (G set' repr' S' _ _ _ Ho' Hs') (ex_intro _ fu (ex_intro _ f H))).
  - intros H. apply (proj1 (G set repr S _ _ _ Ho Hs)) in H. apply (proj2 (G set' repr' S' _ _ _ Ho Hs)) in H as (fu & f & H).
    exists f, fu, edge_order, root_order, shuffle. auto.
Qed.

(** ** Examples *)
Local Transparent u create insert.

Definition y_met (more : list xml) (kids : list tree) : Prop :=
  NoDup (map fst (y_trees more kids)) /\ ConceptLoad.prefixes_usual (plain_trees (y_trees more kids)) /\
  LinkSpec.all_usual (map plain (dict_values (y_trees more kids))) /\
  (forall d, In d (map plain (dict_values (y_trees more kids))) -> x_tag d <> Some (u "{http://xbrl.org/2003/linkbase}linkbase")) /\
  (forall p, In p (fact_places (y_roots more kids)) -> usual_prefix p) /\
  plain_dimensions (y_docs0 more kids).
Lemma no_dimensions docs : forallb (fun d => forallb (fun x => match attr x (u "dimension") with Some _ => false | None => true end) (descendants d)) docs = true -> plain_dimensions docs.
Proof.
  intros K x t (d & Hd & Hx) Ha. exfalso. rewrite forallb_forall in K. specialize (K d Hd). rewrite forallb_forall in K. specialize (K x Hx). rewrite Ha in K. discriminate K.
Qed.
Lemma no_tables docs : forallb (fun d => match x_tag d with Some t => negb (str_eqb t (u "{http://xbrl.org/2003/linkbase}linkbase")) | None => true end) docs = true ->
  forall d, In d docs -> x_tag d <> Some (u "{http://xbrl.org/2003/linkbase}linkbase").
Proof.
  intros K d Hd E. rewrite forallb_forall in K. specialize (K d Hd). rewrite E, str_eqb_refl in K. discriminate K.
Qed.
Lemma y_meets more kids :
  ConceptSpec.all_decls (plain_trees (y_trees more kids)) = ConceptSpec.all_decls FilingProps.x_trees ->
  LinkModel.all_links (map plain (dict_values (y_trees more kids))) = LinkModel.all_links (dict_values FilingProps.x_trees) ->
  forallb (fun d => match x_tag d with Some t => negb (str_eqb t (u "{http://xbrl.org/2003/linkbase}linkbase")) | None => true end) (map plain (dict_values (y_trees more kids))) = true ->
  forallb (fun p => match tag_name (p_xml p) with Ok t => str_eqb t (u "ix:nonNumeric") || str_eqb t (u "ix:nonFraction") | Raise _ => false end) (fact_places (y_roots more kids)) = true ->
  forallb (fun d => forallb (fun x => match attr x (u "dimension") with Some _ => false | None => true end) (descendants d)) (y_docs0 more kids) = true ->
  y_met more kids.
Proof.
  intros D L T P K. destruct FilingProps.C93_example as (_ & H2 & _). split; [exact (proj1 C100_example_declared)|].
  split; [unfold ConceptLoad.prefixes_usual in *; rewrite D; exact H2|]. split; [exact (usual_as _ _ L FilingProps.C91_example_usual)|].
  split; [exact (no_tables _ T)|]. split; [exact (usual_prefixes _ P)|exact (no_dimensions _ K)].
Qed.
Definition y_opens (more : list xml) (kids : list tree) : Prop :=
  ConceptOpen.declarable (plain_trees (y_trees more kids)) /\
  (forall r e1, inline_elements (y_trees more kids) [] r e1 ->
     let rep := FilingModel.repository_of r in
     inline_fine y_tostring CtxProps.iso_date (fun _ => Ok true) (y_trees more kids) rep /\ notes_fine (y_roots more kids) /\
     relationships_fine FootProps.env0 (y_roots more kids) (fact_values y_tostring (fun _ => Some false) (fun _ => Ok true) (y_trees more kids) rep) /\
     FilingOpenSpec.links_fine (map plain (dict_values (y_trees more kids))) (QNameModel.get_all rep)
       (fun i => exists v, fact_values y_tostring (fun _ => Some false) (fun _ => Ok true) (y_trees more kids) rep i v)) /\
  FilingOpenSpec.roles_fine (map plain (dict_values (y_trees more kids))).
Lemma y_iff more kids : y_met more kids -> ((exists f, y_reads FootProps.env0 more kids f) <-> y_opens more kids).
Proof.
  intros (A & B & C & D & E & F). unfold y_reads, reads_inline.
  assert (G := C108_opens_partial FootProps.env0 y_tostring CtxProps.iso_date (fun _ => Some false) (fun _ => Ok true) (fun _ => []) (fun _ => 1%Q) (y_trees more kids) []
    FootProps.env0_sets A B C D E F). split.
  - intros (f & fu & eo & ro & sh & Ho & Hs & H). apply (G eo ro sh Ho Hs). eauto.
  - intros H. apply (G _ _ (fun l => l) LinkProps.same_order (fun l => Permutation_refl l)) in H as (fu & f & H). exists f, fu, (fun _ l => l), (fun _ l => l), (fun l => l).
    split; [exact LinkProps.same_order|]. split; [intros l; apply Permutation_refl|exact H].
Qed.

Lemma y_declared more kids : y_met more kids -> ConceptOpen.declarable (plain_trees (y_trees more kids)) -> exists r e1, inline_elements (y_trees more kids) [] r e1.
Proof.
  intros (A & B & _) D. assert (A' : NoDup (map fst (plain_trees (y_trees more kids)))) by (unfold plain_trees; rewrite map_map; exact A).
  destruct (proj2 (ConceptOpen.declarations_iff _ [] A' B) D) as ([r e1] & E). exists r, e1. exact E.
Qed.

(** The filing of InlineSameProps meets the hypotheses, is read, and so is fine; it declares something,
    its facts have values, and its text goes on. *)
Example C108_example : y_met [y_related] y_kids /\ y_opens [y_related] y_kids.
Proof.
  assert (H : y_met [y_related] y_kids) by (apply y_meets; vm_compute; reflexivity). split; [exact H|]. apply (y_iff _ _ H).
  destruct C101_example as (f & R & _). eauto.
Qed.
Example C108_example_elements : exists r e1, inline_elements (y_trees [y_related] y_kids) [] r e1 /\
  length (fact_elements y_tostring (y_trees [y_related] y_kids)) = 2 /\ length (continuables (y_roots [y_related] y_kids)) = 2.
Proof.
  destruct (y_declared _ _ (proj1 C108_example) (proj1 (proj2 C108_example))) as (r & e1 & E). exists r, e1. split; [exact E|]. split; vm_compute; reflexivity.
Qed.

(** A continuation that is continued by itself: the filing is not read, in no order of sets and however long. *)
Definition y_circle : list tree := [y_text []; y_elem (InlineProps.ix "continuation") [("id", "k1"); ("continuedAt", "k1")]%string "lo" [] ""].
Lemma no_end conts id : (forall q, last_with (fun q => attr (p_xml q) (u "id") = Some id) conts q -> attr (p_xml q) (u "continuedAt") = Some id) ->
  (exists q, In q conts /\ attr (p_xml q) (u "id") = Some id) -> forall o qs, goes_on conts o qs -> o <> Some id.
Proof.
  intros H (q0 & Hq & Hi). induction 1 as [|i Hn|i q qs Hl _ IH]; [discriminate| |]; intros [= ->]; [exact (Hn q0 Hq Hi)|]. apply IH, H, Hl.
Qed.
Theorem C108_circle_refuted f : ~ y_reads FootProps.env0 [] y_circle f.
Proof.
  intros R. assert (M : y_met [] y_circle) by (apply y_meets; vm_compute; reflexivity).
  destruct (proj1 (y_iff _ _ M) (ex_intro _ f R)) as (D & G & _). clear R.
  destruct (y_declared _ _ M D) as (r & e1 & E).
  destruct (G r e1 E) as [(_ & _ & _ & _ & _ & _ & T & _) _]. clear G D E r e1 M. fold (y_roots [] y_circle) in T.
  set (p := nth 0 (continuables (y_roots [] y_circle)) (Place 0 y_comment [])).
  assert (Hp : In p (continuables (y_roots [] y_circle))) by (apply nth_In; vm_compute; repeat constructor).
  destruct (T p Hp) as (qs & Hq). revert Hq. assert (Ea : attr (p_xml p) (u "continuedAt") = Some (u "k1")) by (vm_compute; reflexivity). rewrite Ea. intros Hq.
  assert (L : length (cont_places (y_roots [] y_circle)) = 1) by (vm_compute; reflexivity).
  set (q0 := nth 0 (cont_places (y_roots [] y_circle)) (Place 0 y_comment [])).
  assert (Hq0 : In q0 (cont_places (y_roots [] y_circle))) by (apply nth_In; rewrite L; constructor).
  assert (Hall : forall q, In q (cont_places (y_roots [] y_circle)) -> q = q0).
  { intros q K. unfold q0. destruct (cont_places (y_roots [] y_circle)) as [|a [|b l]]; [destruct K| |discriminate L]. destruct K as [<-|[]]. reflexivity. }
  refine (no_end _ (u "k1") _ _ _ _ Hq eq_refl).
  - intros q (pre & post & K & _). rewrite (Hall q) by (rewrite K; apply in_elt). vm_compute. reflexivity.
  - exists q0. split; [exact Hq0|]. vm_compute. reflexivity.
Qed.

(** A comment in a footnote stops the reading as well, though nothing refers to the footnote. *)
Definition y_remark : list tree := [y_elem (InlineProps.ix "footnote") [("id", "n1")%string; y_lang] "A " [y_comment] ""].
Theorem C108_remark_refuted f : ~ y_reads FootProps.env0 [] y_remark f.
Proof.
  intros R. assert (M : y_met [] y_remark) by (apply y_meets; vm_compute; reflexivity).
  destruct (proj1 (y_iff _ _ M) (ex_intro _ f R)) as (D & G & _). clear R.
  destruct (y_declared _ _ M D) as (r & e1 & E). destruct (G r e1 E) as (_ & T & _). clear G D E r e1 M.
  set (p := nth 0 (note_places (y_roots [] y_remark)) (Place 0 y_comment [])).
  assert (Hp : In p (note_places (y_roots [] y_remark))) by (apply nth_In; vm_compute; repeat constructor).
  assert (Ea : attr (p_xml p) (u "continuedAt") = None) by (vm_compute; reflexivity).
  assert (K : contains_no_comment [p_tree p]).
  { apply (T p (u "n1") _ Hp); [split; [vm_compute; reflexivity|vm_compute; discriminate]|]. exists []. split; [rewrite Ea; constructor|reflexivity]. }
  vm_compute in K. discriminate K.
Qed.

Print Assumptions C108_elements.
Print Assumptions C108_opens_partial.
Print Assumptions C108_any_order_partial.
Print Assumptions C108_circle_refuted.
Print Assumptions C108_remark_refuted.
