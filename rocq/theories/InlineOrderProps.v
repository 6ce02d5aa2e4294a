(** The order of the documents of an inline filing (C109). *)
From Coq Require Import Permutation QArith.
From Verif Require Import Base DateModel QNameModel ErrBase ErrModel CtxModel CtxSpec FilingModel FilingSpec FilingStages InlineFilingModel InlineFilingSpec InlineFilingProofs InlineFilingProps.
From Verif Require Import InlineModel InlineSpec CtxExactProofs OrderSpec InlineOrderSpec OrderProofs InlineOrderProofs.
From Verif Require InlineProps FootSpec LinkProps CtxProps LangModel OrderProps InlineSameProps NetModel CompModel CompSpec ConceptModel ConceptLoad ConceptSpec LinkSpec FilingProps FootProps FootModel TextModel.
Local Open Scope nat_scope.

Section Order.
Variable e : FootModel.env.
Variable tostring : TextModel.xml -> str.
Variable parse_date : str -> res date.
Variable py_float : str -> option bool.
Variable era_valid : list (part * str) -> res bool.
Variable element_str : xml -> str.
Variable number : str -> Q.
Notation reads := (reads_inline e tostring parse_date py_float era_valid element_str number).

Lemma plain_perm (t1 t2 : list (str * tree)) : Permutation t1 t2 -> Permutation (plain_trees t1) (plain_trees t2).
Proof. apply Permutation_map. Qed.
Lemma once_other t1 t2 : Permutation t1 t2 -> declared_once t1 -> declared_once t2.
Proof.
  intros P (A & B & C). split; [exact (Permutation_NoDup (Permutation_map fst P) A)|].
  split; [exact (names_once_to _ _ (plain_perm _ _ P) B)|exact (ids_to _ _ (plain_perm _ _ P) C)].
Qed.

Lemma declared trees es f : reads trees es f -> exists reg e1, NoDup (map ConceptModel.r_name reg) /\ fl_elements (il_filing f) = ConceptLoad.stored reg /\
  ConceptModel.parse_report_elements (plain_trees trees) (ConceptModel.empty_rrepo, es) = Ok (fl_elements (il_filing f), e1).
Proof.
  intros R. destruct (f_assembled _ _ _ _ _ _ _ _ _ _ R) as (e1 & later & A). pose proof (as_declared _ _ _ _ _ _ _ _ _ A) as D.
  destruct (FilingStages.f_elements _ _ _ _ _ _ _ _ _ A) as (reg & N & E). exists reg, e1. auto.
Qed.

Lemma made_same t1 t2 es f1 f2 : Permutation t1 t2 -> reads t1 es f1 -> reads t2 es f2 -> declared_once t1 -> ConceptLoad.prefixes_usual (plain_trees t1) ->
  Permutation (ConceptModel.rr_get_all (fl_elements (il_filing f1))) (ConceptModel.rr_get_all (fl_elements (il_filing f2))).
Proof.
  intros P R1 R2 (A & B & C) Hp. destruct (declared _ _ _ R1) as (_ & e1 & _ & _ & D1), (declared _ _ _ R2) as (_ & e2 & _ & _ & D2).
  exact (registered_to _ _ _ _ _ _ _ _ (plain_perm _ _ P) (plain_docs _ A) Hp B D1 D2).
Qed.
Lemma elements_to t1 t2 es f1 f2 : Permutation t1 t2 -> reads t1 es f1 -> reads t2 es f2 -> declared_once t1 -> ConceptLoad.prefixes_usual (plain_trees t1) ->
  corresponding (get_all_report_elements (il_filing f1)) (get_all_report_elements (il_filing f2)).
Proof.
  intros P R1 R2 Ho Hp. pose proof (made_same _ _ _ _ _ P R1 R2 Ho Hp) as M.
  destruct (declared _ _ _ R1) as (reg1 & _ & N1 & E1 & _), (declared _ _ _ R2) as (reg2 & _ & N2 & E2 & _).
  unfold get_all_report_elements. rewrite E1, E2 in *. rewrite !ConceptLoad.stored_all in M by assumption. apply registered_elements; assumption.
Qed.
Lemma ids_of trees es f : reads trees es f -> ConceptLoad.prefixes_usual (plain_trees trees) -> declared_once trees ->
  forall x x' i, In x (get_all_report_elements (il_filing f)) -> In x' (get_all_report_elements (il_filing f)) -> e_id x = Some i -> e_id x' = Some i -> x = x'.
Proof.
  intros R Hp (A & _ & C). destruct (declared _ _ _ R) as (reg & e1 & N & E & D). unfold get_all_report_elements. rewrite E in *.
  exact (OrderProps.ids_registered _ _ _ _ D N Hp (plain_docs _ A) C).
Qed.

Section Two.
Variables trees1 trees2 : list (str * tree).
Variable es : repo xml.
Variables f1 f2 : inline_filing.
Hypothesis Hperm : Permutation trees1 trees2.
Hypothesis R1 : reads trees1 es f1.
Hypothesis R2 : reads trees2 es f2.
Hypothesis Hprefixes : ConceptLoad.prefixes_usual (plain_trees trees1).
Hypothesis Honce : declared_once trees1.
Let P := plain_perm _ _ Hperm.
Let Hprefixes2 : ConceptLoad.prefixes_usual (plain_trees trees2) := prefixes_to _ _ P Hprefixes.
Let Honce2 : declared_once trees2 := once_other _ _ Hperm Honce.
Let c12 := elements_to _ _ _ _ _ Hperm R1 R2 Honce Hprefixes.
Let c21 := elements_to _ _ _ _ _ (Permutation_sym Hperm) R2 R1 Honce2 Hprefixes2.
Let n1 := C100_names _ _ _ _ _ _ _ _ _ _ R1.
Let n2 := C100_names _ _ _ _ _ _ _ _ _ _ R2.
Let i1 := ids_of _ _ _ R1 Hprefixes Honce.
Let i2 := ids_of _ _ _ R2 Hprefixes2 Honce2.

(** The report elements are the same, with all that is declared of them, but for their order and numbers. *)
Theorem C109_inline_declared_partial :
  Permutation (ConceptModel.rr_get_all (fl_elements (il_filing f1))) (ConceptModel.rr_get_all (fl_elements (il_filing f2))).
Proof. exact (made_same _ _ _ _ _ Hperm R1 R2 Honce Hprefixes). Qed.
Theorem C109_inline_elements_partial :
  Permutation (map apart (get_all_report_elements (il_filing f1))) (map apart (get_all_report_elements (il_filing f2))).
Proof. apply elements_perm; [exact c12|exact c21|exact n1|exact n2]. Qed.

Section Usual.
Hypothesis Husual : LinkSpec.all_usual (dict_values (plain_trees trees1)).
Let Husual2 := usual_to _ _ P Husual.

(** They have the same labels. *)
Theorem C109_inline_labels_partial e1 e2 l : In e1 (get_all_report_elements (il_filing f1)) -> In e2 (get_all_report_elements (il_filing f2)) -> apart e1 = apart e2 ->
  (In l (labels_in (il_filing f1) e1) <-> In l (labels_in (il_filing f2) e2)).
Proof.
  intros H1 H2 E. rewrite (C100_labels _ _ _ _ _ _ _ _ _ _ R1 Husual e1 l H1), (C100_labels _ _ _ _ _ _ _ _ _ _ R2 Husual2 e2 l H2). split; intros H.
  - eapply labelled_to; [exact P|exact c21|exact n1|exact n2|exact i1|exact H|exact H2|exact E].
  - eapply labelled_to; [exact (Permutation_sym P)|exact c12|exact n2|exact n1|exact i2|exact H|exact H1|symmetry; exact E].
Qed.
(** The networks of a role and kind show the same report elements, one below another in the same way. *)
Theorem C109_inline_shown_partial k role e1 e2 : NetModel.is_physical k = false ->
  In e1 (get_all_report_elements (il_filing f1)) -> In e2 (get_all_report_elements (il_filing f2)) -> apart e1 = apart e2 ->
  ((exists w, of_kind (il_filing f1) k role w /\ in_network (il_filing f1) w e1) <-> exists w, of_kind (il_filing f2) k role w /\ in_network (il_filing f2) w e2).
Proof.
  intros Hk H1 H2 E. rewrite (C100_shown _ _ _ _ _ _ _ _ _ _ R1 Husual k role e1 Hk), (C100_shown _ _ _ _ _ _ _ _ _ _ R2 Husual2 k role e2 Hk).
  split; intros (link & outside & A & B & C & D); exists link, outside.
  - split; [apply (links_to _ _ P), A|]. split; [exact B|]. split; [exact C|]. eapply mentioned_to; [..|exact D|exact H2|exact E]; first [exact c12|exact c21|exact n1|exact n2|exact i1|exact i2].
  - split; [apply (links_to _ _ P), A|]. split; [exact B|]. split; [exact C|]. eapply mentioned_to; [..|exact D|exact H1|symmetry; exact E]; first [exact c12|exact c21|exact n1|exact n2|exact i1|exact i2].
Qed.
Theorem C109_inline_below_partial k role e1 d1 e2 d2 : NetModel.is_physical k = false ->
  In e1 (get_all_report_elements (il_filing f1)) -> In e2 (get_all_report_elements (il_filing f2)) -> apart e1 = apart e2 ->
  In d1 (get_all_report_elements (il_filing f1)) -> In d2 (get_all_report_elements (il_filing f2)) -> apart d1 = apart d2 ->
  ((exists w, of_kind (il_filing f1) k role w /\ below_in (il_filing f1) w e1 d1) <-> exists w, of_kind (il_filing f2) k role w /\ below_in (il_filing f2) w e2 d2).
Proof.
  intros Hk H1 H2 E G1 G2 F. rewrite (C100_below _ _ _ _ _ _ _ _ _ _ R1 Husual k role e1 d1 Hk), (C100_below _ _ _ _ _ _ _ _ _ _ R2 Husual2 k role e2 d2 Hk).
  split; intros (link & outside & A & B & C & D); exists link, outside; (split; [apply (links_to _ _ P), A|]); (split; [exact B|]); (split; [exact C|]).
  - eapply put_below_to; [..|exact D|exact H2|exact E|exact G2|exact F]; first [exact c12|exact c21|exact n1|exact n2|exact i1|exact i2].
  - eapply put_below_to; [..|exact D|exact H1|symmetry; exact E|exact G1|symmetry; exact F]; first [exact c12|exact c21|exact n1|exact n2|exact i1|exact i2].
Qed.
End Usual.

(** The components are the same: their roles and what they are called. *)
Theorem C109_inline_components : Permutation (map (fun c => (CompModel.get_URI c, CompModel.get_info c)) (get_all_components (il_filing f1)))
  (map (fun c => (CompModel.get_URI c, CompModel.get_info c)) (get_all_components (il_filing f2))).
Proof.
  destruct (f_assembled _ _ _ _ _ _ _ _ _ _ R1) as (x1 & l1 & A1), (f_assembled _ _ _ _ _ _ _ _ _ _ R2) as (x2 & l2 & A2).
  destruct (FilingStages.f_components _ _ _ _ _ _ _ _ _ A1) as (_ & _ & F1 & _), (FilingStages.f_components _ _ _ _ _ _ _ _ _ A2) as (_ & _ & F2 & _). unfold get_all_components.
  eapply kinds_perm; [|exact F1|exact F2|].
  - apply Permutation_flat_map, (docs_perm _ _ P).
  - intros x c c' (A & (uri & k & B & C & D) & _) (A' & (uri' & k' & B' & C' & D') & _). unfold CompModel.get_URI, CompModel.get_info. unfold CompSpec.link_at in B, B'. rewrite B in B'. injection B' as <-.
    rewrite (first_such_one _ _ _ _ C C') in D. congruence.
Qed.
(** Without reports and without ids used twice, the facts are the same, with their values and characteristics, but for their order and the numbers of
    their elements. *)
Section Facts.
Let roots1 := instance_roots (dict_values trees1).
Let roots2 := instance_roots (dict_values trees2).
Let Proots : Permutation roots1 roots2 := roots_perm _ _ Hperm.
Hypothesis Hprefix : forall p, In p (fact_places roots1) -> usual_prefix p.
Hypothesis Husual : LinkSpec.all_usual (dict_values (plain_trees trees1)).
Hypothesis Hsets : FootSpec.lists_sets (FootModel.e_set e).
Hypothesis Hresources : resources_once roots1.
Hypothesis Hnamed : named_contexts (resource_parts "xbrli:context" roots1).
Hypothesis Halike : contexts_alike (repository_of (fl_elements (il_filing f1))) (resource_parts "xbrli:context" roots1).
Hypothesis Hword : no_period_word parse_date.
Lemma prefix_other p : In p (fact_places roots2) -> usual_prefix p.
Proof.
  intros H. assert (K : In (p_tree p) (map p_tree (fact_places roots1))) by (apply (Permutation_in _ (Permutation_sym (fact_trees _ _ Proots))), in_map, H).
  apply in_map_iff in K as (q & E & K). apply Hprefix in K. unfold usual_prefix, p_xml in *. rewrite <- E. exact K.
Qed.
Lemma exact_facts rep us contexts nodes fs : contexts_alike rep contexts ->
  Forall2 (fun n x => inline_fact rep py_float era_valid contexts us (entity_shared [holding contexts]) (period_shared parse_date)
    (explicit_shared rep [holding contexts]) (typed_shared rep [holding contexts]) n x []) nodes fs ->
  Forall2 (fun n x => inline_fact rep py_float era_valid contexts us entity_exact (period_exact parse_date) (explicit_exact rep) (typed_exact rep) n x []) nodes fs.
Proof.
  intros (H1 & H2 & H3 & H4 & H5) F.
  assert (K : Forall2 (inline_outcome rep py_float era_valid contexts us entity_exact (period_exact parse_date) (explicit_exact rep) (typed_exact rep)) nodes (map (fun x => (Some x, [])) fs)).
  { apply (InlineProps.inline_mono contexts (entity_shared [holding contexts]) entity_exact (period_shared parse_date) (period_exact parse_date)
      (explicit_shared rep [holding contexts]) (explicit_exact rep) (typed_shared rep [holding contexts]) (typed_exact rep)).
    - intros x r Hx. apply entity_to_exact; assumption.
    - intros x r Hx. apply period_to_exact; auto.
    - intros x r Hx. apply explicit_to_exact; assumption.
    - intros x r Hx. apply typed_to_exact; assumption.
    - clear -F. induction F as [|n x l l' H _ IH]; cbn [map]; constructor; [exact H|exact IH]. }
  clear -K. revert nodes K. induction fs as [|x l IH]; intros nodes K; inversion K; subst; constructor; [assumption|apply IH; assumption].
Qed.
Lemma facts_ids rep us contexts E' P' X' T' conts places nodes fs : Forall2 (is_node tostring conts) places nodes ->
  Forall2 (fun n x => inline_fact rep py_float era_valid contexts us E' P' X' T' n x []) nodes fs ->
  flat_map (fun x => match if_id x with Some i => [i] | None => [] end) fs = InlineSpec.ids_of (map p_xml places).
Proof.
  intros F. revert fs. induction F as [|p n l l' H _ IH]; intros fs G; inversion G as [|? x ? fs' K G']; subst; [reflexivity|]. unfold InlineSpec.ids_of in *. cbn [flat_map map].
  rewrite (IH _ G'). f_equal. destruct K as (e0 & us0 & cid & xc & c & _ & _ & _ & _ & _ & _ & K & _). destruct H as (H & _). rewrite <- H. unfold if_id. rewrite K. reflexivity.
Qed.
Lemma on_trees rep us contexts E' P' X' T' conts places nodes fs : Forall2 (is_node tostring conts) places nodes ->
  Forall2 (fun n x => inline_fact rep py_float era_valid contexts us E' P' X' T' n x []) nodes fs ->
  Forall2 (fun t x => exists p n, In p places /\ p_tree p = t /\ is_node tostring conts p n /\ inline_fact rep py_float era_valid contexts us E' P' X' T' n x []) (map p_tree places) fs.
Proof.
  intros F. revert fs. induction F as [|p n l l' H _ IH]; intros fs G; inversion G as [|? x ? fs' K G']; subst; [constructor|]. cbn [map]. constructor.
  - exists p, n. split; [left; reflexivity|]. auto.
  - pose proof (IH _ G') as J. clear -J. induction J as [|t y k k' (q & m & A & B) _ IHk]; constructor; [|exact IHk]. exists q, m. split; [right; exact A|exact B].
Qed.
Theorem C109_inline_facts_partial : fl_errors (il_filing f1) = [] -> fl_errors (il_filing f2) = [] ->
  Permutation (map ifact_apart (all_of (il_facts f1))) (map ifact_apart (all_of (il_facts f2))).
Proof.
  intros C1 C2. destruct Hresources as (N1 & N2 & N3 & N4).
  destruct (C101_facts_kept _ _ _ _ _ _ _ _ _ _ R1 Hprefix Husual Hsets C1) as (ns1 & us1 & fs1 & A1 & B1 & D1 & S1).
  destruct (C101_facts_kept _ _ _ _ _ _ _ _ _ _ R2 prefix_other (usual_to _ _ P Husual) Hsets C2) as (ns2 & us2 & fs2 & A2 & B2 & D2 & S2).
  fold roots1 in A1, B1, D1. fold roots2 in A2, B2, D2.
  destruct (declared _ _ _ R1) as (reg1 & _ & M1 & E1 & _), (declared _ _ _ R2) as (reg2 & _ & M2 & E2 & _).
  pose proof c12 as G12. pose proof c21 as G21. unfold get_all_report_elements in G12, G21. pose proof Halike as Ha. rewrite E1 in *. rewrite E2 in *.
  pose proof (parts_perm "xbrli:context" _ _ Proots) as Pc. pose proof (parts_perm "xbrli:unit" _ _ Proots) as Pu.
  pose proof (contexts_alike_to _ _ Pc Hnamed reg1 reg2 M1 M2 G21 Ha) as Ha2.
  apply exact_facts in D1; [|exact Ha]. apply exact_facts in D2; [|exact Ha2].
  assert (Q1 : Permutation (all_of (il_facts f1)) fs1).
  { apply stored_all; [|exact (f_own _ _ _ _ _ _ _ _ _ _ R1)|exact S1]. rewrite (facts_ids _ _ _ _ _ _ _ _ _ _ _ A1 D1). exact N3. }
  assert (Q2 : Permutation (all_of (il_facts f2)) fs2).
  { apply stored_all; [|exact (f_own _ _ _ _ _ _ _ _ _ _ R2)|exact S2]. rewrite (facts_ids _ _ _ _ _ _ _ _ _ _ _ A2 D2).
    eapply Permutation_NoDup; [|exact N3]. apply ids_perm. pose proof (Permutation_map plain (fact_trees _ _ Proots)) as K. rewrite !map_map in K. exact K. }
  eapply Permutation_trans; [apply Permutation_map, Q1|]. eapply Permutation_trans; [|apply Permutation_map, Permutation_sym, Q2].
  apply (on_trees _ _ _ _ _ _ _ _ _ _ _ A1) in D1. apply (on_trees _ _ _ _ _ _ _ _ _ _ _ A2) in D2.
  eapply kinds_perm; [exact (fact_trees _ _ Proots)|exact D1|exact D2|].
  intros t x y (p & n & K1 & <- & K3 & K4) (p' & n' & K1' & K2' & K3' & K4').
  refine (inline_one parse_date py_float era_valid tostring _ _ (finds _ _ M1 M2 G12) (finds _ _ M2 M1 G21) _ _ _ _ Pc N1 Pu N2 _ _ (cont_trees _ _ Proots) N4 us1 us2 B1 B2 p p' n n' x y _ K3 K3' K4 K4').
  symmetry. exact K2'.
Qed.
End Facts.
End Two.
End Order.

(** The inline filing of InlineSameProps meets the hypotheses, with its documents in their order and backwards. *)
Definition y_trees : list (str * tree) := InlineSameProps.y_trees [InlineSameProps.y_related] InlineSameProps.y_kids.
Definition y_back (back : bool) : res inline_filing :=
  parse_inline_filing FootProps.env0 InlineSameProps.y_tostring 100 CtxProps.iso_date (fun _ => Some false) (fun _ => Ok true) (fun _ => []) (fun _ => 1%Q)
    (fun _ l => l) (fun _ l => l) (fun l => l) (if back then rev y_trees else y_trees) [].
Definition y_reads (trees : list (str * tree)) : inline_filing -> Prop :=
  reads_inline FootProps.env0 InlineSameProps.y_tostring CtxProps.iso_date (fun _ => Some false) (fun _ => Ok true) (fun _ => []) (fun _ => 1%Q) trees [].
Lemma y_back_reads back f : y_back back = Ok f -> y_reads (if back then rev y_trees else y_trees) f.
Proof.
  unfold y_back, y_reads, reads_inline. generalize (if back then rev y_trees else y_trees). intros trees E. exists 100, (fun _ l => l), (fun _ l => l), (fun l => l).
  split; [exact LinkProps.same_order|]. split; [intros l; apply Permutation_refl|exact E].
Qed.
Example C109_inline_example_hypotheses : Permutation y_trees (rev y_trees) /\ declared_once y_trees /\
  ConceptLoad.prefixes_usual (plain_trees y_trees) /\ LinkSpec.all_usual (dict_values (plain_trees y_trees)).
Proof.
  destruct InlineSameProps.C100_example_declared as (A & B & _). split; [apply Permutation_rev|]. split; [|split; [exact B|exact InlineSameProps.C100_example_links]].
  split; [exact A|]. destruct OrderProps.x_once as (_ & N & I & _).
  assert (D : ConceptSpec.all_decls (plain_trees y_trees) = ConceptSpec.all_decls FilingProps.x_trees) by (vm_compute; reflexivity).
  change (names_once (plain_trees y_trees) /\ ConceptSpec.ids_distinct (plain_trees y_trees)). unfold names_once, ConceptSpec.ids_distinct in *. rewrite D. split; [exact N|exact I].
Qed.
Example C109_inline_example : exists f1 f2, y_reads y_trees f1 /\ y_reads (rev y_trees) f2 /\
  map (fun x => q_local (e_name x)) (get_all_report_elements (il_filing f1)) = [u "Cash"; u "Assets"] /\
  map (fun x => q_local (e_name x)) (get_all_report_elements (il_filing f2)) = [u "Cash"; u "Assets"] /\
  map (fun x => map LangModel.l_text (labels_in (il_filing f2) x)) (get_all_report_elements (il_filing f2)) = [[u "Cash"; u "Money"]; []].
Proof.
  destruct (InlineSameProps.inline_case (y_back false) (fun f => map (fun x => q_local (e_name x)) (get_all_report_elements (il_filing f)) = [u "Cash"; u "Assets"])) as (f1 & E1 & S1); [vm_compute; reflexivity|].
  destruct (InlineSameProps.inline_case (y_back true) (fun f => map (fun x => q_local (e_name x)) (get_all_report_elements (il_filing f)) = [u "Cash"; u "Assets"] /\
    map (fun x => map LangModel.l_text (labels_in (il_filing f) x)) (get_all_report_elements (il_filing f)) = [[u "Cash"; u "Money"]; []])) as (f2 & E2 & S2 & S3); [vm_compute; repeat split|].
  exists f1, f2. split; [exact (y_back_reads false _ E1)|]. split; [exact (y_back_reads true _ E2)|]. auto.
Qed.
(** It has two facts, and they meet the hypotheses about facts. *)
Lemma ids_decide (l : list str) : (fix once (l : list str) := match l with [] => true | i :: l => negb (existsb (str_eqb i) l) && once l end) l = true -> NoDup l.
Proof.
  induction l as [|i l IH]; intros H; constructor; apply andb_true_iff in H as [H H']; [|apply IH, H'].
  intros K. apply negb_true_iff in H. rewrite (proj2 (existsb_exists _ _)) in H; [discriminate H|]. exists i. split; [exact K|apply str_eqb_refl].
Qed.
Example C109_inline_example_resources : let roots := instance_roots (dict_values y_trees) in
  length (fact_places roots) = 2 /\ resources_once roots /\ named_contexts (resource_parts "xbrli:context" roots) /\
  (forall p, In p (fact_places roots) -> usual_prefix p) /\ FootSpec.lists_sets (FootModel.e_set FootProps.env0) /\ no_period_word CtxProps.iso_date /\
  forall rep, contexts_alike rep (resource_parts "xbrli:context" roots).
Proof.
  intros roots. split; [vm_compute; reflexivity|]. split.
  { split; [apply ids_decide; vm_compute; reflexivity|]. split; [apply ids_decide; vm_compute; reflexivity|]. split; [apply ids_decide; vm_compute; reflexivity|].
    apply ids_decide; vm_compute; reflexivity. }
  split.
  { assert (K : forallb (has_local (u "context")) (resource_parts "xbrli:context" roots) = true) by (vm_compute; reflexivity). rewrite forallb_forall in K. exact K. }
  split; [exact InlineSameProps.C99_example_prefix|]. split; [exact FootProps.env0_sets|]. split; [exact CtxProps.sample_no_period_word|].
  intros rep. destruct (InlineSameProps.C99_example_exact rep) as (A & B & C & D & F & _). split; [exact A|]. split; [exact B|]. split; [exact C|]. split; [exact D|exact F].
Qed.
Example C109_inline_example_facts : exists f1 f2, y_reads y_trees f1 /\ y_reads (rev y_trees) f2 /\ fl_errors (il_filing f1) = [] /\ fl_errors (il_filing f2) = [] /\
  map (fun x => f_value (if_fact x)) (all_of (il_facts f1)) = map (fun x => f_value (if_fact x)) (all_of (il_facts f2)) /\ length (all_of (il_facts f1)) = 2.
Proof.
  pose (vals := match y_back false with Ok f => map (fun x => f_value (if_fact x)) (all_of (il_facts f)) | Raise _ => [] end).
  destruct (InlineSameProps.inline_case (y_back false) (fun f => fl_errors (il_filing f) = [] /\ map (fun x => f_value (if_fact x)) (all_of (il_facts f)) = vals /\ length (all_of (il_facts f)) = 2))
    as (f1 & E1 & S1 & S2 & S3); [vm_compute; repeat split|].
  destruct (InlineSameProps.inline_case (y_back true) (fun f => fl_errors (il_filing f) = [] /\ map (fun x => f_value (if_fact x)) (all_of (il_facts f)) = vals)) as (f2 & E2 & S4 & S5); [vm_compute; repeat split|].
  exists f1, f2. split; [exact (y_back_reads false _ E1)|]. split; [exact (y_back_reads true _ E2)|]. split; [exact S1|]. split; [exact S4|]. split; [rewrite S2, S5; reflexivity|exact S3].
Qed.

Print Assumptions C109_inline_declared_partial.
Print Assumptions C109_inline_elements_partial.
Print Assumptions C109_inline_labels_partial.
Print Assumptions C109_inline_shown_partial.
Print Assumptions C109_inline_below_partial.
Print Assumptions C109_inline_components.
Print Assumptions C109_inline_facts_partial.
