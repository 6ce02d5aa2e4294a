(** Property C109: the order in which the documents of a filing are found makes no difference to it. *)
From Coq Require Import QArith Permutation.
From Verif Require Import Base QNameModel ErrBase ErrTable ErrModel CtxModel CtxSpec CtxProofs CtxParseProofs CtxExactProofs.
From Verif Require DtsSpec DtsModel DtsLoad DtsProps.
From Verif Require CtxProps CtxReportSpec CtxReportProofs ConceptModel ConceptSpec ConceptLoad ConceptProps ConceptOpen NetModel NetSpec LangModel LinkModel LinkSpec
  LinkProofs LinkProps LinkReadSpec LinkReadProofs CompModel CompSpec.
From Verif Require Import FilingModel FilingSpec FilingProofs FilingStages FilingOpenSpec FilingProps FilingOpenProps OrderSpec OrderProofs.
Local Open Scope nat_scope.

Section Order.
Variable parse_date : str -> res date.
Variable element_str : xml -> str.
Variable number : str -> Q.
Notation reads := (FilingProps.reads parse_date element_str number).

(** The report elements are the same, with all that is declared of them. *)
Lemma made_same trees1 trees2 es f1 f2 : Permutation trees1 trees2 -> reads trees1 es f1 -> reads trees2 es f2 ->
  NoDup (map fst trees1) -> ConceptLoad.prefixes_usual trees1 -> names_once trees1 ->
  Permutation (ConceptModel.rr_get_all (fl_elements f1)) (ConceptModel.rr_get_all (fl_elements f2)).
Proof.
  intros P R1 R2 Hk Hp Ho. destruct (f_assembled _ _ _ _ _ _ R1) as (e1 & s1 & A1 & _), (f_assembled _ _ _ _ _ _ R2) as (e2 & s2 & A2 & _).
  exact (registered_to _ _ _ _ _ _ _ _ P Hk Hp Ho (as_declared _ _ _ _ _ _ _ _ _ A1) (as_declared _ _ _ _ _ _ _ _ _ A2)).
Qed.
Lemma elements_to trees1 trees2 es f1 f2 : Permutation trees1 trees2 -> reads trees1 es f1 -> reads trees2 es f2 ->
  NoDup (map fst trees1) -> ConceptLoad.prefixes_usual trees1 -> names_once trees1 ->
  corresponding (get_all_report_elements f1) (get_all_report_elements f2).
Proof.
  intros P R1 R2 Hk Hp Ho. pose proof (made_same _ _ _ _ _ P R1 R2 Hk Hp Ho) as M. destruct (f_elements _ _ _ _ _ _ R1) as (reg1 & N1 & E1), (f_elements _ _ _ _ _ _ R2) as (reg2 & N2 & E2).
  unfold get_all_report_elements. rewrite E1, E2 in *. rewrite !ConceptLoad.stored_all in M by assumption. apply registered_elements; assumption.
Qed.

Section Two.
Variables trees1 trees2 : list (str * xml).
Variable es : repo xml.
Variables f1 f2 : filing.
Hypothesis Hperm : Permutation trees1 trees2.
Hypothesis R1 : reads trees1 es f1.
Hypothesis R2 : reads trees2 es f2.
Hypothesis Hprefixes : ConceptLoad.prefixes_usual trees1.
Hypothesis Honce : once trees1.

Lemma c12 : corresponding (get_all_report_elements f1) (get_all_report_elements f2).
Proof. destruct Honce as (A & B & _). exact (elements_to _ _ _ _ _ Hperm R1 R2 A Hprefixes B). Qed.
Lemma c21 : corresponding (get_all_report_elements f2) (get_all_report_elements f1).
Proof.
  destruct (once_to _ _ Hperm Honce) as (A & B & _). exact (elements_to _ _ _ _ _ (Permutation_sym Hperm) R2 R1 A (prefixes_to _ _ Hperm Hprefixes) B).
Qed.
Lemma n1 : NoDup (map e_name (get_all_report_elements f1)).
Proof. exact (C94_names _ _ _ _ _ _ R1). Qed.
Lemma n2 : NoDup (map e_name (get_all_report_elements f2)).
Proof. exact (C94_names _ _ _ _ _ _ R2). Qed.
End Two.

(** In documents without repeated ids, no two report elements have the same id. *)
Lemma ids_registered trees es reg e1 : ConceptModel.parse_report_elements trees (ConceptModel.empty_rrepo, es) = Ok (ConceptLoad.stored reg, e1) ->
  NoDup (map ConceptModel.r_name reg) -> ConceptLoad.prefixes_usual trees -> NoDup (map fst trees) -> ConceptSpec.ids_distinct trees ->
  forall e e' i, In e (QNameModel.get_all (repository_of (ConceptLoad.stored reg))) -> In e' (QNameModel.get_all (repository_of (ConceptLoad.stored reg))) ->
    e_id e = Some i -> e_id e' = Some i -> e = e'.
Proof.
  intros H N Hp Hk Hi e e' i He He' E E'. destruct (ConceptProps.C56_first_declaration _ _ _ _ Hk Hp H) as (D & _). rewrite ConceptLoad.stored_all in D by exact N.
  apply (by_name (QNameModel.get_all (repository_of (ConceptLoad.stored reg)))); [rewrite (all_elements reg N), map_map; exact N|exact He|exact He'|].
  rewrite (all_elements reg N) in He, He'. apply in_map_iff in He as (x & <- & Hx). apply in_map_iff in He' as (x' & <- & Hx'). cbn [element_of e_id e_name] in *.
  apply D in Hx as (b & [[root tns] y] & a & E1 & (M1 & M2 & _) & _). apply D in Hx' as (b' & [[root' tns'] y'] & a' & E1' & (M1' & M2' & _) & _).
  destruct (same_split (fun d d' : ConceptSpec.decl => forall i, attr (snd d) (u "id") = Some i -> attr (snd d') (u "id") <> Some i)
    (ConceptSpec.all_decls trees) b (root, tns, y) a b' (root', tns', y') a') as [S|S]; try assumption.
  - intros a0 z b0 z' c0 Ea j. eapply Hi. exact Ea.
  - intros z z' R' j A B. exact (R' j B A).
  - injection S as <- <- <-. exact (ConceptLoad.named_one _ _ _ M1 M1').
  - exfalso. cbn [snd] in S. apply (S i); congruence.
Qed.
Lemma ids_of trees es f : reads trees es f -> ConceptLoad.prefixes_usual trees -> once trees ->
  forall e e' i, In e (get_all_report_elements f) -> In e' (get_all_report_elements f) -> e_id e = Some i -> e_id e' = Some i -> e = e'.
Proof.
  intros R Hp Ho. destruct (f_assembled _ _ _ _ _ _ R) as (e1 & s1 & A & _). pose proof (as_declared _ _ _ _ _ _ _ _ _ A) as D.
  destruct (f_elements _ _ _ _ _ _ R) as (reg & N & E). unfold get_all_report_elements. rewrite E in *. destruct Ho as (Hk & _ & Hi & _). exact (ids_registered _ _ _ _ D N Hp Hk Hi).
Qed.

(** The facts are those that are written. *)
Definition fact_is (rep : repository) (ix : xml * xml) (y : fact) : Prop :=
  fact_as (concept_exact rep) unit_exact entity_exact (period_exact parse_date) (explicit_exact rep) (typed_exact rep) (fst ix) (snd ix) y.
Lemma exact_facts trees es f : reads trees es f -> alike (repository_of (fl_elements f)) (dict_values trees) -> plainly_written (dict_values trees) -> no_period_word parse_date ->
  exists os, Forall2 (fun ix o => match o with Some y => fact_is (repository_of (fl_elements f)) ix y | None => True end /\
      (o <> None <-> CtxReportSpec.has_fact (repository_of (fl_elements f)) (fst ix) (snd ix) = true)) (all_fact_elements (dict_values trees)) os /\
    fl_facts f = fold_left facts_upsert (somes os) empty_facts.
Proof.
  intros R (H1 & H2 & H3 & H4 & H5) (H6 & H7) H8. destruct (f_assembled _ _ _ _ _ _ R) as (es1 & s & _ & P & ->).
  destruct (CtxReportProofs.facts_says parse_date _ _ _ H2 H3 H7 H8 _ _ (start_inv parse_date _ _ es1)
    (conj (fun _ => eq_refl) (fun id (K : In id []) => match K with end)) P) as (os & Hos & [_ Ha] & _). cbn [s_facts] in Ha.
  exists (map fst os). split; [|exact Ha]. clear P Ha. set (rep := repository_of (fl_elements f)) in *. set (docs := dict_values trees) in *.
  assert (G : Forall2 (outcome_of (concept_exact rep) unit_exact entity_exact (period_exact parse_date)
                        (explicit_exact rep) (typed_exact rep)) (all_fact_elements docs) os).
  { assert (J : Forall2 (outcome_of (concept_shared rep docs) (unit_shared docs) (entity_shared docs)
                        (period_shared parse_date) (explicit_shared rep docs) (typed_shared rep docs)) (all_fact_elements docs) os).
    { revert Hos. generalize (all_fact_elements docs). intros l Hos. induction Hos as [|ix o l os [Ho _] _ IH]; constructor; assumption. }
    revert J. apply outcomes_mono.
    - intros x e Hx. apply concept_to_exact with (docs := docs); assumption.
    - intros i id c Hi. apply unit_to_exact; assumption.
    - intros x r Hx. apply entity_to_exact; assumption.
    - intros x r Hx. apply period_to_exact; auto.
    - intros x r Hx. apply explicit_to_exact; assumption.
    - intros x r Hx. apply typed_to_exact; assumption. }
  revert Hos G. generalize (all_fact_elements docs). intros l Hos. induction Hos as [|ix o l os [_ Ho] _ IH]; intros G; inversion G as [|? ? ? ? G1 G2]; subst; cbn [map]; constructor; [|auto].
  split; [|rewrite <- Ho; destruct (fst o); cbn; split; congruence]. unfold outcome_of in G1. destruct (fst o); [exact G1|exact Logic.I].
Qed.

Section Two2.
Variables trees1 trees2 : list (str * xml).
Variable es : repo xml.
Variables f1 f2 : filing.
Hypothesis Hperm : Permutation trees1 trees2.
Hypothesis R1 : reads trees1 es f1.
Hypothesis R2 : reads trees2 es f2.
Hypothesis Hprefixes : ConceptLoad.prefixes_usual trees1.
Hypothesis Honce : once trees1.
Let docs := dict_values trees1.

(** The report elements are the same, with all that is declared of them, but for their order and
    numbers. *)
Theorem C109_declared_partial : Permutation (ConceptModel.rr_get_all (fl_elements f1)) (ConceptModel.rr_get_all (fl_elements f2)).
Proof. destruct Honce as (A & B & _). exact (made_same _ _ _ _ _ Hperm R1 R2 A Hprefixes B). Qed.
Theorem C109_elements_partial : Permutation (map apart (get_all_report_elements f1)) (map apart (get_all_report_elements f2)).
Proof.
  apply elements_perm; [exact (c12 _ _ _ _ _ Hperm R1 R2 Hprefixes Honce)|exact (c21 _ _ _ _ _ Hperm R1 R2 Hprefixes Honce)|exact (n1 _ _ _ R1)|exact (n2 _ _ _ R2)].
Qed.

Section Usual.
Hypothesis Husual : LinkSpec.all_usual docs.

(** They have the same labels. *)
Theorem C109_labels_partial e1 e2 l : In e1 (get_all_report_elements f1) -> In e2 (get_all_report_elements f2) -> apart e1 = apart e2 ->
  (In l (labels_in f1 e1) <-> In l (labels_in f2 e2)).
Proof.
  intros H1 H2 E. rewrite (C92_labels _ _ _ _ _ _ R1 Husual e1 l H1), (C92_labels _ _ _ _ _ _ R2 (usual_to _ _ Hperm Husual) e2 l H2).
  pose proof (c12 _ _ _ _ _ Hperm R1 R2 Hprefixes Honce) as C12. pose proof (c21 _ _ _ _ _ Hperm R1 R2 Hprefixes Honce) as C21. split; intros H.
  - eapply labelled_to; try eassumption; [exact (n1 _ _ _ R1)|exact (n2 _ _ _ R2)|exact (ids_of _ _ _ R1 Hprefixes Honce)].
  - eapply labelled_to; try eassumption; [exact (Permutation_sym Hperm)|exact (n2 _ _ _ R2)|exact (n1 _ _ _ R1)| |symmetry; exact E].
    exact (ids_of _ _ _ R2 (prefixes_to _ _ Hperm Hprefixes) (once_to _ _ Hperm Honce)).
Qed.

(** The networks of a role and kind show the same report elements, one below another in the same way. *)
Theorem C109_shown_partial k role e1 e2 : NetModel.is_physical k = false ->
  In e1 (get_all_report_elements f1) -> In e2 (get_all_report_elements f2) -> apart e1 = apart e2 ->
  ((exists w, of_kind f1 k role w /\ in_network f1 w e1) <-> exists w, of_kind f2 k role w /\ in_network f2 w e2).
Proof.
  intros Hk H1 H2 E. rewrite (C91_shown _ _ _ _ _ _ R1 Husual k role e1 Hk), (C91_shown _ _ _ _ _ _ R2 (usual_to _ _ Hperm Husual) k role e2 Hk).
  pose proof (c12 _ _ _ _ _ Hperm R1 R2 Hprefixes Honce) as C12. pose proof (c21 _ _ _ _ _ Hperm R1 R2 Hprefixes Honce) as C21.
  pose proof (ids_of _ _ _ R1 Hprefixes Honce) as I1. pose proof (ids_of _ _ _ R2 (prefixes_to _ _ Hperm Hprefixes) (once_to _ _ Hperm Honce)) as I2.
  split; intros (link & outside & A & B & C & D); exists link, outside; (split; [apply (links_to _ _ Hperm), A|]); (split; [exact B|]); (split; [exact C|]).
  - eapply mentioned_to; try eassumption; [exact (n1 _ _ _ R1)|exact (n2 _ _ _ R2)].
  - eapply mentioned_to; try eassumption; [exact (n2 _ _ _ R2)|exact (n1 _ _ _ R1)|symmetry; exact E].
Qed.
Theorem C109_below_partial k role e1 d1 e2 d2 : NetModel.is_physical k = false ->
  In e1 (get_all_report_elements f1) -> In e2 (get_all_report_elements f2) -> apart e1 = apart e2 ->
  In d1 (get_all_report_elements f1) -> In d2 (get_all_report_elements f2) -> apart d1 = apart d2 ->
  ((exists w, of_kind f1 k role w /\ below_in f1 w e1 d1) <-> exists w, of_kind f2 k role w /\ below_in f2 w e2 d2).
Proof.
  intros Hk H1 H2 E G1 G2 F. rewrite (C91_below _ _ _ _ _ _ R1 Husual k role e1 d1 Hk), (C91_below _ _ _ _ _ _ R2 (usual_to _ _ Hperm Husual) k role e2 d2 Hk).
  pose proof (c12 _ _ _ _ _ Hperm R1 R2 Hprefixes Honce) as C12. pose proof (c21 _ _ _ _ _ Hperm R1 R2 Hprefixes Honce) as C21.
  pose proof (ids_of _ _ _ R1 Hprefixes Honce) as I1. pose proof (ids_of _ _ _ R2 (prefixes_to _ _ Hperm Hprefixes) (once_to _ _ Hperm Honce)) as I2.
  split; intros (link & outside & A & B & C & D); exists link, outside; (split; [apply (links_to _ _ Hperm), A|]); (split; [exact B|]); (split; [exact C|]).
  - eapply put_below_to; [| | | | |exact D| | | |]; try eassumption; [exact (n1 _ _ _ R1)|exact (n2 _ _ _ R2)].
  - eapply put_below_to; [| | | | |exact D| | | |]; try eassumption; [exact (n2 _ _ _ R2)|exact (n1 _ _ _ R1)|symmetry; exact E|symmetry; exact F].
Qed.
End Usual.

(** The components are the same: their roles and what they are called. *)
Theorem C109_components : Permutation (map (fun c => (CompModel.get_URI c, CompModel.get_info c)) (get_all_components f1))
  (map (fun c => (CompModel.get_URI c, CompModel.get_info c)) (get_all_components f2)).
Proof.
  destruct (f_components _ _ _ _ _ _ R1) as (_ & _ & F1 & _), (f_components _ _ _ _ _ _ R2) as (_ & _ & F2 & _). unfold get_all_components.
  eapply kinds_perm; [|exact F1|exact F2|].
  - apply Permutation_flat_map, (docs_perm _ _ Hperm).
  - intros x c c' (A & (uri & k & B & C & D) & _) (A' & (uri' & k' & B' & C' & D') & _). unfold CompModel.get_URI, CompModel.get_info. unfold CompSpec.link_at in B, B'. rewrite B in B'. injection B' as <-.
    rewrite (first_such_one _ _ _ _ C C') in D. congruence.
Qed.

Section Facts.
Hypothesis Halike : alike (repository_of (fl_elements f1)) docs.
Hypothesis Hplain : plainly_written docs.
Hypothesis Hword : no_period_word parse_date.

(** The facts are the same, but for their order and the numbers of report elements. *)
Theorem C109_facts_partial : Permutation (map fact_apart (get_all_facts f1)) (map fact_apart (get_all_facts f2)).
Proof.
  destruct (f_elements _ _ _ _ _ _ R1) as (reg1 & N1 & E1), (f_elements _ _ _ _ _ _ R2) as (reg2 & N2 & E2).
  pose proof (c12 _ _ _ _ _ Hperm R1 R2 Hprefixes Honce) as C12. pose proof (c21 _ _ _ _ _ Hperm R1 R2 Hprefixes Honce) as C21.
  unfold get_all_report_elements in C12, C21. pose proof Halike as A1. rewrite E1, E2 in *.
  pose proof (alike_to _ _ _ _ Hperm N1 N2 C21 A1) as A2. pose proof (finds _ _ N1 N2 C12) as T12. pose proof (finds _ _ N2 N1 C21) as T21.
  destruct (exact_facts _ _ _ R1) as (os1 & F1 & S1); [rewrite E1; exact A1|exact Hplain|exact Hword|].
  destruct (exact_facts _ _ _ R2) as (os2 & F2 & S2); [rewrite E2; exact A2|exact (plainly_to _ _ Hperm Hplain)|exact Hword|].
  rewrite E1 in F1. rewrite E2 in F2. unfold get_all_facts. rewrite S1, S2.
  destruct Honce as (_ & _ & _ & D1). pose proof (fact_ids_to _ _ Hperm D1) as D2.
  eapply facts_perm; [exact (fact_elements_perm _ _ Hperm)|exact T12|exact T21| | | |exact D1|exact D2|exact F1|exact F2].
  - intros ix y H. eapply fact_as_id. exact H.
  - intros ix y H. eapply fact_as_id. exact H.
  - intros ix y y' H H'. exact (fact_one _ _ _ T12 T21 _ _ _ _ H H').
Qed.
End Facts.
End Two2.

(** ** Reading to the end *)

Lemma opens_to trees1 trees2 es : Permutation trees1 trees2 -> once trees1 -> ConceptLoad.prefixes_usual trees1 -> LinkSpec.all_usual (dict_values trees1) ->
  (forall d, In d (dict_values trees1) -> x_tag d <> Some (u "{http://xbrl.org/2003/linkbase}linkbase")) ->
  one_unit (dict_values trees1) -> (forall r e1, elements_read trees1 es r e1 -> one_concept (repository_of r) (dict_values trees1)) ->
  plainly_written (dict_values trees1) -> no_period_word parse_date -> no_circles (dict_values trees1) ->
  (exists f, reads trees1 es f) -> exists f, reads trees2 es f.
Proof.
  intros P Ho Hp Hu Ht Hun Hco [Hpl1 Hpl2] Hw Hc. pose proof Ho as (Hk & Hn & Hi & _).
  pose proof (once_to _ _ P Ho) as Ho2. pose proof Ho2 as (Hk2 & Hn2 & Hi2 & _). pose proof (prefixes_to _ _ P Hp) as Hp2. pose proof (usual_to _ _ P Hu) as Hu2.
  set (eo := fun (_ : nat) (l : list NetModel.edge) => l). set (ro := fun (_ : nat) (l : list nat) => l). set (sh := fun l : list nat => l).
  assert (Oo : LinkSpec.orders eo ro) by (split; intros n l; apply Permutation_refl). assert (Os : NetSpec.some_order sh) by (intros l; apply Permutation_refl).
  intros H. apply (C106_any_order_partial _ _ _ _ _ Hk Hp Hu Ht Hun Hco Hpl1 Hpl2 Hw eo ro sh Oo Os) in H.
  apply (C106_opens_partial _ _ _ _ _ Hk Hp Hu Ht Hun Hco Hpl1 Hpl2 Hw eo ro sh Oo Os) in H as (Hd & Hr & Hroles).
  pose proof (proj2 (ConceptOpen.declarations_iff trees1 es Hk Hp) Hd) as ([r1 e1] & E1). specialize (Hr r1 e1 E1) as [Hf Hl]. specialize (Hco r1 e1 E1).
  destruct (elements_stored _ _ _ E1) as (reg1 & N1 & Er1). cbn [fst] in Er1.
  assert (Hd2 : ConceptOpen.declarable trees2) by exact (declarable_to _ _ P Hn Hd).
  pose proof (proj2 (ConceptOpen.declarations_iff trees2 es Hk2 Hp2) Hd2) as ([r2 e2] & E2). destruct (elements_stored _ _ _ E2) as (reg2 & N2 & Er2). cbn [fst] in Er2.
  pose proof (registered_to _ _ _ _ _ _ _ _ P Hk Hp Hn E1 E2) as M. rewrite Er1, Er2 in M. rewrite !ConceptLoad.stored_all in M by assumption.
  pose proof (registered_elements _ _ N1 N2 M) as C12. pose proof (registered_elements _ _ N2 N1 (Permutation_sym M)) as C21.
  pose proof (finds _ _ N1 N2 C12) as T12. pose proof (finds _ _ N2 N1 C21) as T21.
  assert (Hco2 : forall r e, elements_read trees2 es r e -> one_concept (repository_of r) (dict_values trees2)).
  { intros r e H. unfold elements_read in H. rewrite E2 in H. injection H as <- <-. rewrite Er2. apply (one_concept_to _ _ reg1 reg2 P N1 N2 C21). rewrite <- Er1. exact Hco. }
  assert (Ht2 : forall d, In d (dict_values trees2) -> x_tag d <> Some (u "{http://xbrl.org/2003/linkbase}linkbase")) by (intros d Hd'; apply Ht, (docs_in _ _ P), Hd').
  assert (Hun2 : one_unit (dict_values trees2)) by (intros i j id x y A B; apply (Hun i j id x y); apply (docs_in _ _ P); assumption).
  destruct (plainly_to _ _ P (conj Hpl1 Hpl2)) as [Hq1 Hq2].
  apply (C106_any_order_partial _ _ _ _ _ Hk2 Hp2 Hu2 Ht2 Hun2 Hco2 Hq1 Hq2 Hw eo ro sh Oo Os).
  apply (C106_opens_partial _ _ _ _ _ Hk2 Hp2 Hu2 Ht2 Hun2 Hco2 Hq1 Hq2 Hw eo ro sh Oo Os). split; [exact Hd2|]. split.
  - intros r e H. unfold elements_read in H. rewrite E2 in H. injection H as <- <-. rewrite Er1 in Hf, Hl. rewrite Er2. split.
    + intros i x Hx. rewrite <- (fact_ok_to parse_date _ _ T12 T21). apply Hf, (fact_elements_in _ _ P), Hx.
    + intros find Hfind. specialize (Hl find). destruct Hl as [Hl _].
      * intros i. eapply points_to; [exact C21|exact C12| | | | |apply Hfind].
        -- rewrite (all_elements reg2 N2), map_map. exact N2.
        -- rewrite (all_elements reg1 N1), map_map. exact N1.
        -- rewrite Er2 in E2. exact (ids_registered _ _ _ _ E2 N2 Hp2 Hk2 Hi2).
        -- split; intros (d & x & A & B & C); exists d, x; (split; [apply (fact_elements_in _ _ P), A|]); (split; [|exact C]); rewrite <- B; [symmetry|]; apply has_fact_to; assumption.
      * split; [intros link outside k A; apply Hl, (links_to _ _ P), A|].
        intros l Hread pre link outside mid link' outside' post role k El _ _ J _ K' _ T. eapply turns_chain; [exact T|]. apply (Hc link' outside' k); [|exact K'|exact J].
        apply (links_to _ _ P). apply (LinkReadProofs.links_as_read_iff _ _ Hu2) in Hread. apply LinkProofs.in_all_links, LinkProofs.in_sorted_links. rewrite <- Hread, El.
        apply in_or_app. right. right. apply in_elt.
  - intros x Hx. apply Hroles. rewrite in_flat_map in *. destruct Hx as (d & A & B). exists d. split; [apply (docs_in _ _ P), A|exact B].
Qed.

(** In one order the documents can be read to their end if and only if they can in any other, if no
    presentation, calculation or definition link has arcs that lead back. *)
Theorem C109_opens_partial trees1 trees2 es : Permutation trees1 trees2 -> once trees1 -> ConceptLoad.prefixes_usual trees1 -> LinkSpec.all_usual (dict_values trees1) ->
  (forall d, In d (dict_values trees1) -> x_tag d <> Some (u "{http://xbrl.org/2003/linkbase}linkbase")) ->
  one_unit (dict_values trees1) -> (forall r e1, elements_read trees1 es r e1 -> one_concept (repository_of r) (dict_values trees1)) ->
  plainly_written (dict_values trees1) -> no_period_word parse_date -> no_circles (dict_values trees1) ->
  ((exists f, reads trees1 es f) <-> exists f, reads trees2 es f).
Proof.
  intros P Ho Hp Hu Ht Hun Hco Hpl Hw Hc. split; [eapply opens_to; eassumption|].
  assert (Hco2 : forall r e, elements_read trees2 es r e -> one_concept (repository_of r) (dict_values trees2)).
  { intros r2 e2 E2. pose proof Ho as (Hk & Hn & _). pose proof (once_to _ _ P Ho) as (Hk2 & Hn2 & _). pose proof (prefixes_to _ _ P Hp) as Hp2.
    pose proof (proj1 (ConceptOpen.declarations_iff trees2 es Hk2 Hp2) (ex_intro _ (r2, e2) E2)) as D2.
    pose proof (declarable_to _ _ (Permutation_sym P) Hn2 D2) as D1. pose proof (proj2 (ConceptOpen.declarations_iff trees1 es Hk Hp) D1) as ([r1 e1] & E1).
    destruct (elements_stored _ _ _ E1) as (reg1 & N1 & Er1), (elements_stored _ _ _ E2) as (reg2 & N2 & Er2). cbn [fst] in Er1, Er2.
    pose proof (registered_to _ _ _ _ _ _ _ _ P Hk Hp Hn E1 E2) as M. rewrite Er1, Er2 in M. rewrite !ConceptLoad.stored_all in M by assumption.
    pose proof (registered_elements _ _ N2 N1 (Permutation_sym M)) as C21. rewrite Er2. apply (one_concept_to _ _ reg1 reg2 P N1 N2 C21). rewrite <- Er1. exact (Hco r1 e1 E1). }
  apply opens_to; try assumption.
  - apply Permutation_sym, P.
  - exact (once_to _ _ P Ho).
  - exact (prefixes_to _ _ P Hp).
  - exact (usual_to _ _ P Hu).
  - intros d Hd. apply Ht, (docs_in _ _ P), Hd.
  - intros i j id x y A B. apply (Hun i j id x y); apply (docs_in _ _ P); assumption.
  - exact (plainly_to _ _ P Hpl).
  - intros link outside k A. apply (Hc link outside k), (links_to _ _ P), A.
Qed.
End Order.

(** ** Finding the documents *)

(** The same world, in which sets have another order *)
Definition reordered {tree} (w : DtsModel.world tree) (order : list str -> list str) : DtsModel.world tree :=
  DtsModel.World (DtsModel.w_urljoin w) (DtsModel.w_path w) (DtsModel.w_remote w) (DtsModel.w_local w) (DtsModel.w_parse w) order.

Lemma reachable_mono succ (roots1 roots2 : list str) v : (forall x, In x roots1 -> In x roots2) -> DtsSpec.reachable succ roots1 v -> DtsSpec.reachable succ roots2 v.
Proof. intros H R. induction R as [v Hv|v x _ IH Hx]; [apply DtsSpec.reach_root, H, Hv|exact (DtsSpec.reach_step _ _ v x IH Hx)]. Qed.
Lemma loads_one {tree} (w : DtsModel.world tree) v t t' : DtsLoad.loads_as w v t -> DtsLoad.loads_as w v t' -> t = t'.
Proof. intros (p & text & A & B & C & _) (p' & text' & A' & B' & C' & _). rewrite A in A'. injection A' as <-. rewrite B in B'. injection B' as <-. rewrite C in C'. injection C' as <-. reflexivity. Qed.
Lemma in_get {V} (d : list (str * V)) k v : NoDup (dict_keys d) -> In (k, v) d <-> dict_get str_eqb d k = Some v.
Proof.
  intros H. split; [|apply (dict_get_in _ str_eqb_spec)]. unfold dict_keys in H. induction d as [|[k' v'] d IH]; [intros []|].
  cbn [map fst] in H. inversion H as [|? ? N N']; subst. intros [E|E]; cbn [dict_get].
  - injection E as -> ->. destruct (str_eqb_spec k k) as [_|X]; [reflexivity|congruence].
  - destruct (str_eqb_spec k' k) as [->|X]; [|exact (IH N' E)]. exfalso. apply N. apply in_map_iff. exists (k, v). auto.
Qed.

Section Found.
Context {tree : Type} (w : DtsModel.world tree) (r : DtsModel.rules) (U : list str).
Hypothesis Hs : DtsLoad.separate w r U.

Lemma sep order : DtsLoad.separate (reordered w order) r U.
Proof. destruct Hs as [A B C D E]. constructor; assumption. Qed.
Lemma found_in order1 order2 fuel1 fuel2 entry1 entry2 s1 s2 : NetSpec.some_order order1 -> NetSpec.some_order order2 -> (forall x, In x entry1 <-> In x entry2) ->
  (forall x, In x entry1 -> In (DtsModel.resolve w r x (u ".")) U) -> length U < fuel1 -> length U < fuel2 ->
  DtsModel.load_all (reordered w order1) r fuel1 entry1 DtsModel.empty_cache = Ok s1 ->
  DtsModel.load_all (reordered w order2) r fuel2 entry2 DtsModel.empty_cache = Ok s2 ->
  forall k t, In (k, t) (DtsModel.trees s1) -> In (k, t) (DtsModel.trees s2).
Proof.
  intros Ho1 Ho2 He Hu F1 F2 E1 E2 k t H.
  destruct (DtsProps.C35_exact_partial (reordered w order1) r U fuel1 entry1 s1 Ho1 (sep _) Hu F1 E1) as (N1 & K1 & T1).
  destruct (DtsProps.C35_exact_partial (reordered w order2) r U fuel2 entry2 s2 Ho2 (sep _) (fun x Hx => Hu x (proj2 (He x) Hx)) F2 E2) as (N2 & K2 & T2).
  assert (Hk : In k (dict_keys (DtsModel.trees s1))) by (apply in_map_iff; exists (k, t); auto).
  apply K1 in Hk as (v & R & ->). destruct (T1 v R) as (t1 & L1 & G1). apply (in_get _ _ _ N1) in H. rewrite G1 in H. injection H as ->.
  assert (R2 : DtsSpec.reachable (DtsLoad.refers (reordered w order2) r) (map (fun x => DtsModel.resolve (reordered w order2) r x (u ".")) entry2) v).
  { eapply reachable_mono; [|exact R]. intros x Hx. apply in_map_iff in Hx as (y & <- & Hy). apply in_map_iff. exists y. split; [reflexivity|apply He, Hy]. }
  destruct (T2 v R2) as (t2 & L2 & G2). rewrite <- (loads_one (reordered w order2) v t2 t L2 L1). apply (in_get _ _ _ N2). exact G2.
Qed.

(** Whatever the order in which sets are run through and entry points are given, the same documents are
    found, or none. *)
Theorem C109_found_partial order1 order2 fuel1 fuel2 entry1 entry2 : NetSpec.some_order order1 -> NetSpec.some_order order2 -> (forall x, In x entry1 <-> In x entry2) ->
  (forall x, In x entry1 -> In (DtsModel.resolve w r x (u ".")) U) -> length U < fuel1 -> length U < fuel2 ->
  match DtsModel.load_all (reordered w order1) r fuel1 entry1 DtsModel.empty_cache, DtsModel.load_all (reordered w order2) r fuel2 entry2 DtsModel.empty_cache with
  | Ok s1, Ok s2 => Permutation (DtsModel.trees s1) (DtsModel.trees s2)
  | Raise _, Raise _ => True
  | _, _ => False
  end.
Proof.
  intros Ho1 Ho2 He Hu F1 F2. assert (Hu2 : forall x, In x entry2 -> In (DtsModel.resolve w r x (u ".")) U) by (intros x Hx; apply Hu, He, Hx).
  destruct (DtsProps.C35_succeeds_iff (reordered w order1) r U fuel1 entry1 Ho1 (sep _) Hu F1) as [S1 _].
  destruct (DtsProps.C35_succeeds_iff (reordered w order2) r U fuel2 entry2 Ho2 (sep _) Hu2 F2) as [S2 _]. cbv zeta in S1, S2.
  assert (R12 : (forall v, DtsSpec.reachable (DtsLoad.refers w r) (map (fun x => DtsModel.resolve w r x (u ".")) entry1) v -> exists t, DtsLoad.loads_as w v t) <->
    (forall v, DtsSpec.reachable (DtsLoad.refers w r) (map (fun x => DtsModel.resolve w r x (u ".")) entry2) v -> exists t, DtsLoad.loads_as w v t)).
  { split; intros H v R; apply H; (eapply reachable_mono; [|exact R]); intros x Hx; apply in_map_iff in Hx as (y & <- & Hy); apply in_map_iff; exists y; (split; [reflexivity|apply He, Hy]). }
  destruct (DtsModel.load_all (reordered w order1) r fuel1 entry1 DtsModel.empty_cache) as [s1|x1] eqn:E1,
    (DtsModel.load_all (reordered w order2) r fuel2 entry2 DtsModel.empty_cache) as [s2|x2] eqn:E2.
  - destruct (DtsProps.C35_exact_partial (reordered w order1) r U fuel1 entry1 s1 Ho1 (sep _) Hu F1 E1) as (N1 & _).
    destruct (DtsProps.C35_exact_partial (reordered w order2) r U fuel2 entry2 s2 Ho2 (sep _) Hu2 F2 E2) as (N2 & _).
    apply NoDup_Permutation; [exact (NoDup_map_inv _ _ N1)|exact (NoDup_map_inv _ _ N2)|]. intros [k t]. split.
    + exact (found_in order1 order2 fuel1 fuel2 entry1 entry2 s1 s2 Ho1 Ho2 He Hu F1 F2 E1 E2 k t).
    + exact (found_in order2 order1 fuel2 fuel1 entry2 entry1 s2 s1 Ho2 Ho1 (fun x => iff_sym (He x)) Hu2 F2 F1 E2 E1 k t).
  - destruct (proj2 S2 (proj1 R12 (proj1 S1 (ex_intro _ s1 eq_refl)))) as (s & E). discriminate E.
  - destruct (proj2 S1 (proj2 R12 (proj1 S2 (ex_intro _ s2 eq_refl)))) as (s & E). discriminate E.
  - exact Logic.I.
Qed.
End Found.

(** The taxonomy of DtsProps, read in two orders *)
Example C109_found_example : NetSpec.some_order (fun l : list str => l) /\ NetSpec.some_order (@rev str) /\
  DtsLoad.separate DtsProps.example_world [] [DtsProps.uri_a; DtsProps.uri_b; DtsProps.uri_c] /\
  (do! s <- DtsModel.load_all (reordered DtsProps.example_world (fun l => l)) [] 4 [DtsProps.uri_a] DtsModel.empty_cache; Ok (dict_keys (DtsModel.trees s))) = Ok [DtsProps.uri_a; DtsProps.uri_b; DtsProps.uri_c] /\
  (do! s <- DtsModel.load_all (reordered DtsProps.example_world (@rev str)) [] 4 [DtsProps.uri_a] DtsModel.empty_cache; Ok (dict_keys (DtsModel.trees s))) = Ok [DtsProps.uri_a; DtsProps.uri_c; DtsProps.uri_b].
Proof.
  split; [intros l; apply Permutation_refl|]. split; [intros l; apply Permutation_rev|]. split; [exact (proj1 (proj2 DtsProps.C35_example))|].
  split; vm_compute; reflexivity.
Qed.
(** Two documents that the cache of files cannot tell apart: what is found depends on which comes first. *)
Theorem C109_found_refuted : let read entry := do! s <- DtsModel.load_all DtsProps.twin_world [] 9 entry DtsModel.empty_cache; Ok (dict_values (DtsModel.trees s)) in
  read [u "a/x.xsd"; u "b/x.xsd"] = Ok [u "A"; u "A"] /\ read [u "b/x.xsd"; u "a/x.xsd"] = Ok [u "B"; u "B"].
Proof. split; vm_compute; reflexivity. Qed.

(** ** Examples *)

Lemma two_decls {A} (a : list A) d b d' c x y : [x; y] = a ++ d :: b ++ d' :: c -> d = x /\ d' = y.
Proof.
  intros E. destruct a as [|z a].
  - cbn [app] in E. injection E as -> E. destruct b as [|z b]; cbn [app] in E; [injection E as -> _; split; reflexivity|].
    injection E as _ E. destruct b; discriminate E.
  - cbn [app] in E. injection E as _ E. destruct a as [|z' a]; cbn [app] in E; [injection E as _ E; destruct b; discriminate E|].
    injection E as _ E. destruct a; discriminate E.
Qed.
Lemma x_decls : ConceptSpec.all_decls x_trees = [(x_schema, u "urn:t", x_cash); (x_schema, u "urn:t", x_assets)].
Proof. vm_compute. reflexivity. Qed.
Lemma x_once : once x_trees.
Proof.
  destruct C93_example as (A & _ & _ & D). split; [exact A|]. split; [|split; [|exact D]].
  - intros a d b d' c q E N N'. rewrite x_decls in E. apply two_decls in E as [-> ->]. exfalso.
    destruct N as (n & N1 & N2), N' as (n' & N1' & N2').
    assert (n = u "Cash") by (vm_compute in N1; injection N1 as <-; reflexivity). assert (n' = u "Assets") by (vm_compute in N1'; injection N1' as <-; reflexivity). subst n n'.
    clear -N2 N2'. assert (E : qname_from_str (to_clark (u "urn:t") (u "Cash")) (x_scope x_cash) = qname_from_str (to_clark (u "urn:t") (u "Assets")) (x_scope x_assets)) by (rewrite N2, N2'; reflexivity).
    vm_compute in E. discriminate E.
  - intros a d b d' c i E N N'. rewrite x_decls in E. apply two_decls in E as [-> ->]. cbn [snd] in N, N'.
    assert (E : attr x_cash (u "id") = attr x_assets (u "id")) by congruence. vm_compute in E. discriminate E.
Qed.
Lemma x_alike f : x_reads f -> alike (repository_of (fl_elements f)) (dict_values x_trees).
Proof.
  intros R. destruct (C95_example f R) as (A & B & _). split; [|split; [exact A|split; [exact B|]]].
  - assert (K : forallb (fun d => forallb (fun x => match find_kid (u "identifier") x with Some i => match attr i (u "scheme") with Some s => str_eqb s (u "urn:s1") | None => true end | None => true end)
      (descendants d)) (dict_values x_trees) = true) by (vm_compute; reflexivity).
    assert (G : forall x id s, occurs (dict_values x_trees) x -> writes_entity x id s -> s = u "urn:s1").
    { intros x id s (d & Hd & Hx) (i & E1 & _ & E3). rewrite forallb_forall in K. specialize (K d Hd). rewrite forallb_forall in K. specialize (K x Hx). rewrite E1, E3 in K.
      destruct (str_eqb_spec s (u "urn:s1")) as [E|_]; [exact E|discriminate K]. }
    intros x y id s s' Hx Hy Wx Wy. rewrite (G _ _ _ Hx Wx), (G _ _ _ Hy Wy). reflexivity.
  - assert (K : forallb (fun d => forallb (fun x => match attr x (u "dimension") with Some _ => false | None => true end) (descendants d)) (dict_values x_trees) = true) by (vm_compute; reflexivity).
    assert (G : forall x t, occurs (dict_values x_trees) x -> attr x (u "dimension") <> Some t).
    { intros x t (d & Hd & Hx) Ha. rewrite forallb_forall in K. specialize (K d Hd). rewrite forallb_forall in K. specialize (K x Hx). rewrite Ha in K. discriminate K. }
    split; [intros x y dt mt d m d' m' Hx _ (Ha & _) _|intros x y dt v d d' Hx _ (Ha & _) _]; destruct (G x dt Hx Ha).
Qed.
Lemma x_no_circles : no_circles (dict_values x_trees).
Proof. intros link outside k H _ _. destruct C89_example as (f & R & _). exact (proj1 (C91_example_links f R link outside H)). Qed.

(** The filing of FilingProps meets the hypotheses, with its documents in their order and backwards. *)
Definition x_back : list (str * xml) := rev x_trees.
Example C109_example_hypotheses : Permutation x_trees x_back /\ once x_trees /\ ConceptLoad.prefixes_usual x_trees /\ LinkSpec.all_usual (dict_values x_trees) /\
  (forall d, In d (dict_values x_trees) -> x_tag d <> Some (u "{http://xbrl.org/2003/linkbase}linkbase")) /\
  (forall f, x_reads f -> alike (repository_of (fl_elements f)) (dict_values x_trees)) /\
  plainly_written (dict_values x_trees) /\ no_period_word CtxProps.iso_date /\ no_circles (dict_values x_trees).
Proof.
  destruct C106_example_hypotheses as (_ & B & C & D & _ & _ & G & H & I).
  split; [apply Permutation_rev|]. split; [exact x_once|]. split; [exact B|]. split; [exact C|]. split; [exact D|]. split; [exact x_alike|].
  split; [split; [exact G|exact H]|]. split; [exact I|exact x_no_circles].
Qed.

(** Two schemas, in both orders: the report elements are listed in another order. *)
Definition y_schema (l : list xml) : xml := Xml (Some (u "{http://www.w3.org/2001/XMLSchema}schema")) [(u "targetNamespace", u "urn:t")] x_scope0 None l.
Definition y_trees : list (str * xml) := [(u "a.xsd", y_schema [x_role; x_cash]); (u "b.xsd", y_schema [x_assets]); (u "i.xml", x_instance_doc); (u "pre.xml", LinkProps.l_doc [x_link])].
Definition y_read (trees : list (str * xml)) : res filing :=
  parse_filing CtxProps.iso_date (fun _ => []) (fun _ => 1%Q) (fun _ l => l) (fun _ l => l) 100 (fun l => l) trees [].
Lemma y_read_reads trees f : y_read trees = Ok f -> FilingProps.reads CtxProps.iso_date (fun _ => []) (fun _ => 1%Q) trees [] f.
Proof.
  intros E. exists (fun _ l => l), (fun _ l => l), 100, (fun l => l). split; [split; intros n l; apply Permutation_refl|]. split; [intros l; apply Permutation_refl|exact E].
Qed.
Definition y_kinds (r : res filing) : list (str * ekind) :=
  match r with Ok f => map (fun e => (q_local (e_name e), e_kind e)) (get_all_report_elements f) | Raise _ => [] end.
Theorem C109_list_refuted : Permutation y_trees (rev y_trees) /\
  y_kinds (y_read y_trees) = [(u "Cash", KConcept); (u "Assets", KAbstract)] /\ y_kinds (y_read (rev y_trees)) = [(u "Assets", KAbstract); (u "Cash", KConcept)].
Proof. split; [apply Permutation_rev|]. vm_compute. split; reflexivity. Qed.

(** A name that is declared twice: what it means depends on the order of the documents. *)
Definition y_other : xml := x_decl [(u "name", u "Cash"); (u "id", u "u_Cash"); (u "abstract", u "true"); (u "substitutionGroup", u "xbrli:item"); (u "type", u "xbrli:stringItemType")].
Definition y_twice : list (str * xml) := [(u "a.xsd", y_schema [x_role; x_cash]); (u "b.xsd", y_schema [y_other])].
Theorem C109_kinds_refuted : Permutation y_twice (rev y_twice) /\
  y_kinds (y_read y_twice) = [(u "Cash", KConcept)] /\ y_kinds (y_read (rev y_twice)) = [(u "Cash", KAbstract)].
Proof. split; [apply Permutation_rev|]. vm_compute. split; reflexivity. Qed.

(** Arcs that lead back: whether the documents can be read depends on their order. *)
Definition z_trees : list (str * xml) := [(u "a.xsd", x_schema); (u "c.xml", LinkProps.l_doc [o_circle]); (u "pre.xml", LinkProps.l_doc [x_link])].
Definition z_back : list (str * xml) := rev z_trees.
Definition z_elements : ConceptModel.rrepo * repo xml :=
  match ConceptModel.parse_report_elements z_back (ConceptModel.empty_rrepo, []) with Ok r => r | Raise _ => (ConceptModel.empty_rrepo, []) end.
Definition z_facts : state :=
  match parse_facts CtxProps.iso_date (repository_of (fst z_elements)) (nillable_in (fst z_elements)) (dict_values z_back) (State (snd z_elements) [] [] empty_facts) with
  | Ok s => snd s | Raise _ => empty_state end.
Definition z_found : str -> option LinkModel.found := find_in (fst z_elements) (s_facts z_facts).
Lemma z_usual : LinkSpec.all_usual (dict_values z_back).
Proof.
  intros link outside H. apply LinkProofs.in_all_links in H.
  assert (E : LinkModel.all_links (dict_values z_back) = [(x_link, [LinkProps.l_doc [x_link]]); (o_circle, [LinkProps.l_doc [o_circle]])]) by (vm_compute; reflexivity). rewrite E in H.
  assert (K : forallb (fun q => match dict_get key_eqb (x_scope q) (Some (u "xlink")) with Some s => str_eqb s LinkSpec.XLINK | None => false end)
    (link :: map fst (LinkModel.inner outside link)) = true) by (destruct H as [H|[H|[]]]; injection H as <- <-; vm_compute; reflexivity).
  split; [exact (usual_kids _ K link (or_introl eq_refl))|]. intros x around Hi. apply LinkProofs.inner_inside in Hi.
  apply (usual_kids _ K x). right. apply in_map_iff. exists (x, around). auto.
Qed.
Lemma z_names link around n s id e : In (LinkProps.l_loc s id) (x_kids link) ->
  LinkSpec.xl "type" (LinkProps.l_loc s id) = Some (u "locator") -> LinkSpec.xl "label" (LinkProps.l_loc s id) = Some n ->
  (exists href, LinkSpec.xl "href" (LinkProps.l_loc s id) = Some href /\ (z_found (LinkSpec.fragment href) = Some (LinkModel.FConcept e) \/ z_found (LinkSpec.fragment href) = Some (LinkModel.FElement e))) ->
  LinkSpec.names z_found link around n.
Proof.
  intros H T L E. exists (LinkProps.l_loc s id), (link :: around), e. split; [|split; [exact E|exact L]].
  split; [apply LinkSpec.inside_kid, H|]. split; [discriminate|exact T].
Qed.
Lemma z_names_a link around : In (LinkProps.l_loc "a" "t_Assets") (x_kids link) -> LinkSpec.names z_found link around (u "a").
Proof.
  intros H. apply (z_names link around _ _ _ 1 H); [vm_compute; reflexivity|vm_compute; reflexivity|]. exists (u "a.xsd#t_Assets"). split; [vm_compute; reflexivity|right; vm_compute; reflexivity].
Qed.
Lemma z_names_c link around : In (LinkProps.l_loc "c" "t_Cash") (x_kids link) -> LinkSpec.names z_found link around (u "c").
Proof.
  intros H. apply (z_names link around _ _ _ 0 H); [vm_compute; reflexivity|vm_compute; reflexivity|]. exists (u "a.xsd#t_Cash"). split; [vm_compute; reflexivity|left; vm_compute; reflexivity].
Qed.
Lemma z_begins : LinkReadSpec.begins z_found x_link [LinkProps.l_doc [x_link]].
Proof.
  exists (u "a"). split; [apply z_names_a; left; reflexivity|].
  intros arc aa Ha. apply arcs_of in Ha.
  assert (E : map fst (LinkSpec.elements_of x_link [LinkProps.l_doc [x_link]] ["arc"%string]) = [LinkProps.l_arc "pc" "a" "c"]) by (vm_compute; reflexivity).
  rewrite E in Ha. destruct Ha as [<-|[]]. vm_compute. discriminate.
Qed.
Lemma z_turns : LinkReadSpec.turns z_found o_circle [LinkProps.l_doc [o_circle]].
Proof.
  assert (C : LinkSpec.names z_found o_circle [LinkProps.l_doc [o_circle]] (u "c")) by (apply z_names_c; right; left; reflexivity).
  exists (u "c"). split.
  - apply (LinkSpec.come_next _ _ _ (u "a") (u "c") (LinkProps.l_arc "pc" "a" "c") (o_circle :: [LinkProps.l_doc [o_circle]]));
      [|split; [apply LinkSpec.inside_kid; right; right; left; reflexivity|split; [discriminate|vm_compute; reflexivity]]|vm_compute; reflexivity|vm_compute; reflexivity|exact C].
    apply LinkSpec.come_first; [apply z_names_a; left; reflexivity|].
    intros arc aa Ha. apply arcs_of in Ha.
    assert (E : map fst (LinkSpec.elements_of o_circle [LinkProps.l_doc [o_circle]] ["arc"%string]) = [LinkProps.l_arc "pc" "a" "c"; LinkProps.l_arc "pc" "c" "c"]) by (vm_compute; reflexivity).
    rewrite E in Ha. destruct Ha as [<-|[<-|[]]]; vm_compute; discriminate.
  - apply (LinkReadSpec.on_one _ _ _ _ (LinkProps.l_arc "pc" "c" "c") (o_circle :: [LinkProps.l_doc [o_circle]]));
      [split; [apply LinkSpec.inside_kid; right; right; right; left; reflexivity|split; [discriminate|vm_compute; reflexivity]]|vm_compute; reflexivity|vm_compute; reflexivity|exact C].
Qed.
Theorem C109_opens_refuted : Permutation z_trees z_back /\
  (exists f, FilingProps.reads CtxProps.iso_date (fun _ => []) (fun _ => 1%Q) z_trees [] f) /\
  forall f, ~ FilingProps.reads CtxProps.iso_date (fun _ => []) (fun _ => 1%Q) z_back [] f.
Proof.
  split; [apply Permutation_rev|]. split.
  - destruct (read_case (y_read z_trees) (fun _ => True)) as (f & E & _); [vm_compute; exact Logic.I|]. exists f. exact (y_read_reads _ f E).
  - intros f (edge_order & root_order & fuel & shuffle & Ho & Hs & R). apply o_stages in R as (r & e1 & s & n & H1 & H2 & H3).
    assert (E1 : ConceptModel.parse_report_elements z_back (ConceptModel.empty_rrepo, []) = Ok z_elements) by (vm_compute; reflexivity).
    assert (Er : (r, e1) = z_elements) by exact (ok_same _ _ (eq_trans (eq_sym H1) E1)).
    clear H1 E1. assert (r = fst z_elements) by (rewrite <- Er; reflexivity). assert (e1 = snd z_elements) by (rewrite <- Er; reflexivity). clear Er. subst r e1.
    assert (E2 : parse_facts CtxProps.iso_date (repository_of (fst z_elements)) (nillable_in (fst z_elements)) (dict_values z_back) (State (snd z_elements) [] [] empty_facts) = Ok (tt, z_facts)) by (vm_compute; reflexivity).
    assert (s = z_facts) by exact (f_equal snd (ok_same _ _ (eq_trans (eq_sym H2) E2))). clear E2 H2. subst s.
    assert (El : LinkModel.sorted_links (dict_values z_back) = [] ++ (x_link, [LinkProps.l_doc [x_link]]) :: [] ++ (o_circle, [LinkProps.l_doc [o_circle]]) :: []) by (vm_compute; reflexivity).
    assert (L := proj2 (LinkReadProofs.links_as_read_iff _ _ z_usual) eq_refl).
    destruct (proj1 (LinkReadProofs.networks_iff (fun _ => []) (fun _ => 1%Q) z_found edge_order root_order Ho shuffle Hs _ _ _ z_usual L) (ex_intro _ fuel (ex_intro _ n H3))) as [_ C].
    refine (C [] x_link [LinkProps.l_doc [x_link]] [] o_circle [LinkProps.l_doc [o_circle]] [] (u "r") NetModel.KPresentation El _ _ (or_introl eq_refl) x_is_presentation _ z_begins z_turns);
      [vm_compute; reflexivity|vm_compute; reflexivity|].
    eexists. split; [reflexivity|]. cbv zeta. exists (u "{http://www.xbrl.org/2003/linkbase}"), []. vm_compute. reflexivity.
Qed.

Print Assumptions C109_declared_partial.
Print Assumptions C109_elements_partial.
Print Assumptions C109_labels_partial.
Print Assumptions C109_shown_partial.
Print Assumptions C109_below_partial.
Print Assumptions C109_components.
Print Assumptions C109_facts_partial.
Print Assumptions C109_opens_partial.
Print Assumptions C109_found_partial.
Print Assumptions C109_found_refuted.
Print Assumptions C109_list_refuted.
Print Assumptions C109_kinds_refuted.
Print Assumptions C109_opens_refuted.
