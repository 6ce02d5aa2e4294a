(** Property C106: which XML filings can be read to their end. *)
From Coq Require Import QArith Permutation.
From Verif Require Import Base QNameModel ErrBase ErrTable ErrModel CtxModel CtxSpec CtxProofs CtxParseProofs.
From Verif Require CtxProps CtxReportSpec CtxReportProofs CtxOpenProofs ConceptModel ConceptSpec ConceptLoad ConceptProps ConceptOpen NetModel NetSpec LangModel LinkModel LinkSpec
  LinkProofs LinkProps LinkReadSpec LinkReadProofs TableProps CompModel CompSpec CompProps DtsRefs.
From Verif Require Import FilingModel FilingSpec FilingProofs FilingOpenSpec FilingOpenProofs FilingProps.
Local Open Scope nat_scope.

Section Filing.
Variable parse_date : str -> res date.
Variable element_str : xml -> str.
Variable number : str -> Q.
Variable trees : list (str * xml).
Variable es : repo xml.
Let docs := dict_values trees.

(** The report elements that are read *)
Definition elements_read (r : ConceptModel.rrepo) (e1 : repo xml) : Prop :=
  ConceptModel.parse_report_elements trees (ConceptModel.empty_rrepo, es) = Ok (r, e1).
(** and, for the proofs, the facts *)
Definition facts_read (r : ConceptModel.rrepo) (e1 : repo xml) (s : state) : Prop :=
  parse_facts parse_date (repository_of r) (nillable_in r) docs (State e1 [] [] empty_facts) = Ok (tt, s).

Hypothesis Hdocs : NoDup (map fst trees).
Hypothesis Hprefixes : ConceptLoad.prefixes_usual trees.
Hypothesis Husual : LinkSpec.all_usual docs.
Hypothesis Htables : forall d, In d docs -> x_tag d <> Some (u "{http://xbrl.org/2003/linkbase}linkbase").
Hypothesis Hunit : one_unit docs.
Hypothesis Hconcept : forall r e1, elements_read r e1 -> one_concept (repository_of r) docs.
Hypothesis Hplain : plain_dimensions docs.
Hypothesis Hperiods : plain_periods docs.
Hypothesis Hword : no_period_word parse_date.

(** Each fact element can be read. *)
Definition facts_fine (r : ConceptModel.rrepo) : Prop :=
  forall i x, In (i, x) (all_fact_elements docs) -> CtxReportSpec.fact_ok parse_date (repository_of r) i x = true.
(** In every order of the sets, a filing can be read to its end if its declarations can be read, then each
    of its fact elements, each of its links with a role, for itself and with those of its role before it, and
    each of its role types. *)
Theorem C106_opens_partial edge_order root_order shuffle : LinkSpec.orders edge_order root_order -> NetSpec.some_order shuffle ->
  ((exists fuel f, parse_filing parse_date element_str number edge_order root_order fuel shuffle trees es = Ok f) <->
   ConceptOpen.declarable trees /\
   (forall r e1, elements_read r e1 ->
      facts_fine r /\ links_fine docs (QNameModel.get_all (repository_of r)) (fact_with_id (repository_of r) docs)) /\
   roles_fine docs).
Proof.
  intros Ho Hs. rewrite <- (ConceptOpen.declarations_iff trees es Hdocs Hprefixes). unfold parse_filing. cbv zeta. unfold elements_read in *.
  fold docs. destruct (ConceptModel.parse_report_elements trees (ConceptModel.empty_rrepo, es)) as [[r e1]|e] eqn:E1; cbn [bind];
    [|split; [intros (fu & f & H); discriminate H|intros ((r & H) & _); discriminate H]].
  specialize (Hconcept r e1 eq_refl). cbn [fst snd].
  assert (F := CtxOpenProofs.facts_open parse_date (repository_of r) (nillable_in r) docs Hunit Hconcept Hperiods Hword Hplain _ (start_inv parse_date _ docs e1)
    (conj (fun _ => eq_refl) (fun id (K : In id []) => match K with end))).
  fold (facts_fine r) in F. assert (X : forall r' e', Ok (r, e1) = Ok (r', e') -> r' = r /\ e' = e1) by (intros r' e' [= <- <-]; auto).
  unfold facts_read. destruct (parse_facts parse_date (repository_of r) (nillable_in r) docs (State e1 [] [] empty_facts)) as [[[] s]|e] eqn:E2; cbn [bind].
  2:{ split; [intros (fu & f & H); discriminate H|]. intros (_ & G & _). exfalso. destruct (G r e1 eq_refl) as [G1 _]. apply F in G1 as (s & H). discriminate H. }
  assert (F1 : facts_fine r) by (apply F; eauto). clear F. cbn [snd].
  destruct (proj2 (LinkReadProofs.links_as_read_iff docs (LinkModel.sorted_links docs) Husual) eq_refl) as (l0 & l1 & l2 & L).
  assert (Hl : LinkReadSpec.links_as_read docs (LinkModel.sorted_links docs)) by (exists l0, l1, l2; exact L). clear L l0 l1 l2.
  assert (N := LinkReadProofs.networks_iff element_str number (find_in r (s_facts s)) edge_order root_order Ho shuffle Hs docs (s_errors s) _ Husual Hl).
  assert (N' : (exists fuel r0, LinkModel.parse_networks element_str number (find_in r (s_facts s)) edge_order root_order fuel shuffle docs (s_errors s) = Ok r0) <->
    links_fine docs (QNameModel.get_all (repository_of r)) (fact_with_id (repository_of r) docs)).
  { destruct (elements_stored _ _ _ E1) as (reg & Hn & Er). cbn [fst] in Er.
    destruct (CtxReportProofs.facts_says parse_date (repository_of r) (nillable_in r) docs Hunit Hconcept Hperiods Hword _ _ (start_inv parse_date _ docs e1)
      (conj (fun _ => eq_refl) (fun id (K : In id []) => match K with end)) E2) as (os & O1 & [_ O2] & _). cbn [s_facts] in O2.
    subst r. rewrite <- (links_fine_iff docs reg (s_facts s) _ Hn) by (intros i; rewrite O2; apply (outcome_ids parse_date), O1).
    rewrite N. split; intros [A B]; (split; [exact A|]); [|exact (B _ Hl)].
    intros l H. apply (LinkReadProofs.links_as_read_iff docs l Husual) in H. rewrite H. exact B. }
  clear N. unfold read_networks, read_tables, roles_fine. split.
  - intros (fu & f & H). split; [eauto|]. destruct (LinkModel.parse_networks element_str number (find_in r (s_facts s)) edge_order root_order fu shuffle docs (s_errors s)) as [n|e] eqn:E3; [|discriminate H].
    cbn [bind] in H. rewrite (TableProps.C59_no_tables_refuted _ docs Htables) in H. cbn [bind] in H.
    apply LinkProofs.bind_ok in H as (c & H & _). split.
    + intros r' e' K. destruct (X _ _ K) as [-> ->]. split; [exact F1|]. apply N'. eauto.
    + eapply components_iff. exists c. exact H.
  - intros (_ & G & R). destruct (G r e1 eq_refl) as [_ G2]. apply N' in G2 as (fu & n & E3).
    exists fu. rewrite E3. cbn [bind]. rewrite (TableProps.C59_no_tables_refuted _ docs Htables). cbn [bind].
    destruct (proj2 (components_iff (map CompModel.OpUpsert (networks_of (fst n))) docs (LinkModel.ls_errors (snd n))) R) as (c & Ec).
    unfold store_networks. rewrite Ec. cbn [bind]. eauto.
Qed.

(** Whether it can be read does not depend on the orders of sets. *)
Theorem C106_any_order_partial edge_order root_order shuffle : LinkSpec.orders edge_order root_order -> NetSpec.some_order shuffle ->
  ((exists f, reads parse_date element_str number trees es f) <->
   exists fuel f, parse_filing parse_date element_str number edge_order root_order fuel shuffle trees es = Ok f).
Proof.
  intros Ho Hs. split.
  - intros (f & eo & ro & fu & sh & Ho' & Hs' & H). apply (C106_opens_partial _ _ _ Ho Hs). apply (C106_opens_partial _ _ _ Ho' Hs'). eauto.
  - intros (fu & f & H). exists f, edge_order, root_order, fu, shuffle. auto.
Qed.
End Filing.

Lemma reads_elements parse_date element_str number trees es f r e1 : reads parse_date element_str number trees es f -> elements_read trees es r e1 -> fl_elements f = r.
Proof.
  intros (eo & ro & fu & sh & _ & _ & R) H. unfold elements_read in H. unfold parse_filing in R. cbv zeta in R. rewrite H in R. cbn [bind fst snd] in R.
  apply LinkProofs.bind_ok in R as (s & _ & R). apply LinkProofs.bind_ok in R as (n & _ & R). apply LinkProofs.bind_ok in R as (t & _ & R).
  apply LinkProofs.bind_ok in R as (c & _ & R). injection R as <-. reflexivity.
Qed.
Lemma reads_stages parse_date element_str number trees es f : reads parse_date element_str number trees es f ->
  (exists r e1 s, elements_read trees es r e1 /\ facts_read parse_date trees r e1 s) /\
  exists edge_order root_order shuffle, LinkSpec.orders edge_order root_order /\ NetSpec.some_order shuffle /\
    exists fuel f, parse_filing parse_date element_str number edge_order root_order fuel shuffle trees es = Ok f.
Proof.
  intros (eo & ro & fu & sh & Ho & Hs & R). split; [|exists eo, ro, sh; eauto 6]. unfold parse_filing in R. cbv zeta in R.
  apply LinkProofs.bind_ok in R as ([r e1] & H1 & R). apply LinkProofs.bind_ok in R as ([[] s] & H2 & R). cbn [fst snd] in H2. exists r, e1, s. split; assumption.
Qed.

Lemma reads_points parse_date trees es r e1 s : one_unit (dict_values trees) -> one_concept (repository_of r) (dict_values trees) ->
  plain_periods (dict_values trees) -> no_period_word parse_date -> elements_read trees es r e1 -> facts_read parse_date trees r e1 s ->
  exists find, forall i, points (QNameModel.get_all (repository_of r)) (fact_with_id (repository_of r) (dict_values trees)) i (find i).
Proof.
  intros A B C D E1 E2. exists (find_in r (s_facts s)). destruct (elements_stored _ _ _ E1) as (reg & Hn & Er). cbn [fst] in Er. intros i.
  destruct (CtxReportProofs.facts_says parse_date (repository_of r) (nillable_in r) _ A B C D _ _ (start_inv parse_date _ _ e1)
    (conj (fun _ => eq_refl) (fun id (K : In id []) => match K with end)) E2) as (os & O1 & [_ O2] & _). cbn [s_facts] in O2. subst r.
  apply (points_iff _ (fun j => facts_has_id (s_facts s) j = true)); [rewrite O2; apply (outcome_ids parse_date), O1|apply find_points, Hn].
Qed.

(** ** Examples *)

(** The filing of FilingProps meets the hypotheses, and so what can be read of it is fine. *)
Lemma x_plain : plain_dimensions (dict_values x_trees).
Proof.
  assert (K : forallb (fun d => forallb (fun x => match attr x (u "dimension") with Some _ => false | None => true end) (descendants d)) (dict_values x_trees) = true) by (vm_compute; reflexivity).
  intros x t (d & Hd & Hx) Ha. exfalso. rewrite forallb_forall in K. specialize (K d Hd). rewrite forallb_forall in K. specialize (K x Hx). rewrite Ha in K. discriminate K.
Qed.
Lemma x_no_tables : forall d, In d (dict_values x_trees) -> x_tag d <> Some (u "{http://xbrl.org/2003/linkbase}linkbase").
Proof. intros d Hd. cbn [dict_values map snd x_trees In] in Hd. repeat (destruct Hd as [<-|Hd]; [vm_compute; discriminate|]). destruct Hd. Qed.

Example C106_example_hypotheses :
  NoDup (map fst x_trees) /\ ConceptLoad.prefixes_usual x_trees /\ LinkSpec.all_usual (dict_values x_trees) /\
  (forall d, In d (dict_values x_trees) -> x_tag d <> Some (u "{http://xbrl.org/2003/linkbase}linkbase")) /\
  one_unit (dict_values x_trees) /\ (forall r e1, elements_read x_trees [] r e1 -> one_concept (repository_of r) (dict_values x_trees)) /\
  plain_dimensions (dict_values x_trees) /\ plain_periods (dict_values x_trees) /\ no_period_word CtxProps.iso_date.
Proof.
  destruct C93_example as (A & B & _). destruct C89_example as (f & R & _). destruct (C95_example f R) as (C & D & E & F).
  split; [exact A|]. split; [exact B|]. split; [exact C91_example_usual|]. split; [exact x_no_tables|]. split; [exact C|]. split; [|split; [exact x_plain|auto]].
  intros r e1 H. rewrite (reads_elements _ _ _ _ _ _ _ _ R H) in D. exact D.
Qed.
Lemma x_has_link : LinkSpec.extended_link (dict_values x_trees) x_link [LinkProps.l_doc [x_link]].
Proof.
  apply LinkProofs.in_all_links.
  assert (El : LinkModel.all_links (dict_values x_trees) = [(x_link, [LinkProps.l_doc [x_link]]); (x_labels, [LinkProps.l_doc [x_labels]])]) by (vm_compute; reflexivity).
  rewrite El. left. reflexivity.
Qed.
Lemma x_is_presentation : LinkSpec.link_kind x_link NetModel.KPresentation.
Proof. eexists. split; [reflexivity|]. cbv zeta. exists (u "{http://www.xbrl.org/2003/linkbase}"), []. vm_compute. reflexivity. Qed.
Example C106_example : ConceptOpen.declarable x_trees /\ roles_fine (dict_values x_trees) /\
  exists r e1, elements_read x_trees [] r e1 /\ facts_fine CtxProps.iso_date x_trees r /\
    links_fine (dict_values x_trees) (QNameModel.get_all (repository_of r)) (fact_with_id (repository_of r) (dict_values x_trees)) /\
    exists find, (forall i, points (QNameModel.get_all (repository_of r)) (fact_with_id (repository_of r) (dict_values x_trees)) i (find i)) /\
      LinkReadSpec.readable find NetModel.KPresentation x_link [LinkProps.l_doc [x_link]].
Proof.
  destruct C106_example_hypotheses as (A & B & C & D & E & F & G & H & I). destruct C89_example as (f & R & _).
  destruct (reads_stages _ _ _ _ _ _ R) as ((r & e1 & s & H1 & H2) & eo & ro & sh & Ho & Hs & O).
  destruct (proj1 (C106_opens_partial CtxProps.iso_date (fun _ => []) (fun _ => 1%Q) x_trees [] A B C D E F G H I eo ro sh Ho Hs) O) as (X & Y & Z).
  split; [exact X|]. split; [exact Z|]. destruct (Y r e1 H1) as [Y1 Y2]. exists r, e1. split; [exact H1|]. split; [exact Y1|]. split; [exact Y2|].
  destruct (reads_points _ _ _ _ _ _ E (F _ _ H1) H I H1 H2) as (find & Hf). exists find. split; [exact Hf|].
  apply (proj1 (Y2 find Hf)); [exact x_has_link|vm_compute; discriminate|exact x_is_presentation].
Qed.

(** Faults of links that are not reported but stop the reading: a calculation of an abstract, and arcs in a
    circle in a link that is not the first of its role.  In the first one, they do no harm. *)
Definition o_trees (links : list xml) : list (str * xml) :=
  [(u "a.xsd", x_schema); (u "i.xml", x_instance_doc); (u "pre.xml", LinkProps.l_doc links)].
Definition o_read (links : list xml) : res filing :=
  parse_filing CtxProps.iso_date (fun _ => []) (fun _ => 1%Q) (fun _ l => l) (fun _ l => l) 100 (fun l => l) (o_trees links) [].
Definition o_circle : xml := LinkProps.l_link "presentationLink" "r"
  [LinkProps.l_loc "a" "t_Assets"; LinkProps.l_loc "c" "t_Cash"; LinkProps.l_arc "pc" "a" "c"; LinkProps.l_arc "pc" "c" "c"].
Definition o_sum : xml := LinkProps.l_link "calculationLink" "r"
  [LinkProps.l_loc "a" "t_Assets"; LinkProps.l_loc "c" "t_Cash"; LinkProps.l_arc "pc" "a" "c"].
Definition outcome (r : res filing) : option exn * nat := match r with Ok f => (None, length (fl_errors f)) | Raise e => (Some e, 0) end.
Theorem C106_links_refuted : map (fun l => outcome (o_read l)) [[x_link]; [o_circle]; [o_circle; x_link]; [x_link; o_circle]; [o_sum]] =
  [(None, 0); (None, 0); (None, 0); (Some OutOfFuel, 0); (Some TypeError, 0)].
Proof. vm_compute. reflexivity. Qed.

(** More time does not help. *)
Definition o_later : list (str * xml) := o_trees [x_link; o_circle].
Definition o_elements : ConceptModel.rrepo * repo xml :=
  match ConceptModel.parse_report_elements o_later (ConceptModel.empty_rrepo, []) with Ok r => r | Raise _ => (ConceptModel.empty_rrepo, []) end.
Definition o_facts : state :=
  match parse_facts CtxProps.iso_date (repository_of (fst o_elements)) (nillable_in (fst o_elements)) (dict_values o_later) (State (snd o_elements) [] [] empty_facts) with
  | Ok s => snd s | Raise _ => empty_state end.
Definition o_found : str -> option LinkModel.found := find_in (fst o_elements) (s_facts o_facts).
Definition o_around : list xml := [LinkProps.l_doc [x_link; o_circle]].

Lemma o_usual : LinkSpec.all_usual (dict_values o_later).
Proof.
  intros link outside H. apply LinkProofs.in_all_links in H.
  assert (E : LinkModel.all_links (dict_values o_later) = [(x_link, o_around); (o_circle, o_around)]) by (vm_compute; reflexivity). rewrite E in H.
  assert (K : forallb (fun q => match dict_get key_eqb (x_scope q) (Some (u "xlink")) with Some s => str_eqb s LinkSpec.XLINK | None => false end)
    (link :: map fst (LinkModel.inner outside link)) = true) by (destruct H as [H|[H|[]]]; injection H as <- <-; vm_compute; reflexivity).
  split; [exact (usual_kids _ K link (or_introl eq_refl))|]. intros x around Hi. apply LinkProofs.inner_inside in Hi.
  apply (usual_kids _ K x). right. apply in_map_iff. exists (x, around). auto.
Qed.
Lemma o_names link n s id e : In (LinkProps.l_loc s id) (x_kids link) ->
  LinkSpec.xl "type" (LinkProps.l_loc s id) = Some (u "locator") -> LinkSpec.xl "label" (LinkProps.l_loc s id) = Some n ->
  (exists href, LinkSpec.xl "href" (LinkProps.l_loc s id) = Some href /\ (o_found (LinkSpec.fragment href) = Some (LinkModel.FConcept e) \/ o_found (LinkSpec.fragment href) = Some (LinkModel.FElement e))) ->
  LinkSpec.names o_found link o_around n.
Proof.
  intros H T L E. exists (LinkProps.l_loc s id), (link :: o_around), e. split; [|split; [exact E|exact L]].
  split; [apply LinkSpec.inside_kid, H|]. split; [discriminate|exact T].
Qed.
Lemma o_names_a link : In (LinkProps.l_loc "a" "t_Assets") (x_kids link) -> LinkSpec.names o_found link o_around (u "a").
Proof.
  intros H. apply (o_names link _ _ _ 1 H); [vm_compute; reflexivity|vm_compute; reflexivity|]. exists (u "a.xsd#t_Assets"). split; [vm_compute; reflexivity|right; vm_compute; reflexivity].
Qed.
Lemma o_names_c link : In (LinkProps.l_loc "c" "t_Cash") (x_kids link) -> LinkSpec.names o_found link o_around (u "c").
Proof.
  intros H. apply (o_names link _ _ _ 0 H); [vm_compute; reflexivity|vm_compute; reflexivity|]. exists (u "a.xsd#t_Cash"). split; [vm_compute; reflexivity|left; vm_compute; reflexivity].
Qed.
Lemma o_begins : LinkReadSpec.begins o_found x_link o_around.
Proof.
  exists (u "a"). split; [apply o_names_a; left; reflexivity|].
  intros arc aa Ha. apply arcs_of in Ha.
  assert (E : map fst (LinkSpec.elements_of x_link o_around ["arc"%string]) = [LinkProps.l_arc "pc" "a" "c"]) by (vm_compute; reflexivity).
  rewrite E in Ha. destruct Ha as [<-|[]]. vm_compute. discriminate.
Qed.
Lemma o_turns : LinkReadSpec.turns o_found o_circle o_around.
Proof.
  assert (C : LinkSpec.names o_found o_circle o_around (u "c")) by (apply o_names_c; right; left; reflexivity).
  exists (u "c"). split.
  - apply (LinkSpec.come_next _ _ _ (u "a") (u "c") (LinkProps.l_arc "pc" "a" "c") (o_circle :: o_around));
      [|split; [apply LinkSpec.inside_kid; right; right; left; reflexivity|split; [discriminate|vm_compute; reflexivity]]|vm_compute; reflexivity|vm_compute; reflexivity|exact C].
    apply LinkSpec.come_first; [apply o_names_a; left; reflexivity|].
    intros arc aa Ha. apply arcs_of in Ha.
    assert (E : map fst (LinkSpec.elements_of o_circle o_around ["arc"%string]) = [LinkProps.l_arc "pc" "a" "c"; LinkProps.l_arc "pc" "c" "c"]) by (vm_compute; reflexivity).
    rewrite E in Ha. destruct Ha as [<-|[<-|[]]]; vm_compute; discriminate.
  - apply (LinkReadSpec.on_one _ _ _ _ (LinkProps.l_arc "pc" "c" "c") (o_circle :: o_around));
      [split; [apply LinkSpec.inside_kid; right; right; right; left; reflexivity|split; [discriminate|vm_compute; reflexivity]]|vm_compute; reflexivity|vm_compute; reflexivity|exact C].
Qed.
Lemma o_stages edge_order root_order fuel shuffle trees f :
  parse_filing CtxProps.iso_date (fun _ => []) (fun _ => 1%Q) edge_order root_order fuel shuffle trees [] = Ok f ->
  exists r e1 s n, elements_read trees [] r e1 /\ facts_read CtxProps.iso_date trees r e1 s /\
    LinkModel.parse_networks (fun _ => []) (fun _ => 1%Q) (find_in r (s_facts s)) edge_order root_order fuel shuffle (dict_values trees) (s_errors s) = Ok n.
Proof.
  intros R. unfold parse_filing in R. cbv zeta in R.
  apply LinkProofs.bind_ok in R as ([r e1] & H1 & R). apply LinkProofs.bind_ok in R as ([[] s] & H2 & R). cbn [fst snd] in H2, R.
  apply LinkProofs.bind_ok in R as (n & H3 & R). exists r, e1, s, n. split; [exact H1|]. split; [exact H2|exact H3].
Qed.
Lemma ok_same {A} (a b : A) : Ok a = Ok b -> a = b.
Proof. intros [= ->]. reflexivity. Qed.
Theorem C106_circle_refuted edge_order root_order shuffle : LinkSpec.orders edge_order root_order -> NetSpec.some_order shuffle ->
  forall fuel f, parse_filing CtxProps.iso_date (fun _ => []) (fun _ => 1%Q) edge_order root_order fuel shuffle o_later [] <> Ok f.
Proof.
  intros Ho Hs fuel f R. apply o_stages in R as (r & e1 & s & n & H1 & H2 & H3).
  assert (E1 : ConceptModel.parse_report_elements o_later (ConceptModel.empty_rrepo, []) = Ok o_elements) by (vm_compute; reflexivity).
  assert (Er : (r, e1) = o_elements) by exact (ok_same _ _ (eq_trans (eq_sym H1) E1)).
  clear H1 E1. assert (r = fst o_elements) by (rewrite <- Er; reflexivity). assert (e1 = snd o_elements) by (rewrite <- Er; reflexivity). clear Er. subst r e1.
  assert (E2 : parse_facts CtxProps.iso_date (repository_of (fst o_elements)) (nillable_in (fst o_elements)) (dict_values o_later) (State (snd o_elements) [] [] empty_facts) = Ok (tt, o_facts)) by (vm_compute; reflexivity).
  assert (s = o_facts) by exact (f_equal snd (ok_same _ _ (eq_trans (eq_sym H2) E2))). clear E2 H2. subst s.
  assert (El : LinkModel.sorted_links (dict_values o_later) = [] ++ (x_link, o_around) :: [] ++ (o_circle, o_around) :: []) by (vm_compute; reflexivity).
  assert (L := proj2 (LinkReadProofs.links_as_read_iff _ _ o_usual) eq_refl).
  destruct (proj1 (LinkReadProofs.networks_iff (fun _ => []) (fun _ => 1%Q) o_found edge_order root_order Ho shuffle Hs _ _ _ o_usual L) (ex_intro _ fuel (ex_intro _ n H3))) as [_ C].
  refine (C [] x_link o_around [] o_circle o_around [] (u "r") NetModel.KPresentation El _ _ (or_introl eq_refl) x_is_presentation _ o_begins o_turns);
    [vm_compute; reflexivity|vm_compute; reflexivity|].
  eexists. split; [reflexivity|]. cbv zeta. exists (u "{http://www.xbrl.org/2003/linkbase}"), []. vm_compute. reflexivity.
Qed.

Print Assumptions C106_opens_partial.
Print Assumptions C106_any_order_partial.
Print Assumptions C106_links_refuted.
Print Assumptions C106_circle_refuted.
