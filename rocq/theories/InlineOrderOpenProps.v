(** Whether an inline filing can be read does not depend on the order of its documents (C109). *)
From Coq Require Import Permutation QArith.
From Verif Require Import Base DateModel QNameModel ErrBase ErrModel CtxModel CtxSpec InlineModel InlineSpec InlineReportSpec InlineOpenProps InlineFilingModel InlineFilingSpec InlineFilingProofs
  InlineFilingProps InlineFilingOpenSpec InlineFilingOpenProofs InlineFilingOpenProps OrderSpec InlineOrderSpec OrderProofs InlineOrderProofs InlineOrderProps.
From Verif Require CtxReportSpec LinkProps LinkProofs LinkReadSpec LinkReadProofs LinkModel LinkSpec NetModel NetSpec CompModel ConceptModel ConceptLoad ConceptOpen ConceptSpec FilingModel FilingProofs FilingOpenSpec
  FilingOpenProofs FilingOpenProps FilingStages OrderProps InlineSameProps FootProps FootModel FootSpec FootOpenSpec TextModel.
Local Open Scope nat_scope.

(** ** Places *)

Definition tree_at (p : place) : tree * list tree := (p_tree p, p_above p).
Lemma numbered_at n l : map tree_at (number_places n l) = l.
Proof.
  unfold number_places. rewrite map_map. unfold tree_at. cbn [p_tree p_above]. revert n. induction l as [|[a b] l IH]; intros n; [reflexivity|]. cbn [length seq combine map fst snd]. rewrite IH. reflexivity.
Qed.
Definition ix_at (names : list string) (r : tree) : list (tree * list tree) :=
  match dict_get key_eqb (t_scope r) (Some (u "ix")) with
  | None => []
  | Some uri => filter (fun t => existsb (fun n => has_tag (to_clark uri (u n)) (plain (fst t))) names) (below [] r)
  end.
Lemma places_at names roots : forall n, map tree_at (flat_map (ix_places names) (pages n roots)) = flat_map (ix_at names) roots.
Proof.
  induction roots as [|r rs IH]; intros n; [reflexivity|]. cbn [pages flat_map]. rewrite map_app, IH. f_equal.
  unfold ix_places, ix_at. cbn [fst snd]. destruct (dict_get _ _ _) as [uri|]; [|reflexivity]. rewrite <- (numbered_at n (below [] r)) at 2.
  induction (number_places n (below [] r)) as [|p l IHl]; [reflexivity|]. cbn [filter map fst tree_at]. unfold p_xml at 1.
  destruct (existsb _ _); cbn [map]; rewrite IHl; reflexivity.
Qed.

Section Roots.
Variables roots1 roots2 : list tree.
Hypothesis P : Permutation roots1 roots2.
Lemma facts_at : Permutation (map tree_at (fact_places roots1)) (map tree_at (fact_places roots2)).
Proof. unfold fact_places. rewrite !places_at. apply Permutation_flat_map, P. Qed.
Lemma fact_at p : In p (fact_places roots2) -> exists q, In q (fact_places roots1) /\ p_tree q = p_tree p /\ p_above q = p_above p.
Proof.
  intros H. assert (K : In (tree_at p) (map tree_at (fact_places roots1))) by (apply (Permutation_in _ (Permutation_sym facts_at)), in_map, H).
  apply in_map_iff in K as (q & E & K). injection E as E1 E2. eauto.
Qed.
Lemma note_at p : In p (note_places roots2) -> exists q, In q (note_places roots1) /\ p_tree q = p_tree p.
Proof.
  intros H. assert (K : In (tree_at p) (map tree_at (note_places roots1))).
  { eapply Permutation_in; [|apply in_map, H]. unfold note_places. rewrite !places_at. apply Permutation_sym, Permutation_flat_map, P. }
  apply in_map_iff in K as (q & E & K). injection E as E1 _. eauto.
Qed.
Lemma header_perm name : Permutation (header_parts name roots1) (header_parts name roots2).
Proof. unfold header_parts, kids_named, all_headers. apply filter_perm, Permutation_flat_map, Permutation_flat_map, Permutation_map, P. Qed.

Hypothesis N : NoDup (InlineSpec.ids_of (map p_xml (cont_places roots1))).
Lemma conts_once : NoDup (InlineSpec.ids_of (map p_xml (cont_places roots2))).
Proof.
  eapply Permutation_NoDup; [|exact N]. apply ids_perm. pose proof (Permutation_map plain (cont_trees _ _ P)) as K. rewrite !map_map in K. exact K.
Qed.
(** A text goes on to its end in both orders. *)
Lemma goes_on_to o qs : goes_on (cont_places roots1) o qs -> exists qs', goes_on (cont_places roots2) o qs' /\ map p_tree qs' = map p_tree qs.
Proof.
  induction 1 as [|id H|id q qs H _ (qs' & IH & E)].
  - exists []. split; [constructor|reflexivity].
  - exists []. split; [constructor|reflexivity]. intros q' Hq'. apply (in_other _ _ (Permutation_sym (cont_trees _ _ P))) in Hq' as (q & Hq & E). specialize (H q Hq). unfold p_xml in *. rewrite E in H. exact H.
  - destruct H as (a & b & Ea & A & _). assert (Hq : In q (cont_places roots1)) by (rewrite Ea; apply in_elt). clear Ea.
    destruct (in_other _ _ (cont_trees _ _ P) q Hq) as (z & Hz & Ez). exists (z :: qs'). split; [|cbn [map]; congruence]. econstructor.
    + apply in_split in Hz as (c & d & Ec). exists c, d. split; [exact Ec|]. split; [unfold p_xml in *; rewrite Ez; exact A|].
      intros y Hy Ey. pose proof conts_once as M. rewrite Ec, map_app in M. rewrite ids_app in M. apply nodup_right in M. cbn [map] in M. unfold InlineSpec.ids_of in M. cbn [flat_map] in M.
      assert (Az : attr (p_xml z) (u "id") = Some id) by (unfold p_xml in *; rewrite Ez; exact A). rewrite Az in M. inversion M as [|? ? K _]; subst. apply K.
      apply (ids_in (map p_xml d) (p_xml y) id); [apply in_map, Hy|exact Ey].
    + unfold p_xml in *. rewrite Ez. exact IH.
Qed.
Lemma parts_to p q ts : p_tree p = p_tree q -> parts (cont_places roots1) p ts -> parts (cont_places roots2) q ts.
Proof. intros E (qs & A & ->). apply goes_on_to in A as (qs' & A & B). exists qs'. unfold p_xml in *. rewrite <- E. split; [exact A|rewrite B; reflexivity]. Qed.
End Roots.

(** ** Elements of facts *)

Section Elements.
Variable tostring : TextModel.xml -> str.
Variable py_float : str -> option bool.
Variable era_valid : list (part * str) -> res bool.
(** They say the same in both orders. *)
Definition twin (n n' : node) : Prop :=
  n_el n = n_el n' /\ n_parent n = n_parent n' /\ n_tails n = n_tails n' /\ n_markup n = n_markup n' /\
  (tag_name (n_el n) = Ok (u "ix:nonNumeric") -> n_content n = n_content n').
Lemma twin_sym n n' : twin n n' -> twin n' n.
Proof. intros (A & B & C & D & F). split; [auto|]. split; [auto|]. split; [auto|]. split; [auto|]. intros H. symmetry. apply F. rewrite A. exact H. Qed.

Section Twins.
Variables trees1 trees2 : list (str * tree).
Let roots1 := instance_roots (dict_values trees1).
Let roots2 := instance_roots (dict_values trees2).
Hypothesis P : Permutation trees1 trees2.
Hypothesis N : NoDup (InlineSpec.ids_of (map p_xml (cont_places roots1))).
Hypothesis Hp1 : forall p, In p (fact_places roots1) -> usual_prefix p.
Hypothesis Hp2 : forall p, In p (fact_places roots2) -> usual_prefix p.
Hypothesis H1 : texts_end roots1.
Hypothesis H2 : texts_end roots2.
Lemma twins n' : In n' (fact_elements tostring trees2) -> exists n, In n (fact_elements tostring trees1) /\ twin n n'.
Proof.
  unfold fact_elements. fold roots1 roots2. intros H. apply in_map_iff in H as (p' & <- & Hp'). destruct (fact_at _ _ (roots_perm _ _ P) p' Hp') as (p & Hp & Et & Ea).
  eexists. split; [apply in_map, Hp|]. unfold twin, node_of. cbn [n_el n_parent n_tails n_markup n_content]. unfold p_xml. rewrite Et, Ea.
  split; [reflexivity|]. split; [reflexivity|]. split; [reflexivity|]. split; [reflexivity|]. intros Htag.
  destruct (any_taken roots1 Hp1 (enough roots1) [] (le_n _) H1) as (c1 & C1 & _), (any_taken roots2 Hp2 (enough roots2) [] (le_n _) H2) as (c2 & C2 & _).
  assert (T1 : tag_name (p_xml p) = Ok (u "ix:nonNumeric")) by (unfold p_xml; rewrite Et; exact Htag).
  pose proof (chain_parts _ _ _ p C1 (or_introl (conj Hp (tag_nonNumeric p T1)))) as Q1. pose proof (chain_parts _ _ _ p' C2 (or_introl (conj Hp' (tag_nonNumeric p' Htag)))) as Q2.
  pose proof (parts_one _ _ (cont_trees _ _ (roots_perm _ _ P)) N _ _ _ _ Et Q1 Q2) as E. unfold text_content. rewrite E. reflexivity.
Qed.
End Twins.

Variables rep1 rep2 : repository.
Hypothesis T12 : finds_as rep1 rep2.
Hypothesis T21 : finds_as rep2 rep1.
Variables contexts1 contexts2 : list xml.
Hypothesis Pc : Permutation contexts1 contexts2.
Lemma concept_to x : (exists c, fact_concept rep1 x c) -> exists c, fact_concept rep2 x c.
Proof. intros (c & nm & q & A & B & C). apply T12 in C as (c' & C & _); [|exact concept_by_kind]. exists c', nm, q. auto. Qed.
Lemma becomes_to n n' : twin n n' -> becomes rep1 contexts1 n -> becomes rep2 contexts2 n'.
Proof.
  intros (E & _) (A & cid & xc & B & C & D). split; [rewrite <- E; apply concept_to, A|]. exists cid, xc. rewrite <- E. split; [exact B|]. split; [apply (Permutation_in _ Pc), C|exact D].
Qed.
Lemma two_kinds (t : res str) : t = Ok (u "ix:nonFraction") -> t = Ok (u "ix:nonNumeric") -> False.
Proof. intros -> H. apply (f_equal (fun r => match r with Ok t => str_eqb t (u "ix:nonFraction") | _ => false end)) in H. vm_compute in H. discriminate H. Qed.
Lemma value_to n n' v : twin n n' -> value_of py_float era_valid n v -> value_of py_float era_valid n' v.
Proof.
  destruct n as [el pa ta ma co], n' as [el' pa' ta' ma' co']. unfold twin, value_of. cbn [n_el n_parent n_tails n_markup n_content]. intros (<- & <- & <- & <- & E) [[A B]|[A B]].
  - left. split; [exact A|]. destruct B as [K|K|K1 K2|K1 K2 K3].
    + apply num_nil. exact K.
    + apply num_none. exact K.
    + exact (num_text py_float (Node el pa ta ma co') K1 K2).
    + exact (num_nested py_float (Node el pa ta ma co') K1 K2 K3).
  - right. split; [exact A|]. rewrite <- (E A). exact B.
Qed.
Lemma fatal_to n n' : twin n n' -> fact_fatal rep1 era_valid contexts1 n -> fact_fatal rep2 era_valid contexts2 n'.
Proof.
  intros T (A & B). split; [exact (becomes_to n n' T A)|]. revert T B. destruct n as [el pa ta ma co], n' as [el' pa' ta' ma' co']. unfold twin. cbn [n_el n_parent n_tails n_markup n_content].
  intros (<- & <- & <- & <- & E) [[C D]|[C D]].
  - left. split; [exact C|]. destruct D as [p K1 K2|p K1 K2 K3|k r K1 K2 K3 K4|K1 K2 K3 K4].
    + exact (nf_inside_comment (Node el pa ta ma co') p K1 K2).
    + exact (nf_differs (Node el pa ta ma co') p K1 K2 K3).
    + exact (nf_comment (Node el pa ta ma co') k r K1 K2 K3 K4).
    + exact (nf_nothing (Node el pa ta ma co') K1 K2 K3 K4).
  - right. split; [exact C|]. rewrite <- (E C). exact D.
Qed.
End Elements.

(** ** What stops the reading *)

Section Stops.
Variables roots1 roots2 : list tree.
Hypothesis P : Permutation roots1 roots2.
Lemma prefixes_other : (forall p, In p (fact_places roots1) -> usual_prefix p) -> forall p, In p (fact_places roots2) -> usual_prefix p.
Proof. intros H p Hp. destruct (fact_at _ _ P p Hp) as (q & Hq & E & _). apply H in Hq. unfold usual_prefix, p_xml in *. rewrite <- E. exact Hq. Qed.
Lemma headers_to : headers_fatal (map plain roots1) -> headers_fatal (map plain roots2).
Proof. intros (r & A & B). exists r. split; [apply (Permutation_in _ (Permutation_map plain P)), A|exact B]. Qed.
Lemma references_to name : references_fatal (header_parts name roots1) -> references_fatal (header_parts name roots2).
Proof. intros (x & k & A & B). exists x, k. split; [apply (Permutation_in _ (header_perm _ _ P name)), A|exact B]. Qed.
Lemma resources_to name : resources_fatal (header_parts name roots1) -> resources_fatal (header_parts name roots2).
Proof. intros (x & k & A & B). exists x, k. split; [apply (Permutation_in _ (header_perm _ _ P name)), A|exact B]. Qed.
Lemma hidden_to name : hidden_fatal (header_parts name roots1) -> hidden_fatal (header_parts name roots2).
Proof. intros (x & k & A & B). exists x, k. split; [apply (Permutation_in _ (header_perm _ _ P name)), A|exact B]. Qed.
Lemma plain_to name : plain_dimensions [holding (resource_parts name roots1)] -> plain_dimensions [holding (resource_parts name roots2)].
Proof. intros H x t Hx E. apply (occurs_other _ _ (parts_perm name _ _ P)) in Hx as [->|Hx]; [discriminate E|exact (H x t Hx E)]. Qed.

Hypothesis N : NoDup (InlineSpec.ids_of (map p_xml (cont_places roots1))).
Lemma continuable_at p : In p (continuables roots2) -> exists q, In q (continuables roots1) /\ p_tree q = p_tree p.
Proof.
  unfold continuables. intros H. apply in_app_iff in H as [H|H].
  - apply filter_In in H as [H K]. destruct (fact_at _ _ P p H) as (q & Hq & E & _). exists q. split; [|exact E]. apply in_or_app. left. apply filter_In. split; [exact Hq|]. unfold p_xml in *. rewrite E. exact K.
  - destruct (note_at _ _ P p H) as (q & Hq & E). exists q. split; [apply in_or_app; right; exact Hq|exact E].
Qed.
Lemma texts_to : texts_end roots1 -> texts_end roots2.
Proof.
  intros H p Hp. destruct (continuable_at p Hp) as (q & Hq & E). destruct (H q Hq) as (qs & K). destruct (goes_on_to _ _ P N _ _ K) as (qs' & K' & _). exists qs'. unfold p_xml in *. rewrite <- E. exact K'.
Qed.
Lemma notes_to : notes_fine roots1 -> notes_fine roots2.
Proof.
  intros H p id ts Hp Hid Hts. destruct (note_at _ _ P p Hp) as (q & Hq & E). apply (H q id ts Hq).
  - unfold has_id, p_xml in *. rewrite E. exact Hid.
  - eapply (parts_to _ _ (Permutation_sym P)); [exact (conts_once _ _ P N)|symmetry; exact E|exact Hts].
Qed.
Lemma named_note id : note_with_id roots1 id -> note_with_id roots2 id.
Proof.
  intros (p & Hp & Hid). destruct (note_at _ _ (Permutation_sym P) p Hp) as (q & Hq & E). exists q. split; [exact Hq|]. unfold has_id, p_xml in *. rewrite E. exact Hid.
Qed.
End Stops.

Lemma led_in e xs ys l r id : (forall x, In x xs -> In x ys) -> FootOpenSpec.led_to e xs l r id -> FootOpenSpec.led_to e ys l r id.
Proof. intros H (x & A & B). exists x. split; [apply H, A|exact B]. Qed.
Lemma relationships_to e roots1 roots2 (value1 value2 : str -> str -> Prop) : Permutation roots1 roots2 -> (forall i v, value1 i v <-> value2 i v) ->
  relationships_fine e roots1 value1 -> relationships_fine e roots2 value2.
Proof.
  intros P Hv [H1 H2]. pose proof (parts_perm "ix:relationship" _ _ P) as Q. split.
  - intros x Hx. apply H1, (Permutation_in _ (Permutation_sym Q)), Hx.
  - intros ns fs Hn Hf l r x Hx Hg.
    assert (I : forall y, In y (map rel_of (resource_parts "ix:relationship" roots2)) -> In y (map rel_of (resource_parts "ix:relationship" roots1)))
      by (intros y; apply Permutation_in, Permutation_map, Permutation_sym, Q).
    assert (J : forall y, In y (map rel_of (resource_parts "ix:relationship" roots1)) -> In y (map rel_of (resource_parts "ix:relationship" roots2)))
      by (intros y; apply Permutation_in, Permutation_map, Q).
    destruct (H2 ns fs) with (l := l) (r := r) (x := x) as (A & B & C).
    + intros id. rewrite Hn. split; apply named_note; [apply Permutation_sym, P|exact P].
    + intros i v. rewrite Hf. symmetry. apply Hv.
    + apply I, Hx.
    + exact Hg.
    + split; [intros id Hid; destruct (A id Hid) as [K|K]; [left; exact (led_in _ _ _ _ _ _ J K)|right; exact K]|]. split; [exact B|].
      intros from to F T. destruct (C from to F T) as [K1 K2]. split; [exact K1|]. intros L. apply K2, (led_in _ _ _ _ _ _ I L).
Qed.
Lemma context_ok_to parse_date rep1 rep2 x : finds_as rep1 rep2 -> finds_as rep2 rep1 -> CtxReportSpec.context_ok parse_date rep1 x = CtxReportSpec.context_ok parse_date rep2 x.
Proof.
  intros T12 T21. unfold CtxReportSpec.context_ok. destruct (find_kid (u "period") x); [|reflexivity]. destruct (find_kid (u "entity") x) as [e|]; [|reflexivity]. f_equal. destruct (find_kid _ e) as [seg|]; [|reflexivity].
  induction (x_kids seg) as [|k l IH]; [reflexivity|]. cbn [forallb]. rewrite (dimension_ok_to _ _ T12 T21), IH. reflexivity.
Qed.

(** ** What the facts say *)

Lemma node_els tostring trees : map n_el (fact_elements tostring trees) = map p_xml (fact_places (instance_roots (dict_values trees))).
Proof. unfold fact_elements. rewrite map_map. reflexivity. Qed.
Lemma only_last (Q : node -> Prop) l n i : NoDup (InlineSpec.ids_of (map n_el l)) -> In n l -> Q n -> attr (n_el n) (u "id") = Some i ->
  (forall m, Q m -> attr (n_el m) (u "id") = Some i) -> last_with Q l n.
Proof.
  intros D H K E G. apply in_split in H as (a & b & ->). exists a, b. split; [reflexivity|]. split; [exact K|]. intros m Hm Qm. apply G in Qm.
  rewrite map_app, ids_app in D. apply nodup_right in D. unfold InlineSpec.ids_of in D. cbn [map flat_map] in D. rewrite E in D. inversion D as [|? ? D1 _]; subst.
  apply D1. exact (ids_in _ _ _ (in_map n_el _ _ Hm) Qm).
Qed.
Lemma says_to rep1 rep2 py_float era_valid contexts1 contexts2 nodes1 nodes2 i v : finds_as rep1 rep2 -> Permutation contexts1 contexts2 ->
  NoDup (InlineSpec.ids_of (map n_el nodes2)) -> (forall n, In n nodes1 -> exists n', In n' nodes2 /\ twin n n') ->
  says rep1 py_float era_valid contexts1 nodes1 i v -> says rep2 py_float era_valid contexts2 nodes2 i v.
Proof.
  intros T Pc D W (n & L & V). apply last_in in L as (L & B & E). destruct (W n L) as (n' & L' & Tw). exists n'. pose proof Tw as (Ee & _). split.
  - assert (E' : attr (n_el n') (u "id") = Some i) by (rewrite <- Ee; exact E). apply (only_last _ _ _ i); [exact D|exact L'| |exact E'|intros m (_ & K); exact K].
    split; [eapply becomes_to; eassumption|exact E'].
  - eapply value_to; eassumption.
Qed.

(** ** Reading to the end *)

Section Order.
Variable e : FootModel.env.
Variable tostring : TextModel.xml -> str.
Variable parse_date : str -> res date.
Variable py_float : str -> option bool.
Variable era_valid : list (part * str) -> res bool.
Variable element_str : xml -> str.
Variable number : str -> Q.
Notation reads := (reads_inline e tostring parse_date py_float era_valid element_str number).
Hypothesis He : FootSpec.lists_sets (FootModel.e_set e).

(** What is asked of the documents, in one of their orders *)
Definition regular (trees : list (str * tree)) : Prop :=
  let docs := map plain (dict_values trees) in let roots := instance_roots (dict_values trees) in
  declared_once trees /\ ConceptLoad.prefixes_usual (plain_trees trees) /\ LinkSpec.all_usual docs /\
  (forall d, In d docs -> x_tag d <> Some (u "{http://xbrl.org/2003/linkbase}linkbase")) /\
  (forall p, In p (fact_places roots) -> usual_prefix p) /\ plain_dimensions [holding (resource_parts "xbrli:context" roots)] /\
  NoDup (InlineSpec.ids_of (map p_xml (fact_places roots))) /\ NoDup (InlineSpec.ids_of (map p_xml (cont_places roots))) /\
  no_circles docs.

Lemma docs_plain trees : dict_values (plain_trees trees) = map plain (dict_values trees).
Proof. unfold dict_values, plain_trees. rewrite !map_map. reflexivity. Qed.
Lemma regular_to trees1 trees2 : Permutation trees1 trees2 -> regular trees1 -> regular trees2.
Proof.
  intros P (A & B & C & D & E & F & G & H & I). pose proof (plain_perm _ _ P) as Pp. pose proof (roots_perm _ _ P) as Pr.
  split; [exact (once_other _ _ P A)|]. split; [exact (prefixes_to _ _ Pp B)|]. rewrite <- docs_plain in C, D, I. rewrite <- !docs_plain.
  split; [exact (usual_to _ _ Pp C)|]. split; [intros d Hd; apply D, (docs_in _ _ Pp), Hd|]. split; [exact (prefixes_other _ _ Pr E)|]. split; [exact (plain_to _ _ Pr _ F)|].
  split; [|split; [exact (conts_once _ _ Pr H)|]].
  - eapply Permutation_NoDup; [|exact G]. apply ids_perm. pose proof (Permutation_map plain (fact_trees _ _ Pr)) as K. rewrite !map_map in K. exact K.
  - intros link outside k J. apply I. apply (links_to _ _ Pp), J.
Qed.

Lemma opens_to trees1 trees2 es : Permutation trees1 trees2 -> regular trees1 -> (exists f, reads trees1 es f) -> exists f, reads trees2 es f.
Proof.
  intros P R1. pose proof (regular_to _ _ P R1) as R2. destruct R1 as ((K1 & Nm1 & I1) & B1 & C1 & D1 & E1 & F1 & G1 & H1 & J1), R2 as ((K2 & Nm2 & I2) & B2 & C2 & D2 & E2 & F2 & G2 & H2 & J2).
  pose proof (plain_perm _ _ P) as Pp. pose proof (roots_perm _ _ P) as Pr. pose proof (Permutation_sym Pr) as Pr'. pose proof (parts_perm "xbrli:context" _ _ Pr) as Pc.
  pose proof (plain_docs _ K1) as Kp1. pose proof (plain_docs _ K2) as Kp2.
  set (eo := fun (_ : nat) (l : list NetModel.edge) => l). set (ro := fun (_ : nat) (l : list nat) => l). set (sh := fun l : list nat => l).
  assert (Oo : LinkSpec.orders eo ro) by (split; intros n l; apply Permutation_refl). assert (Os : NetSpec.some_order sh) by (intros l; apply Permutation_refl).
  intros (f & fu & eo' & ro' & sh' & Oo' & Os' & Hf).
  pose proof (proj1 (C108_opens_partial e tostring parse_date py_float era_valid element_str number trees1 es He K1 B1 C1 D1 E1 F1 eo' ro' sh' Oo' Os') (ex_intro _ fu (ex_intro _ f Hf))) as (Hd & Hr & Hroles).
  clear Hf f fu eo' ro' sh' Oo' Os'.
  enough (X : exists fuel f, parse_inline_filing e tostring fuel parse_date py_float era_valid element_str number eo ro sh trees2 es = Ok f) by (destruct X as (fu & f & X); exists f, fu, eo, ro, sh; auto).
  apply (C108_opens_partial e tostring parse_date py_float era_valid element_str number trees2 es He K2 B2 C2 D2 E2 F2 eo ro sh Oo Os).
  pose proof (proj2 (ConceptOpen.declarations_iff _ es Kp1 B1) Hd) as ([r1 x1] & Q1).
  specialize (Hr r1 x1 Q1). cbv zeta in Hr. destruct Hr as (Hi & Hn & Hrel & Hl). destruct (FilingProofs.elements_stored _ _ _ Q1) as (reg1 & N1 & Er1). cbn [fst] in Er1.
  assert (Hd2 : ConceptOpen.declarable (plain_trees trees2)) by exact (declarable_to _ _ Pp Nm1 Hd).
  pose proof (proj2 (ConceptOpen.declarations_iff _ es Kp2 B2) Hd2) as ([r2 x2] & Q2). destruct (FilingProofs.elements_stored _ _ _ Q2) as (reg2 & N2 & Er2). cbn [fst] in Er2.
  pose proof (registered_to _ _ _ _ _ _ _ _ Pp Kp1 B1 Nm1 Q1 Q2) as M. rewrite Er1, Er2 in M. rewrite !ConceptLoad.stored_all in M by assumption.
  pose proof (registered_elements _ _ N1 N2 M) as C12. pose proof (registered_elements _ _ N2 N1 (Permutation_sym M)) as C21.
  pose proof (finds _ _ N1 N2 C12) as T12. pose proof (finds _ _ N2 N1 C21) as T21.
  split; [exact Hd2|]. split.
  - intros r e1 Q. unfold inline_elements in Q. rewrite Q2 in Q. injection Q as <- <-. rewrite Er1 in Hi, Hrel, Hl. rewrite Er2. cbv zeta.
    destruct Hi as (Z1 & Z2 & Z3 & Z4 & Z5 & Z6 & Z7 & Z8). pose proof (texts_to _ _ Pr H1 Z7) as Z7'.
    pose proof (twins tostring _ _ P H1 E1 E2 Z7 Z7') as W21. pose proof (twins tostring _ _ (Permutation_sym P) H2 E2 E1 Z7' Z7) as W12.
    assert (V : forall i v, fact_values tostring py_float era_valid trees1 (FilingModel.repository_of (ConceptLoad.stored reg1)) i v <->
      fact_values tostring py_float era_valid trees2 (FilingModel.repository_of (ConceptLoad.stored reg2)) i v).
    { intros i v. unfold fact_values. split.
      - eapply says_to; [exact T12|exact Pc|rewrite node_els; exact G2|]. intros n Hin. destruct (W12 n Hin) as (n' & A & B). exists n'. split; [exact A|apply twin_sym, B].
      - eapply says_to; [exact T21|exact (Permutation_sym Pc)|rewrite node_els; exact G1|]. intros n Hin. destruct (W21 n Hin) as (n' & A & B). exists n'. split; [exact A|apply twin_sym, B]. }
    split; [|split; [exact (notes_to _ _ Pr H1 Hn)|split; [exact (relationships_to _ _ _ _ _ Pr V Hrel)|]]].
    + split; [intros K; apply Z1, (headers_to _ _ Pr'), K|]. split; [intros K; apply Z2, (references_to _ _ Pr'), K|]. split; [intros K; apply Z3, (resources_to _ _ Pr'), K|].
      split. { eapply Permutation_Forall; [exact Pc|]. eapply Forall_impl; [|exact Z4]. intros x (X1 & X2). split; [exact X1|]. rewrite <- (context_ok_to _ _ _ x T12 T21). exact X2. }
      split. { eapply Permutation_Forall; [exact (parts_perm "xbrli:unit" _ _ Pr)|exact Z5]. }
      split; [intros K; apply Z6, (hidden_to _ _ Pr'), K|]. split; [exact Z7'|].
      intros n' Hn' Fn. destruct (W21 n' Hn') as (n & Hin & Tw). apply (Z8 n Hin). eapply fatal_to; [exact T21|exact (Permutation_sym Pc)|exact (twin_sym _ _ Tw)|exact Fn].
    + intros find Hfind. specialize (Hl find). destruct Hl as [Hl _].
      * intros i. eapply points_to; [exact C21|exact C12| | | | |apply Hfind].
        -- rewrite (FilingProofs.all_elements reg2 N2), map_map. exact N2.
        -- rewrite (FilingProofs.all_elements reg1 N1), map_map. exact N1.
        -- rewrite Er2 in Q2. exact (OrderProps.ids_registered _ _ _ _ Q2 N2 B2 Kp2 I2).
        -- split; intros (v & A); exists v; apply V, A.
      * rewrite <- docs_plain in Hl, C2, J1, D2. rewrite <- docs_plain. split; [intros link outside k A; apply Hl, (links_to _ _ Pp), A|].
        intros l Hread pre link outside mid link' outside' post role k El _ _ J _ K' _ T. eapply turns_chain; [exact T|]. apply (J1 link' outside' k); [|exact K'|exact J].
        apply (links_to _ _ Pp). apply (LinkReadProofs.links_as_read_iff _ _ C2) in Hread. apply LinkProofs.in_all_links, LinkProofs.in_sorted_links. rewrite <- Hread, El.
        apply in_or_app. right. right. apply in_elt.
  - intros x Hx. apply Hroles. rewrite in_flat_map in *. rewrite <- docs_plain in *. destruct Hx as (d & A & B). exists d. split; [apply (docs_in _ _ Pp), A|exact B].
Qed.

(** In one order the documents of an inline filing can be read to their end if and only if they can in any
    other, if no presentation, calculation or definition link has arcs that lead back and no two facts and no
    two continuations have the same id. *)
Theorem C109_inline_opens_partial trees1 trees2 es : Permutation trees1 trees2 -> regular trees1 ->
  ((exists f, reads trees1 es f) <-> exists f, reads trees2 es f).
Proof. intros P R. split; [exact (opens_to _ _ es P R)|exact (opens_to _ _ es (Permutation_sym P) (regular_to _ _ P R))]. Qed.
End Order.

(** The inline filing of InlineSameProps is regular and can be read, with its documents in their order and backwards. *)
Lemma circles_as docs docs' : LinkModel.all_links docs = LinkModel.all_links docs' -> no_circles docs' -> no_circles docs.
Proof. intros E H link outside k K. apply H. apply LinkProofs.in_all_links. rewrite <- E. apply LinkProofs.in_all_links. exact K. Qed.
Example C109_inline_example_opens : Permutation y_trees (rev y_trees) /\ regular y_trees /\ (exists f, y_reads y_trees f) /\ exists f, y_reads (rev y_trees) f.
Proof.
  destruct C109_inline_example_hypotheses as (A & B & C & _). destruct (proj1 C108_example) as (_ & _ & D & E & F & G). destruct C109_inline_example_resources as (_ & (_ & _ & N3 & N4) & _).
  assert (R : regular y_trees).
  { split; [exact B|]. split; [exact C|]. split; [exact D|]. split; [exact E|]. split; [exact F|]. split; [exact G|]. split; [exact N3|]. split; [exact N4|].
    apply (circles_as _ (dict_values FilingProps.x_trees)); [vm_compute; reflexivity|exact OrderProps.x_no_circles]. }
  split; [exact A|]. split; [exact R|]. destruct C109_inline_example as (f1 & f2 & R1 & R2 & _). split; [exists f1; exact R1|exists f2; exact R2].
Qed.

Print Assumptions C109_inline_opens_partial.
