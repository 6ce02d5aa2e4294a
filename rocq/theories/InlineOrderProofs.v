(** Lemmas about the order of the documents of an inline filing (C109). *)
From Coq Require Import Permutation QArith.
From Verif Require Import Base DateModel QNameModel ErrBase ErrModel CtxModel CtxSpec InlineModel InlineSpec InlineProofs InlineFilingModel InlineFilingSpec.
From Verif Require Import OrderSpec InlineOrderSpec OrderProofs.
From Verif Require NumModel InlineProps TextModel TextSpec ConceptModel ConceptLoad FilingModel FilingProofs.
Local Open Scope nat_scope.

(** ** Lists *)

Lemma flat_map_map {A B C} (f : A -> B) (g : B -> list C) l : flat_map g (map f l) = flat_map (fun x => g (f x)) l.
Proof. induction l as [|x l IH]; [reflexivity|]. cbn [map flat_map]. rewrite IH. reflexivity. Qed.
Lemma map_flat_map {A B C} (f : B -> C) (g : A -> list B) l : map f (flat_map g l) = flat_map (fun x => map f (g x)) l.
Proof. induction l as [|x l IH]; [reflexivity|]. cbn [flat_map]. rewrite map_app, IH. reflexivity. Qed.
Lemma filter_perm {A} (f : A -> bool) l l' : Permutation l l' -> Permutation (filter f l) (filter f l').
Proof.
  induction 1 as [|x l l' _ IH|x y l|l l' l'' _ IH1 _ IH2]; cbn [filter].
  - constructor.
  - destruct (f x); [constructor|]; exact IH.
  - destruct (f x), (f y); try apply Permutation_refl. constructor.
  - eapply Permutation_trans; eassumption.
Qed.

(** ** Places *)

Lemma numbered_trees n l : map p_tree (number_places n l) = map fst l.
Proof.
  unfold number_places. rewrite map_map. cbn [p_tree]. revert n. induction l as [|q l IH]; intros n; [reflexivity|]. cbn [length seq combine map fst snd]. rewrite IH. reflexivity.
Qed.
Definition ix_trees (names : list string) (r : tree) : list tree :=
  match dict_get key_eqb (t_scope r) (Some (u "ix")) with
  | None => []
  | Some uri => filter (fun t => existsb (fun n => has_tag (to_clark uri (u n)) (plain t)) names) (map fst (below [] r))
  end.
Lemma places_trees names roots : forall n, map p_tree (flat_map (ix_places names) (pages n roots)) = flat_map (ix_trees names) roots.
Proof.
  induction roots as [|r rs IH]; intros n; [reflexivity|]. cbn [pages flat_map]. rewrite map_app, IH. f_equal.
  unfold ix_places, ix_trees. cbn [fst snd]. destruct (dict_get _ _ _) as [uri|]; [|reflexivity]. rewrite <- (numbered_trees n).
  induction (number_places n (below [] r)) as [|p l IHl]; [reflexivity|]. cbn [filter map]. unfold p_xml at 1.
  destruct (existsb _ _); cbn [map]; rewrite IHl; reflexivity.
Qed.
Lemma fact_trees roots1 roots2 : Permutation roots1 roots2 -> Permutation (map p_tree (fact_places roots1)) (map p_tree (fact_places roots2)).
Proof. intros P. unfold fact_places. rewrite !places_trees. apply Permutation_flat_map, P. Qed.
Lemma cont_trees roots1 roots2 : Permutation roots1 roots2 -> Permutation (map p_tree (cont_places roots1)) (map p_tree (cont_places roots2)).
Proof. intros P. unfold cont_places. rewrite !places_trees. apply Permutation_flat_map, P. Qed.
Lemma roots_perm (t1 t2 : list (str * tree)) : Permutation t1 t2 -> Permutation (instance_roots (dict_values t1)) (instance_roots (dict_values t2)).
Proof. intros P. unfold instance_roots, dict_values. apply filter_perm, Permutation_map, P. Qed.
Lemma parts_perm name roots1 roots2 : Permutation roots1 roots2 -> Permutation (resource_parts name roots1) (resource_parts name roots2).
Proof.
  intros P. unfold resource_parts, header_parts, kids_named, all_headers. apply filter_perm, Permutation_flat_map, filter_perm, Permutation_flat_map, Permutation_flat_map, Permutation_map, P.
Qed.

(** Of a list without repeated ids, an element is determined by its id. *)
Lemma ids_app a b : ids_of (a ++ b) = ids_of a ++ ids_of b.
Proof. unfold ids_of. apply flat_map_app. Qed.
Lemma ids_in l x i : In x l -> attr x (u "id") = Some i -> In i (ids_of l).
Proof. intros H E. unfold ids_of. apply in_flat_map. exists x. split; [exact H|]. rewrite E. left. reflexivity. Qed.
Lemma one_id l x y i : NoDup (ids_of l) -> In x l -> In y l -> attr x (u "id") = Some i -> attr y (u "id") = Some i -> x = y.
Proof.
  induction l as [|z l IH]; intros N Hx Hy Ex Ey; [destruct Hx|]. unfold ids_of in N. cbn [flat_map] in N.
  destruct Hx as [->|Hx], Hy as [->|Hy]; [reflexivity| | |].
  - exfalso. rewrite Ex in N. cbn [app] in N. inversion N as [|? ? A _]; subst. apply A. eapply (ids_in l); eassumption.
  - exfalso. rewrite Ey in N. cbn [app] in N. inversion N as [|? ? A _]; subst. apply A. eapply (ids_in l); eassumption.
  - apply IH; try assumption. destruct (attr z (u "id")); [inversion N; assumption|exact N].
Qed.
Lemma ids_perm l l' : Permutation l l' -> Permutation (ids_of l) (ids_of l').
Proof. apply Permutation_flat_map. Qed.
Lemma one_tree l x y i : NoDup (ids_of (map plain l)) -> In x l -> In y l -> attr (plain x) (u "id") = Some i -> attr (plain y) (u "id") = Some i -> x = y.
Proof.
  induction l as [|z l IH]; intros N Hx Hy Ex Ey; [destruct Hx|]. unfold ids_of in N. cbn [flat_map map] in N.
  destruct Hx as [->|Hx], Hy as [->|Hy]; [reflexivity| | |].
  - exfalso. rewrite Ex in N. cbn [app] in N. inversion N as [|? ? A _]; subst. apply A. eapply (ids_in (map plain l)); [apply in_map, Hy|exact Ey].
  - exfalso. rewrite Ey in N. cbn [app] in N. inversion N as [|? ? A _]; subst. apply A. eapply (ids_in (map plain l)); [apply in_map, Hx|exact Ex].
  - apply IH; try assumption. destruct (attr (plain z) (u "id")); [inversion N; assumption|exact N].
Qed.

(** ** Continuations *)

Section Continued.
Variables conts1 conts2 : list place.
Hypothesis P : Permutation (map p_tree conts1) (map p_tree conts2).
Hypothesis N : NoDup (ids_of (map p_xml conts1)).
Lemma in_other q : In q conts1 -> exists q', In q' conts2 /\ p_tree q' = p_tree q.
Proof.
  intros H. assert (K : In (p_tree q) (map p_tree conts2)) by (apply (Permutation_in _ P), in_map, H). apply in_map_iff in K as (q' & E & K). eauto.
Qed.
Lemma goes_on_one o qs : goes_on conts1 o qs -> forall qs', goes_on conts2 o qs' -> map p_tree qs = map p_tree qs'.
Proof.
  assert (N' : NoDup (ids_of (map plain (map p_tree conts1)))) by (rewrite map_map; exact N).
  induction 1 as [|id H|id q qs H _ IH]; intros qs' H'.
  - inversion H'; subst. reflexivity.
  - inversion H' as [|? K|? q' qs2 K _]; subst; [reflexivity|]. exfalso. destruct K as (a & b & E & A & _).
    assert (K : In (p_tree q') (map p_tree conts1)) by (apply (Permutation_in _ (Permutation_sym P)), in_map; rewrite E; apply in_elt).
    apply in_map_iff in K as (z & Ez & Hz). apply (H z Hz). unfold p_xml in *. rewrite Ez. exact A.
  - destruct H as (a & b & E & A & _). assert (Hq : In q conts1) by (rewrite E; apply in_elt). clear E. destruct (in_other q Hq) as (z & Hz & Ez).
    inversion H' as [|? K|? q' qs2 K K']; subst; [exfalso; apply (K z Hz); unfold p_xml in *; rewrite Ez; exact A|].
    destruct K as (a' & b' & E' & A' & _). assert (T : p_tree q = p_tree q').
    { apply (one_tree (map p_tree conts1) _ _ id N'); [apply in_map, Hq| |exact A|exact A'].
      apply (Permutation_in _ (Permutation_sym P)), in_map. rewrite E'. apply in_elt. }
    cbn [map]. rewrite T. f_equal. apply IH. unfold p_xml in *. rewrite T. exact K'.
Qed.
Lemma parts_one p p' ts ts' : p_tree p = p_tree p' -> parts conts1 p ts -> parts conts2 p' ts' -> ts = ts'.
Proof. intros E (qs & A & ->) (qs' & B & ->). unfold p_xml in *. rewrite E in *. rewrite (goes_on_one _ _ A _ B). reflexivity. Qed.
End Continued.

(** ** Contexts *)

(** Two readings of the contexts *)
Definition wrapper (l : list xml) : xml := Xml None [] [] None l.
Lemma occurs_holding l x : occurs [holding l] x <-> x = wrapper l \/ exists c, In c l /\ (x = c \/ In x (descendants c)).
Proof.
  unfold occurs, holding. fold (wrapper l). split.
  - intros (i & [<-|[]] & H). cbn [descendants x_kids] in H. destruct H as [<-|H]; [left; reflexivity|right]. rewrite app_nil_r in H. unfold wrapper in H. cbn [descendants x_kids] in H.
    induction l as [|k l IH]; [destruct H|]. destruct H as [<-|H]; [exists k; split; [left; reflexivity|left; reflexivity]|].
    apply in_app_or in H as [H|H]; [exists k; split; [left; reflexivity|right; exact H]|]. destruct (IH H) as (c & A & B). exists c. split; [right; exact A|exact B].
  - intros H. eexists. split; [left; reflexivity|]. cbn [descendants x_kids]. destruct H as [->|H]; [left; reflexivity|right]. rewrite app_nil_r. unfold wrapper. cbn [descendants x_kids].
    destruct H as (c & A & B). induction l as [|k l IH]; [destruct A|]. destruct A as [->|A]; [destruct B as [->|B]; [left; reflexivity|right; apply in_or_app; left; exact B]|].
    right. apply in_or_app. right. exact (IH A).
Qed.
Lemma no_other l n : named_contexts l -> str_eqb (u "context") n = false -> find_kid n (wrapper l) = None.
Proof.
  intros H Hn. unfold find_kid, wrapper. cbn [x_kids]. induction l as [|k l IH]; [reflexivity|]. cbn [find].
  assert (K : has_local n k = false).
  { specialize (H k (or_introl eq_refl)). unfold has_local in *. destruct (x_tag k) as [t|]; [|reflexivity]. destruct (str_eqb_spec (local_of t) (u "context")) as [->|_]; [exact Hn|discriminate H]. }
  rewrite K. apply IH. intros x Hx. apply H. right. exact Hx.
Qed.
Section Contexts.
Variables l1 l2 : list xml.
Hypothesis P : Permutation l1 l2.
Hypothesis Hn : named_contexts l1.
Lemma named_to : named_contexts l2.
Proof. intros x Hx. apply Hn, (Permutation_in _ (Permutation_sym P)), Hx. Qed.
Lemma occurs_other x : occurs [holding l2] x -> x = wrapper l2 \/ occurs [holding l1] x.
Proof.
  intros H. apply occurs_holding in H as [H|(c & A & B)]; [left; exact H|right]. apply occurs_holding. right. exists c. split; [apply (Permutation_in _ (Permutation_sym P)), A|exact B].
Qed.
Lemma contexts_alike_to reg1 reg2 : NoDup (map ConceptModel.r_name reg1) -> NoDup (map ConceptModel.r_name reg2) ->
  let rep1 := FilingModel.repository_of (ConceptLoad.stored reg1) in let rep2 := FilingModel.repository_of (ConceptLoad.stored reg2) in
  corresponding (QNameModel.get_all rep2) (QNameModel.get_all rep1) -> contexts_alike rep1 l1 -> contexts_alike rep2 l2.
Proof.
  intros N1 N2 rep1 rep2 H (A1 & A4 & A5 & A6 & A7). pose proof (finds reg2 reg1 N2 N1 H) as T. fold rep1 rep2 in T. pose proof named_to as Hn2.
  split; [|split; [|split; [|split]]].
  - intros x y id s s' Hx Hy Ex Ey. apply occurs_other in Hx as [->|Hx]; [destruct Ex as (i & E & _); rewrite no_other in E; [discriminate E|exact Hn2|vm_compute; reflexivity]|].
    apply occurs_other in Hy as [->|Hy]; [destruct Ey as (i & E & _); rewrite no_other in E; [discriminate E|exact Hn2|vm_compute; reflexivity]|]. exact (A1 x y id s s' Hx Hy Ex Ey).
  - intros x y dt mt d m d' m' Hx Hy Ex Ey. apply occurs_other in Hx as [->|Hx]; [destruct Ex as (E & _); discriminate E|]. apply occurs_other in Hy as [->|Hy]; [destruct Ey as (E & _); discriminate E|].
    pose proof Ex as (_ & _ & _ & (q1 & _ & G1) & q2 & _ & G2). pose proof Ey as (_ & _ & _ & (q1' & _ & G1') & q2' & _ & G2').
    apply (writes_explicit_to _ _ T) in Ex as (z & w & Ex & C & D). apply (writes_explicit_to _ _ T) in Ey as (z' & w' & Ey & C' & D').
    destruct (A4 x y dt mt z w z' w') as [-> ->]; try assumption.
    apply apart_same in C as (C & _). apply apart_same in C' as (C' & _). apply apart_same in D as (D & _). apply apart_same in D' as (D' & _).
    split; eapply (same_name reg2); [exact N2|exact G1|exact G1'|congruence|exact N2|exact G2|exact G2'|congruence].
  - intros x y dt v d d' Hx Hy Ex Ey. apply occurs_other in Hx as [->|Hx]; [destruct Ex as (E & _); discriminate E|]. apply occurs_other in Hy as [->|Hy]; [destruct Ey as (E & _); discriminate E|].
    pose proof Ex as (_ & _ & q1 & _ & G1). pose proof Ey as (_ & _ & q1' & _ & G1').
    apply (writes_typed_to _ _ T) in Ex as (z & Ex & C). apply (writes_typed_to _ _ T) in Ey as (z' & Ey & C').
    rewrite (A5 x y dt v z z') in C by assumption. apply apart_same in C as (C & _). apply apart_same in C' as (C' & _).
    eapply (same_name reg2); [exact N2|exact G1|exact G1'|congruence].
  - intros x t Hx E. apply occurs_other in Hx as [->|Hx]; [discriminate E|exact (A6 x t Hx E)].
  - intros x Hx. apply occurs_other in Hx as [->|Hx]; [|exact (A7 x Hx)]. intros n i t Hin E. exfalso.
    rewrite no_other in E; [discriminate E|exact Hn2|]. cbn [In] in Hin. destruct Hin as [<-|[<-|[<-|[]]]]; vm_compute; reflexivity.
Qed.
End Contexts.

(** ** Facts *)

Section Facts.
Variable parse_date : str -> res date.
Variable py_float : str -> option bool.
Variable era_valid : list (part * str) -> res bool.
Variable tostring : TextModel.xml -> str.
Variables rep1 rep2 : repository.
Hypothesis T12 : finds_as rep1 rep2.
Hypothesis T21 : finds_as rep2 rep1.
Variables xs1 xs2 vs1 vs2 : list xml.
Hypothesis Pc : Permutation xs1 xs2.
Hypothesis Nc : NoDup (ids_of xs1).
Hypothesis Pu : Permutation vs1 vs2.
Hypothesis Nu : NoDup (ids_of vs1).
Variables conts1 conts2 : list place.
Hypothesis Pt : Permutation (map p_tree conts1) (map p_tree conts2).
Hypothesis Nt : NoDup (ids_of (map p_xml conts1)).
Variables us1 us2 : list characteristic.
Definition is_unit (x : xml) (c : characteristic) : Prop := exists id ns ds, attr x (u "id") = Some id /\ reads_unit x ns ds /\ c = ChUnit id ns ds.
Hypothesis U1 : Forall2 is_unit vs1 us1.
Hypothesis U2 : Forall2 is_unit vs2 us2.

Lemma unit_from vs us c : Forall2 is_unit vs us -> In c us -> exists x, In x vs /\ is_unit x c.
Proof.
  intros F. induction F as [|x y l l' H _ IH]; intros Hc; [destruct Hc|]. destruct Hc as [->|Hc]; [exists x; split; [left; reflexivity|exact H]|].
  destruct (IH Hc) as (z & A & B). exists z. split; [right; exact A|exact B].
Qed.
Lemma last_in {A} (Q : A -> Prop) l x : last_with Q l x -> In x l /\ Q x.
Proof. intros (a & b & -> & H & _). split; [apply in_elt|exact H]. Qed.
Lemma first_in {A} (Q : A -> Prop) l x : first_with Q l x -> In x l /\ Q x.
Proof. intros (a & b & -> & H & _). split; [apply in_elt|exact H]. Qed.
Lemma units_one id c c' : last_with (unit_named id) us1 c -> last_with (unit_named id) us2 c' -> c = c'.
Proof.
  intros H H'. apply last_in in H as [H [_ K]], H' as [H' [_ K']]. apply (unit_from _ _ _ U1) in H as (x & Hx & i & ns & ds & A & B & ->).
  apply (unit_from _ _ _ U2) in H' as (x' & Hx' & i' & ns' & ds' & A' & B' & ->). cbn [value_str] in K, K'. subst i i'.
  assert (x' = x) as -> by (eapply (one_id vs1); [exact Nu|apply (Permutation_in _ (Permutation_sym Pu)), Hx'|exact Hx|exact A'|exact A]).
  destruct (unit_one _ _ _ _ _ B B') as [<- <-]. reflexivity.
Qed.
Lemma contexts_one cid x x' : first_with (usable cid) xs1 x -> first_with (usable cid) xs2 x' -> x = x'.
Proof.
  intros H H'. apply first_in in H as [H [K _]], H' as [H' [K' _]]. eapply (one_id xs1); [exact Nc|exact H|apply (Permutation_in _ (Permutation_sym Pc)), H'|exact K|exact K'].
Qed.
Lemma context_one xc c c' :
  context_as entity_exact (period_exact parse_date) (explicit_exact rep1) (typed_exact rep1) xc [] c ->
  context_as entity_exact (period_exact parse_date) (explicit_exact rep2) (typed_exact rep2) xc [] c' -> context_apart c = context_apart c'.
Proof.
  intros (id & xp & xe & p & en & ds & E1 & E2 & E3 & E4 & E5 & E6 & ->) (id' & xp' & xe' & p' & en' & ds' & E1' & E2' & E3' & E4' & E5' & E6' & ->).
  rewrite E1 in E1'. injection E1' as <-. rewrite E2 in E2'. injection E2' as <-. rewrite E3 in E3'. injection E3' as <-.
  rewrite !adds_apart. f_equal. rewrite !map_app. rewrite (period_one _ _ _ _ E4 E4'), (entity_one _ _ _ E5 E5'), (dimensions_one _ _ T12 T21 _ _ _ E6 E6'). reflexivity.
Qed.
Lemma number_one n n' v v' : n_el n = n_el n' -> n_tails n = n_tails n' -> n_markup n = n_markup n' ->
  number_is py_float n v -> number_is py_float n' v' -> v = v'.
Proof.
  intros E1 E2 E3 H H'.
  assert (S : shows_text n = shows_text n') by (unfold shows_text; rewrite E1, E2; reflexivity).
  assert (I : has_inside n = has_inside n') by (unfold has_inside; rewrite E1; reflexivity).
  destruct H as [A|(A1 & A2 & A3)|A B|A B C], H' as [A'|(A1' & A2' & A3')|A' B'|A' B' C']; try reflexivity; try (rewrite E1 in *; contradiction); try congruence.
  unfold number_value. rewrite E1. reflexivity.
Qed.
Lemma text_one p p' n n' v v' : p_tree p = p_tree p' -> is_node tostring conts1 p n -> is_node tostring conts2 p' n' -> tag_name (n_el n) = Ok (u "ix:nonNumeric") ->
  text_is era_valid n v -> text_is era_valid n' v' -> v = v'.
Proof.
  intros Ep (N1 & _ & _ & _ & N5 & N6) (N1' & _ & _ & _ & N5' & N6') Ht (c & k & A & B) (c' & k' & A' & B').
  assert (E : n_el n = n_el n') by (rewrite N1, N1'; unfold p_xml; rewrite Ep; reflexivity).
  rewrite <- E in *. destruct (escapes (n_el n)).
  - apply N6 in A as (ts & z & Q1 & _ & Q2 & _ & ->); [|exact Ht]. apply N6' in A' as (ts' & z' & Q1' & _ & Q2' & _ & ->); [|exact Ht].
    rewrite (parts_one _ _ Pt Nt _ _ _ _ Ep Q1 Q1') in Q2. congruence.
  - apply N5 in A as (ts & Q1 & _ & ->); [|exact Ht]. apply N5' in A' as (ts' & Q1' & _ & ->); [|exact Ht].
    rewrite (parts_one _ _ Pt Nt _ _ _ _ Ep Q1 Q1') in B. congruence.
Qed.
Lemma inline_one p p' n n' x x' : p_tree p = p_tree p' -> is_node tostring conts1 p n -> is_node tostring conts2 p' n' ->
  inline_fact rep1 py_float era_valid xs1 us1 entity_exact (period_exact parse_date) (explicit_exact rep1) (typed_exact rep1) n x [] ->
  inline_fact rep2 py_float era_valid xs2 us2 entity_exact (period_exact parse_date) (explicit_exact rep2) (typed_exact rep2) n' x' [] ->
  ifact_apart x = ifact_apart x'.
Proof.
  intros Ep Hn Hn' (e & us & cid & xc & c & A & B & C & D & F & G & H & I) (e' & us' & cid' & xc' & c' & A' & B' & C' & D' & F' & G' & H' & I').
  pose proof Hn as (N1 & _ & N3 & N4 & _). pose proof Hn' as (N1' & _ & N3' & N4' & _).
  assert (E : n_el n' = n_el n) by (rewrite N1, N1'; unfold p_xml; rewrite Ep; reflexivity). rewrite E in *.
  rewrite C in C'. injection C' as <-. assert (xc' = xc) as -> by (symmetry; eapply contexts_one; eassumption). pose proof (context_one _ _ _ F F') as Ec.
  assert (Ee : apart e = apart e').
  { destruct A as (nm & q & A1 & A2 & A3), A' as (nm' & q' & A1' & A2' & A3'). rewrite A1 in A1'. injection A1' as <-. rewrite A2 in A2'. injection A2' as <-.
    apply T12 in A3 as (z & A3 & Ez); [|exact concept_by_kind]. congruence. }
  assert (Eu : us = us').
  { unfold fact_units in B, B'. rewrite E in B'. destruct (attr (n_el n) (u "unitRef")) as [[|k id]|]; [destruct B as [-> _], B' as [-> _]; reflexivity| |destruct B as [-> _], B' as [-> _]; reflexivity].
    destruct B as [(z & -> & B)|(_ & _ & kw & er & [] & _)], B' as [(z' & -> & B')|(_ & _ & kw & er & [] & _)]. rewrite (units_one _ _ _ B B'). reflexivity. }
  assert (Ev : f_value (if_fact x) = f_value (if_fact x') /\ if_decimals x = if_decimals x' /\ if_precision x = if_precision x').
  { destruct I as [(I1 & I2 & I3 & I4)|(I1 & I2 & I3 & I4)], I' as [(I1' & I2' & I3' & I4')|(I1' & I2' & I3' & I4')]; [| | |].
    - split; [|split; congruence]. eapply (number_one n n'); [symmetry; exact E|rewrite N3, N3', Ep; reflexivity|rewrite N4, N4', Ep; reflexivity|exact I2|exact I2'].
    - rewrite I1 in I1'. exfalso. revert I1'. clear. intros H. apply (f_equal (fun r => match r with Ok t => str_eqb t (u "ix:nonFraction") | _ => false end)) in H. vm_compute in H. discriminate H.
    - rewrite I1 in I1'. exfalso. revert I1'. clear. intros H. apply (f_equal (fun r => match r with Ok t => str_eqb t (u "ix:nonFraction") | _ => false end)) in H. vm_compute in H. discriminate H.
    - split; [|split; congruence]. eapply text_one; eassumption. }
  destruct Ev as (V1 & V2 & V3). unfold ifact_apart, fact_apart. rewrite V1, V2, V3, H, H', G, G', !adds_apart, Ec, Eu. cbn [map char_apart]. rewrite Ee. reflexivity.
Qed.
End Facts.

Lemma nodup_right {A} (a b : list A) : NoDup (a ++ b) -> NoDup b.
Proof. induction a as [|x a IH]; [auto|]. intros H. inversion H; subst. auto. Qed.
(** What is stored, if no id is used twice *)
Lemma stored_all fs r : NoDup (flat_map (fun f => match if_id f with Some i => [i] | None => [] end) fs) -> NoDup (dict_keys (by_id r)) -> stored fs r -> Permutation (all_of r) fs.
Proof.
  intros N Nk (S1 & S2). unfold all_of. rewrite S1.
  assert (Hu : forall i x y, In x fs -> In y fs -> if_id x = Some i -> if_id y = Some i -> x = y).
  { clear -N. induction fs as [|z l IH]; intros i x y Hx Hy Ex Ey; [destruct Hx|]. cbn [flat_map] in N.
    assert (G : forall w, In w l -> if_id w = Some i -> In i (flat_map (fun f => match if_id f with Some i => [i] | None => [] end) l)).
    { intros w Hw Ew. apply in_flat_map. exists w. rewrite Ew. split; [exact Hw|left; reflexivity]. }
    destruct Hx as [->|Hx], Hy as [->|Hy]; [reflexivity| | |].
    - exfalso. rewrite Ex in N. inversion N as [|? ? A _]; subst. apply A, (G y); assumption.
    - exfalso. rewrite Ey in N. inversion N as [|? ? A _]; subst. apply A, (G x); assumption.
    - eapply IH; try eassumption. destruct (if_id z); [inversion N; assumption|exact N]. }
  assert (L : forall i x, last_with (fun g => if_id g = Some i) fs x <-> In x fs /\ if_id x = Some i).
  { intros i x. split; [exact (last_in (fun g => if_id g = Some i) fs x)|]. intros [Hx Ex]. apply in_split in Hx as (a & b & E). exists a, b. split; [exact E|]. split; [exact Ex|]. intros y Hy Ey.
    clear -N E Ex Ey Hy. rewrite E in N. rewrite flat_map_app in N. apply nodup_right in N. cbn [flat_map] in N. rewrite Ex in N. inversion N as [|? ? A _]; subst. apply A.
    apply in_flat_map. exists y. rewrite Ey. split; [exact Hy|left; reflexivity]. }
  assert (Q : Permutation (dict_values (by_id r)) (filter (fun f => NumModel.is_some (if_id f)) fs)).
  { assert (M : forall x, In x (dict_values (by_id r)) <-> In x (filter (fun f => NumModel.is_some (if_id f)) fs)).
    { intros x. rewrite filter_In. unfold dict_values. rewrite in_map_iff. split.
      - intros ([i y] & <- & H). cbn [snd]. apply (dict_get_in_nodup _ str_eqb_spec) in H; [|exact Nk]. apply S2, L in H as [A B]. rewrite B. split; [exact A|reflexivity].
      - intros [A B]. destruct (if_id x) as [i|] eqn:E; [|discriminate B]. exists (i, x). split; [reflexivity|]. apply (dict_get_in _ str_eqb_spec), S2, L. auto. }
    assert (D1 : NoDup (map if_id (dict_values (by_id r)))).
    { unfold dict_values. rewrite map_map. replace (map (fun x => if_id (snd x)) (by_id r)) with (map (fun i : str => Some i) (dict_keys (by_id r))).
      - clear -Nk. induction (dict_keys (by_id r)) as [|i l IH]; [constructor|]. inversion Nk as [|? ? A B]; subst. cbn [map]. constructor; [|apply IH, B].
        intros H. apply in_map_iff in H as (j & E & Hj). injection E as ->. contradiction.
      - unfold dict_keys. rewrite map_map. apply map_ext_in. intros [i y] Hy. cbn [fst snd]. apply (dict_get_in_nodup _ str_eqb_spec) in Hy; [|exact Nk]. apply S2, L in Hy as [_ Hy]. symmetry. exact Hy. }
    apply NoDup_Permutation; [exact (NoDup_map_inv _ _ D1)| |exact M].
    clear -N. induction fs as [|z l IH]; [constructor|]. cbn [filter flat_map] in *. destruct (if_id z) as [i|] eqn:E; cbn [NumModel.is_some]; [|exact (IH N)].
    inversion N as [|? ? A B]; subst. constructor; [|exact (IH B)]. intros H. apply filter_In in H as [H _]. apply A, in_flat_map. exists z. rewrite E. split; [exact H|left; reflexivity]. }
  eapply Permutation_trans; [apply Permutation_app_head, Q|]. clear. induction fs as [|z l IH]; [constructor|]. cbn [filter]. destruct (NumModel.is_some (if_id z)); cbn [negb].
  - apply Permutation_sym, Permutation_cons_app, Permutation_sym, IH.
  - cbn [app]. constructor. exact IH.
Qed.
