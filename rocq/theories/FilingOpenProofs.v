(** When the components of a filing, and the whole filing, can be read. *)
From Coq Require Import QArith Permutation.
From Verif Require Import Base QNameModel ErrBase ErrTable ErrModel CtxModel CtxSpec CtxProofs CtxParseProofs.
From Verif Require CtxReportSpec CtxReportProofs CtxOpenProofs ConceptModel ConceptSpec ConceptLoad ConceptOpen NetModel NetSpec LangModel LinkModel LinkSpec LinkProofs
  LinkReadSpec LinkReadProofs TableProps CompModel CompSpec CompProps.
From Verif Require CtxReportProofs.
From Verif Require Import FilingModel FilingSpec FilingProofs FilingOpenSpec.
Local Open Scope nat_scope.

(** ** Only what identifiers stand for is of importance *)

Definition sort_of (o : option LinkModel.found) : option NetModel.otype := option_map (fun f => NetModel.o_type (LinkModel.obj_of_found f)) o.
Section Agree.
Variable find find' : str -> option LinkModel.found.
Hypothesis Hsame : forall i, sort_of (find i) = sort_of (find' i).
Import NetModel LinkModel LinkSpec LinkReadSpec.

Lemma same_sort i f : find i = Some f -> exists f', find' i = Some f' /\ o_type (obj_of_found f) = o_type (obj_of_found f').
Proof. intros H. pose proof (Hsame i) as K. rewrite H in K. cbn in K. destruct (find' i) as [f'|]; [|discriminate]. exists f'. split; [reflexivity|]. injection K as K. exact K. Qed.
Lemma same_stands x around t : stands_for find x around t -> stands_for find' x around t.
Proof.
  intros [href n A B C|href n A B C|href n A B C|t' l A B C D|t' l A B C D E|t' A B C D E].
  - apply same_sort in C as ([m|m|m] & C & T); try discriminate T. eapply for_concept; eassumption.
  - apply same_sort in C as ([m|m|m] & C & T); try discriminate T. eapply for_element; eassumption.
  - apply same_sort in C as ([m|m|m] & C & T); try discriminate T. eapply for_fact; eassumption.
  - eapply for_label; eassumption.
  - eapply for_footnote; eassumption.
  - eapply for_reference; eassumption.
Qed.
Lemma same_locates x e : locates find x e -> exists e', locates find' x e'.
Proof.
  intros (href & A & [C|C]); apply same_sort in C as ([m|m|m] & C & T); try discriminate T; exists m, href; auto.
Qed.
Lemma same_names link outside s : names find link outside s -> names find' link outside s.
Proof. intros (loc & al & e & A & B & C). destruct (same_locates _ _ B) as (e' & B'). exists loc, al, e'. auto. Qed.
Lemma same_come link outside s : come_to find link outside s -> come_to find' link outside s.
Proof. induction 1 as [s A B|s t arc aa A IH B C D E]; [apply come_first; [apply same_names, A|exact B]|eapply come_next; eauto using same_names]. Qed.
Lemma same_leads link outside s t : leads_on find link outside s t -> leads_on find' link outside s t.
Proof. induction 1 as [arc aa t A B C D|arc aa t v A IH B C D E]; [eapply on_one; eauto using same_names|eapply on_more; eauto using same_names]. Qed.
Lemma same_turns link outside : turns find link outside -> turns find' link outside.
Proof. intros (s & A & B). exists s. split; [apply same_come, A|apply same_leads, B]. Qed.
Lemma same_begins link outside : begins find link outside -> begins find' link outside.
Proof. intros (s & A & B). exists s. split; [apply same_names, A|exact B]. Qed.
End Agree.

Section Agreed.
Variable find find' : str -> option LinkModel.found.
Hypothesis Hsame : forall i, sort_of (find i) = sort_of (find' i).
Import NetModel LinkModel LinkSpec LinkReadSpec.
Let Hback : forall i, sort_of (find' i) = sort_of (find i). Proof. intros i. symmetry. apply Hsame. Qed.

Lemma same_readable k link outside : readable find k link outside -> readable find' k link outside.
Proof.
  intros [A B]. split; [exact A|].
  assert (F : fits find k link outside -> fits find' k link outside).
  { intros F type x around t He Hs. eapply F; [exact He|]. revert Hs. apply same_stands, Hback. }
  destruct k; try exact (F B). destruct B as (B1 & B2 & B3 & B4). split; [|split; [exact B2|split; [exact B3|]]].
  - intros x around href n He Hh Hf. apply (same_sort find' find Hback) in Hf as ([m|m|m] & C & T); try discriminate T. exact (B1 _ _ _ _ He Hh C).
  - intros x around y around' role e e' Hx Hy Lx Ly. apply (same_locates find' find Hback) in Lx as (n & Lx). apply (same_locates find' find Hback) in Ly as (n' & Ly).
    eapply B4; eassumption.
Qed.
Lemma same_combinable l : combinable find l -> combinable find' l.
Proof.
  intros H pre link outside mid link' outside' post role k E R R' J K K' B T.
  refine (H pre link outside mid link' outside' post role k E R R' J K K' _ _); [exact (same_begins find' find Hback _ _ B)|exact (same_turns find' find Hback _ _ T)].
Qed.
End Agreed.

(** ** What the repositories find *)

Lemma points_sort els of_fact i o o' : points els of_fact i o -> points els of_fact i o' -> sort_of o = sort_of o'.
Proof.
  assert (L : forall e e', last_id els i e -> last_id els i e' -> e = e').
  { intros e e' (b & a & E & I & N) (b' & a' & E' & I' & N'). rewrite E in E'. clear E els.
    revert b' E'. induction b as [|z b IH]; intros b' E'.
    - destruct b' as [|z' b']; cbn in E'; [injection E' as E1 _; exact E1|]. injection E' as -> ->. exfalso. apply (N e'); [apply in_elt|exact I'].
    - destruct b' as [|z' b']; cbn in E'; injection E' as E1 E2; [subst|exact (IH b' E2)]. exfalso. apply (N' e); [apply in_elt|exact I]. }
  assert (M : forall e, last_id els i e -> (forall e, In e els -> e_id e <> Some i) -> False).
  { intros e (b & a & E & I & _) K. apply (K e); [rewrite E; apply in_elt|exact I]. }
  intros [e n A B|e n A B|n A B|A B] [e' n' A' B'|e' n' A' B'|n' A' B'|A' B']; cbn [sort_of option_map LinkModel.obj_of_found NetModel.o_type];
    try reflexivity; exfalso; try (rewrite (L _ _ A A') in B; contradiction); try contradiction; eapply M; eassumption.
Qed.

Lemma find_points reg fs i : NoDup (map ConceptModel.r_name reg) ->
  points (QNameModel.get_all (repository_of (ConceptLoad.stored reg))) (fun j => facts_has_id fs j = true) i (find_in (ConceptLoad.stored reg) fs i).
Proof.
  intros Hn. set (r := ConceptLoad.stored reg).
  assert (Hno : ConceptModel.rr_has_id r i = false -> forall e, In e (QNameModel.get_all (repository_of r)) -> e_id e <> Some i).
  { intros E e He Ei. destruct (last_of_id _ _ _ He Ei) as (e' & Hl). apply (element_last reg Hn) in Hl as (x & Hx & _).
    apply ConceptLoad.stored_by_id in Hx. assert (K : ConceptModel.rr_has_id r i = true) by (apply (has_id_get reg); eauto). congruence. }
  assert (Ef : ConceptModel.rr_has_id r i = false -> find_in r fs i = None -> facts_has_id fs i <> true).
  { intros Eh E K. unfold find_in in E. rewrite Eh, K in E. discriminate E. }
  destruct (find_in r fs i) as [fd|] eqn:E.
  - pose proof E as E'. apply (found_cases reg Hn) in E as [(e & Hl & ->)|(n & -> & x & Hx & Hg)].
    + destruct (e_kind e) eqn:K; first [eapply at_concept; [exact Hl|exact K]|eapply at_element; [exact Hl|rewrite K; discriminate]].
    + apply at_fact; [|unfold facts_has_id, dict_mem; rewrite Hg; reflexivity].
      apply Hno. unfold find_in in E'. destruct (ConceptModel.rr_has_id r i); [|reflexivity].
      destruct (ConceptModel.rr_get_by_id r i) as [y|]; [|discriminate]. destruct (ConceptModel.r_body y); discriminate E'.
  - assert (Eh : ConceptModel.rr_has_id r i = false).
    { destruct (ConceptModel.rr_has_id r i) eqn:Eh; [|reflexivity]. exfalso. unfold find_in in E. rewrite Eh in E.
      apply (has_id_get reg) in Eh as (x & Hx). fold r in Hx. rewrite Hx in E. destruct (ConceptModel.r_body x); discriminate E. }
    apply at_nothing; [exact (Hno Eh)|exact (Ef Eh eq_refl)].
Qed.

Lemma points_iff els (P Q : str -> Prop) i o : (P i <-> Q i) -> points els P i o -> points els Q i o.
Proof.
  intros H [e n A B|e n A B|n A B|A B]; [eapply at_concept|eapply at_element|apply at_fact|apply at_nothing]; eauto; tauto.
Qed.

Lemma folded_ids l i : forall r, facts_has_id (fold_left facts_upsert l r) i = true <-> (exists x, In x l /\ f_id x = Some i) \/ facts_has_id r i = true.
Proof.
  induction l as [|y l IH]; intros r; cbn [fold_left].
  - split; [auto|]. intros [(x & [] & _)|H]; exact H.
  - rewrite IH. assert (E : facts_has_id (facts_upsert r y) i = true <-> f_id y = Some i \/ facts_has_id r i = true).
    { unfold facts_upsert, facts_has_id, dict_mem. destruct (f_id y) as [j|]; cbn [fr_by_id]; [|split; [auto|intros [K|K]; [discriminate K|exact K]]].
      destruct (str_eqb_spec j i) as [->|Hne]; [rewrite (dict_get_set_same _ str_eqb_spec); tauto|].
      rewrite (dict_get_set_other _ str_eqb_spec) by congruence. split; [auto|]. intros [K|K]; [|exact K]. injection K as K. contradiction. }
    rewrite E. split.
    + intros [(x & Hx & Ex)|[Ex|H]]; [left; exists x; split; [right|]; assumption|left; exists y; split; [left; reflexivity|exact Ex]|auto].
    + intros [(x & [<-|Hx] & Ex)|H]; [auto|left; eauto|auto].
Qed.

Lemma links_fine_iff docs reg fs (P : str -> Prop) : NoDup (map ConceptModel.r_name reg) -> (forall i, facts_has_id fs i = true <-> P i) ->
  (forall link outside k, LinkSpec.extended_link docs link outside -> LinkSpec.xl "role" link <> None -> LinkSpec.link_kind link k ->
     LinkReadSpec.readable (find_in (ConceptLoad.stored reg) fs) k link outside) /\
  (forall l, LinkReadSpec.links_as_read docs l -> LinkReadSpec.combinable (find_in (ConceptLoad.stored reg) fs) l) <->
  links_fine docs (QNameModel.get_all (repository_of (ConceptLoad.stored reg))) P.
Proof.
  intros Hn HP. assert (Q : forall i, points (QNameModel.get_all (repository_of (ConceptLoad.stored reg))) P i (find_in (ConceptLoad.stored reg) fs i)).
  { intros i. apply (points_iff _ (fun j => facts_has_id fs j = true) P i _ (HP i)). apply find_points, Hn. }
  split; [|intros H; exact (H _ Q)]. intros [A B] find Hf.
  assert (S : forall i, sort_of (find_in (ConceptLoad.stored reg) fs i) = sort_of (find i)) by (intros i; eapply points_sort; [apply Q|apply Hf]).
  split; [intros link outside k H1 H2 H3; eapply same_readable; [exact S|auto]|intros l Hl; eapply same_combinable; [exact S|auto]].
Qed.

Lemma outcome_ids parse_date rep docs os i : Forall2 (CtxReportProofs.fact_outcome parse_date rep docs) (all_fact_elements docs) os ->
  facts_has_id (fold_left facts_upsert (somes (map fst os)) empty_facts) i = true <-> fact_with_id rep docs i.
Proof.
  intros H. rewrite folded_ids. unfold fact_with_id. revert H. generalize (all_fact_elements docs). intros l H.
  assert (G : (exists x, In x (somes (map fst os)) /\ f_id x = Some i) <-> exists d x, In (d, x) l /\ CtxReportSpec.has_fact rep d x = true /\ attr x (u "id") = Some i).
  { induction H as [|[d x] [y er] l os [H1 H2] _ IH]; cbn [map fst somes].
    - split; [intros (x & [] & _)|intros (d & x & [] & _)].
    - cbn [fst snd] in H1, H2. unfold outcome_of in H1. cbn [fst snd] in H1. destruct y as [y|].
      + assert (Ey : f_id y = attr x (u "id")) by (destruct H1 as (cid & xc & e & us & _ & _ & _ & _ & _ & _ & K & _); exact K). cbn in H2. split.
        * intros (z & [<-|Hz] & Ez); [exists d, x; split; [left; reflexivity|split; congruence]|].
          destruct (proj1 IH (ex_intro _ z (conj Hz Ez))) as (d' & x' & K1 & K2). exists d', x'. split; [right; exact K1|exact K2].
        * intros (d' & x' & [[= <- <-]|Hz] & K1 & K2); [exists y; split; [left; reflexivity|congruence]|].
          destruct (proj2 IH (ex_intro _ d' (ex_intro _ x' (conj Hz (conj K1 K2))))) as (z & J1 & J2). exists z. split; [right; exact J1|exact J2].
      + cbn in H2. rewrite IH. split; intros (d' & x' & Hz & K1 & K2); [exists d', x'; split; [right; exact Hz|auto]|].
        destruct Hz as [[= <- <-]|Hz]; [congruence|]. exists d', x'. auto. }
  rewrite G. split; [intros [K|K]; [exact K|discriminate K]|auto].
Qed.

(** ** Components *)

Lemma role_types_iff ops l : forall st,
  (exists r, CompModel.parse_role_types (CompModel.networks_after ops) l st = Ok r) <-> (forall x, In x l -> announces x).
Proof.
  induction l as [|x l IH]; intros st; cbn [CompModel.parse_role_types].
  - split; [intros _ y []|eauto].
  - pose proof (CompProps.C49_readable ops x (snd st)) as C. destruct (CompModel.parse_component _ x (snd st)) as [c|e]; cbn [bind].
    + rewrite IH. split; [intros H y [<-|Hy]; [exact C|auto]|intros H y Hy; apply H; right; exact Hy].
    + split; [intros (r & H); discriminate H|]. intros H. exfalso. destruct (H x (or_introl eq_refl)) as [A (uri & B)].
      destruct e; try exact C; [exact (A C)|destruct C as [_ C]; exact (C uri B)].
Qed.

Lemma components_iff ops docs es :
  (exists r, CompModel.parse_components (CompModel.networks_after ops) docs es = Ok r) <-> (forall x, In x (flat_map CompModel.role_types docs) -> announces x).
Proof. apply role_types_iff. Qed.
