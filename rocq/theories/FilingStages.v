(** What follows from the way in which a filing is put together (C89, C91-C96), whatever its facts are. *)
From Coq Require Import QArith Permutation.
From Verif Require Import Base QNameModel QNameSpec QNameProofs ErrBase ErrTable ErrModel CtxModel.
From Verif Require QNameProps ConceptModel ConceptSpec ConceptProofs ConceptLoad ConceptProps NetModel NetSpec LangModel LinkModel LinkSpec LinkProofs
  LinkNetProofs LinkDocProofs LinkProps LinkFrame CompModel CompSpec CompProofs CompProps.
From Verif Require Import FilingModel FilingSpec FilingProofs.
From Verif Require FilingNetProofs.
Local Open Scope nat_scope.
Local Opaque insert create.

(** Networks that are not those of links *)
Definition is_note (n : nat) (x : CompModel.network) : Prop :=
  (exists name, CompModel.n_class x = CompModel.NOther name) /\ n <= CompModel.n_object x.
Lemma note_class n x c role : is_note n x -> (forall name, c <> CompModel.NOther name) -> ~ CompSpec.of_class c role x.
Proof. intros [[name E] _] Hc [H _]. rewrite E in H. exact (Hc name (eq_sym H)). Qed.

Lemma forall2_weaken {A B} (P Q : A -> B -> Prop) l l' : (forall x y, P x y -> Q x y) -> Forall2 P l l' -> Forall2 Q l l'.
Proof. intros H. induction 1; constructor; auto. Qed.
Lemma skip_first {A} (P : A -> Prop) a l n : (forall x, In x a -> ~ P x) -> CompSpec.first_such P (a ++ l) n -> CompSpec.first_such P l n.
Proof.
  intros Ha. induction a as [|x a IH]; [auto|]. intros H. apply IH; [intros; apply Ha; right; assumption|]. destruct n as [n|]; cbn in *.
  - destruct H as ([|y l1] & l2 & E & Hp & Hf).
    + injection E as <- E. destruct (Ha x (or_introl eq_refl) Hp).
    + injection E as <- E. exists l1, l2. inversion Hf; auto.
  - inversion H; auto.
Qed.
Lemma skip_twice {A} (P : A -> Prop) a l : (forall x, In x a -> ~ P x) -> CompSpec.twice P (a ++ l) -> CompSpec.twice P l.
Proof.
  intros Ha. induction a as [|x a IH]; [auto|]. intros ([|y l1] & p & l2 & q & l3 & E & Hp & Hq); (apply IH; [intros; apply Ha; right; assumption|]).
  - injection E as <- _. destruct (Ha x (or_introl eq_refl) Hp).
  - injection E as <- E. exists l1, p, l2, q, l3. auto.
Qed.
Lemma add_twice {A} (P : A -> Prop) a l : CompSpec.twice P l -> CompSpec.twice P (a ++ l).
Proof. intros (l1 & p & l2 & q & l3 & -> & H). exists (a ++ l1), p, l2, q, l3. rewrite app_assoc. auto. Qed.

Section Notes.
Variable notes ns : list CompModel.network.
Variable n : nat.
Hypothesis Hnotes : Forall (is_note n) notes.
Lemma no_note c role x : (forall name, c <> CompModel.NOther name) -> In x notes -> ~ CompSpec.of_class c role x.
Proof. intros Hc Hx. rewrite Forall_forall in Hnotes. eapply note_class; [apply Hnotes, Hx|exact Hc]. Qed.
Lemma no_note_definition role x : In x notes -> ~ CompSpec.logical_definition role x.
Proof. intros Hx [H _]. revert H. apply no_note; [discriminate|exact Hx]. Qed.
Lemma skip_notes x c : CompSpec.declares (notes ++ ns) x c -> CompSpec.declares ns x c.
Proof.
  intros (H1 & H2 & H3 & H4 & H5). split; [exact H1|]. split; [exact H2|].
  split; [|split]; (eapply skip_first; [|eassumption]); intros y Hy; first [apply no_note_definition, Hy|apply no_note; [discriminate|exact Hy]].
Qed.
Lemma warned_notes x role code : CompSpec.warned (notes ++ ns) x role code <-> CompSpec.warned ns x role code.
Proof.
  assert (G : forall c, (forall name, c <> CompModel.NOther name) -> (exists y, In y (notes ++ ns) /\ CompSpec.of_class c role y) -> exists y, In y ns /\ CompSpec.of_class c role y).
  { intros c Hc (y & Hy & H). apply in_app_iff in Hy as [Hy|Hy]; [destruct (no_note c role y Hc Hy H)|eauto]. }
  assert (G' : forall P : CompModel.network -> Prop, (exists y, In y ns /\ P y) -> exists y, In y (notes ++ ns) /\ P y).
  { intros P (y & Hy & H). exists y. split; [apply in_or_app; right; exact Hy|exact H]. }
  split; intros [H U|H U|H U|H|H|H].
  - constructor 1; [apply G; [discriminate|exact H]|exact U].
  - constructor 2; [apply G; [discriminate|exact H]|exact U].
  - constructor 3; [apply G; [discriminate|exact H]|exact U].
  - constructor 4. eapply skip_twice; [|exact H]. intros y. apply no_note. discriminate.
  - constructor 5. eapply skip_twice; [|exact H]. intros y. apply no_note. discriminate.
  - constructor 6. eapply skip_twice; [|exact H]. intros y. apply no_note_definition.
  - constructor 1; [apply G', H|exact U].
  - constructor 2; [apply G', H|exact U].
  - constructor 3; [apply G', H|exact U].
  - constructor 4. apply add_twice, H.
  - constructor 5. apply add_twice, H.
  - constructor 6. apply add_twice, H.
Qed.
End Notes.

Lemma upserts_perm l : Permutation (concat (map snd (CompModel.networks_after (map CompModel.OpUpsert l)))) l.
Proof.
  unfold CompModel.networks_after. induction l as [|n l IH] using rev_ind; [constructor|].
  rewrite map_app, fold_left_app. cbn [map fold_left CompModel.nstep].
  etransitivity; [apply upsert_network_perm, (CompProofs.networks_after_ok (map CompModel.OpUpsert l))|].
  apply Permutation_app_tail, IH.
Qed.

Section Filing.
Variable element_str : xml -> str.
Variable number : str -> Q.

(** The filing is put together from the documents: with [es1] the errors after the declarations, [es2]
    those before the links, [notes] networks that were there before those of the links, and [extra]
    bindings of prefixes. *)
Record assembled (trees : list (str * xml)) (es es1 es2 : repo xml) (notes : list CompModel.network) (extra : list scope) (f : filing) : Prop := {
  as_elements : exists reg, NoDup (map ConceptModel.r_name reg) /\ fl_elements f = ConceptLoad.stored reg;
  as_declared : ConceptModel.parse_report_elements trees (ConceptModel.empty_rrepo, es) = Ok (fl_elements f, es1);
  as_own : by_own_id (fl_facts f);
  as_links : exists eo ro fu sh, LinkSpec.orders eo ro /\ NetSpec.some_order sh /\
    LinkModel.parse_networks element_str number (find_in (fl_elements f) (fl_facts f)) eo ro fu sh (dict_values trees) es2 = Ok (fl_nets f, fl_links f);
  as_notes : Forall (is_note (length (fl_nets f))) notes;
  as_stored : fl_networks f = CompModel.networks_after (map CompModel.OpUpsert (notes ++ networks_of (fl_nets f)));
  as_components : CompModel.parse_components (fl_networks f) (dict_values trees) (LinkModel.ls_errors (fl_links f)) = Ok (fl_components f, fl_errors f);
  as_namespaces : fl_namespaces f = create_nsmap (extra ++ flat_map (fun d => x_scope d :: map x_scope (descendants d)) (dict_values trees)) }.

Section Read.
Variable trees : list (str * xml).
Variables es es1 es2 : repo xml.
Variable notes : list CompModel.network.
Variable extra : list scope.
Variable f : filing.
Hypothesis Has : assembled trees es es1 es2 notes extra f.
Let docs := dict_values trees.

Lemma f_elements : exists reg, NoDup (map ConceptModel.r_name reg) /\ fl_elements f = ConceptLoad.stored reg.
Proof. exact (as_elements _ _ _ _ _ _ _ Has). Qed.

Lemma is_dimension_kind e : is_dimension e = true <-> e_kind e = KDimension.
Proof. unfold is_dimension. destruct (e_kind e); split; congruence. Qed.

Lemma is_member_kind e : is_member e = true <-> e_kind e = KMember.
Proof. unfold is_member. destruct (e_kind e); split; congruence. Qed.

Lemma is_concept_kind e : is_concept e = true <-> e_kind e = KConcept.
Proof. unfold is_concept. destruct (e_kind e); split; congruence. Qed.

Lemma accepts_belongs k t : NetModel.accepts k t = None -> belongs k t.
Proof. destruct k, t; cbn; intuition congruence. Qed.

Theorem nodes w r n : In w (fl_nets f) -> In r (LinkModel.w_roots w) -> NetSpec.reach (LinkModel.ls_heap (fl_links f)) r n ->
  exists x, nth_error (LinkModel.ls_heap (fl_links f)) n = Some x /\
    has_object f (NetModel.n_obj x) /\ belongs (LinkModel.w_kind w) (NetModel.o_type (NetModel.n_obj x)).
Proof.
  intros Hw Hr Hn. destruct (as_links _ _ _ _ _ _ _ Has) as (eo & ro & fu & sh & Ho & Hs & H). destruct f_elements as (reg & Hd & Er).
  rewrite Er in H.
  destruct (FilingNetProofs.filing_nodes _ _ _ _ _ Ho _ _ Hs _ _ _ _ H) as [G _]. destruct (G w r n Hw Hr Hn) as (o & Eo & Hl & Ha).
  unfold FilingNetProofs.object_of in Eo. destruct (nth_error (LinkModel.ls_heap (fl_links f)) n) as [x|]; [|discriminate]. injection Eo as <-.
  exists x. split; [reflexivity|]. split; [|apply accepts_belongs, Ha].
  unfold has_object, get_all_report_elements, get_all_facts. rewrite Er. unfold FilingNetProofs.from_lookup in Hl.
  assert (L : NetModel.is_element (NetModel.o_type (NetModel.n_obj x)) || match NetModel.o_type (NetModel.n_obj x) with NetModel.OFact => true | _ => false end = true ->
    exists i fd, find_in (ConceptLoad.stored reg) (fl_facts f) i = Some fd /\ NetModel.n_obj x = LinkModel.obj_of_found fd) by exact Hl. clear Hl.
  assert (G' : forall i fd, find_in (ConceptLoad.stored reg) (fl_facts f) i = Some fd -> has_object f (LinkModel.obj_of_found fd)).
  { intros i fd Hf. unfold has_object, get_all_report_elements, get_all_facts. rewrite Er.
    apply (found_cases reg Hd) in Hf as [(e & He & ->)|(m & -> & y & Hy & _)]; [|exists y; exact Hy].
    assert (Hin : In e (QNameModel.get_all (repository_of (ConceptLoad.stored reg))))
      by (destruct He as (b & a & -> & _); apply in_or_app; right; left; reflexivity).
    apply In_nth_error in Hin as (j & Hj). pose proof (all_tag reg Hd _ _ Hj) as Ej.
    destruct (e_kind e) eqn:Ek; cbn; exists e; (split; [rewrite Ej; exact Hj|congruence]). }
  unfold has_object, get_all_report_elements, get_all_facts in G'. rewrite Er in G'.
  destruct (NetModel.o_type (NetModel.n_obj x)) eqn:Et; try exact I; destruct (L eq_refl) as (i & fd & Hf & E); specialize (G' i fd Hf);
    rewrite <- E, Et in G'; exact G'.
Qed.

Lemma f_components : Permutation (get_all_networks f) (notes ++ networks_of (fl_nets f)) /\
  NoDup (map (fun w => (LinkModel.w_kind w, LinkModel.w_role w)) (filter LinkNetProofs.logical (fl_nets f))) /\
  Forall2 (CompSpec.declares (networks_of (fl_nets f))) (flat_map CompModel.role_types docs) (fl_components f) /\
  exists l, fl_errors f = LinkModel.ls_errors (fl_links f) ++ l /\
     forall e, In e l -> exists x code role, In x (flat_map CompModel.role_types docs) /\
       attr x (u "roleURI") = Some role /\
       CompSpec.warned (networks_of (fl_nets f)) x role code /\ create code (Some x) [(u "linkrole_uri", role)] = Ok e.
Proof.
  destruct (as_links _ _ _ _ _ _ _ Has) as (eo & ro & fu & sh & Ho & Hs & H). pose proof (as_components _ _ _ _ _ _ _ Has) as Hc. pose proof (as_stored _ _ _ _ _ _ _ Has) as En.
  pose proof (as_notes _ _ _ _ _ _ _ Has) as Hno.
  destruct (FilingNetProofs.filing_nodes _ _ _ _ _ Ho _ _ Hs _ _ _ _ H) as [_ G]. rewrite En in Hc.
  destruct (CompProps.C49_components _ _ _ _ _ Hc) as (H1 & _ & l & El & H2). rewrite stored_upserts in H1, H2.
  split; [unfold get_all_networks; rewrite En; apply upserts_perm|]. split; [exact G|]. split.
  - eapply forall2_weaken; [|exact H1]. intros x c. apply (skip_notes _ _ _ Hno).
  - exists l. split; [exact El|]. intros e He. destruct (H2 e He) as (x & code & role & Hx & Hr & Hw & He'). exists x, code, role. repeat (split; [assumption|]).
    split; [apply (warned_notes _ _ _ Hno), Hw|exact He'].
Qed.
Lemma f_stored : incl (networks_of (fl_nets f)) (get_all_networks f).
Proof. destruct f_components as (H & _). intros n Hn. eapply Permutation_in; [apply Permutation_sym, H|]. apply in_or_app. right. exact Hn. Qed.

Theorem components c : In c (get_all_components f) ->
  the_network f NetModel.KPresentation (CompModel.get_URI c) (CompModel.get_presentation_network c) /\
  the_network f NetModel.KCalculation (CompModel.get_URI c) (CompModel.get_calculation_network c) /\
  the_network f NetModel.KLogicalDefinition (CompModel.get_URI c) (CompModel.get_definition_network c).
Proof.
  destruct f_components as (_ & Ho & Hfc & _). pose proof f_stored as Hp. intros Hc.
  assert (Hx : exists x, CompSpec.declares (networks_of (fl_nets f)) x c).
  { unfold get_all_components in Hc. clear -Hfc Hc. induction Hfc as [|x c' l l' H H' IH]; [destruct Hc|]. destruct Hc as [->|Hc]; [eauto|exact (IH Hc)]. }
  destruct Hx as (x & _ & _ & H1 & H2 & H3). split; [|split].
  - eapply first_is_the; [exact Hp|exact Ho|reflexivity| |exact H1]. intros i w. apply class_presentation.
  - eapply first_is_the; [exact Hp|exact Ho|reflexivity| |exact H2]. intros i w. apply class_calculation.
  - eapply first_is_the; [exact Hp|exact Ho|reflexivity| |exact H3]. intros i w. apply class_definition.
Qed.

Theorem warnings : exists l, fl_errors f = LinkModel.ls_errors (fl_links f) ++ l /\
  forall e, In e l -> exists x role code, In x (flat_map CompModel.role_types docs) /\ attr x (u "roleURI") = Some role /\
    create code (Some x) [(u "linkrole_uri", role)] = Ok e /\
    ((code = "PRESENTATION_NETWORK_IN_COMPONENT_WITHOUT_USEDON_ELEMENT"%string /\ ~ CompSpec.used_on x "link:presentationLink" /\
        exists w, of_kind f NetModel.KPresentation role w) \/
     (code = "CALCULATION_NETWORK_IN_COMPONENT_WITHOUT_USEDON_ELEMENT"%string /\ ~ CompSpec.used_on x "link:calculationLink" /\
        exists w, of_kind f NetModel.KCalculation role w) \/
     (code = "DEFINITION_NETWORK_IN_COMPONENT_WITHOUT_USEDON_ELEMENT"%string /\ ~ CompSpec.used_on x "link:definitionLink" /\
        exists w, of_kind f NetModel.KPhysicalDefinition role w \/ of_kind f NetModel.KLogicalDefinition role w)).
Proof.
  destruct f_components as (Hp & Ho & _ & l & El & Hl). exists l. split; [exact El|]. intros e He.
  destruct (Hl e He) as (x & code & role & Hx & Hr & Hw & Hc). exists x, role, code. repeat (split; [assumption|]).
  destruct Hw as [(n & Hn & Hcl) Hu|(n & Hn & Hcl) Hu|(n & Hn & Hcl) Hu|Ht|Ht|Ht].
  - left. apply networks_of_nth in Hn as (w & Hw & En). rewrite En in Hcl. apply class_presentation in Hcl as [K R].
    split; [reflexivity|]. split; [exact Hu|]. exists w. split; [eapply nth_error_In, Hw|auto].
  - right; left. apply networks_of_nth in Hn as (w & Hw & En). rewrite En in Hcl. apply class_calculation in Hcl as [K R].
    split; [reflexivity|]. split; [exact Hu|]. exists w. split; [eapply nth_error_In, Hw|auto].
  - right; right. apply networks_of_nth in Hn as (w & Hw & En). rewrite En in Hcl. apply class_any_definition in Hcl as [K R].
    split; [reflexivity|]. split; [exact Hu|]. exists w. assert (Hw' : In w (fl_nets f)) by (eapply nth_error_In, Hw). unfold of_kind. intuition auto.
  - exfalso. revert Ht. eapply (never_twice) with (k := NetModel.KPresentation); [exact Ho|reflexivity|]. intros i w. apply class_presentation.
  - exfalso. revert Ht. eapply (never_twice) with (k := NetModel.KCalculation); [exact Ho|reflexivity|]. intros i w. apply class_calculation.
  - exfalso. revert Ht. eapply (never_twice) with (k := NetModel.KLogicalDefinition); [exact Ho|reflexivity|]. intros i w. apply class_definition.
Qed.

(** Locators lead to report elements by id. *)
Lemma all_numbers i e : nth_error (get_all_report_elements f) i = Some e -> e_tag e = i.
Proof. destruct f_elements as (reg & Hn & Er). unfold get_all_report_elements. rewrite Er. apply (all_tag reg Hn). Qed.
Lemma leads_locates loc e : In e (get_all_report_elements f) ->
  (LinkSpec.locates (find_in (fl_elements f) (fl_facts f)) loc (e_tag e) <-> leads_to (get_all_report_elements f) loc e).
Proof.
  intros He. destruct f_elements as (reg & Hn & Er). pose proof all_numbers as N. unfold LinkSpec.locates, leads_to.
  unfold get_all_report_elements in *. rewrite Er in *. split.
  - intros (href & Eh & Hl). exists href. split; [exact Eh|].
    assert (Hf : exists e', last_id (QNameModel.get_all (repository_of (ConceptLoad.stored reg))) (LinkSpec.fragment href) e' /\ e_tag e' = e_tag e).
    { destruct Hl as [Hl|Hl]; apply (found_cases reg Hn) in Hl as [(e' & H' & E)|(m & E & _)]; try discriminate E; exists e'; (split; [exact H'|]);
        destruct (e_kind e'); congruence. }
    destruct Hf as (e' & H' & Et). assert (e' = e); [|subst; exact H'].
    assert (He' : In e' (QNameModel.get_all (repository_of (ConceptLoad.stored reg)))) by (destruct H' as (x & y & -> & _); apply in_or_app; right; left; reflexivity).
    apply In_nth_error in He as (i & Hi). apply In_nth_error in He' as (j & Hj). pose proof (N _ _ Hi). pose proof (N _ _ Hj). assert (i = j) by congruence. congruence.
  - intros (href & Eh & Hl). exists href. split; [exact Eh|]. rewrite (find_element reg Hn _ _ _ Hl). destruct (e_kind e); auto.
Qed.
Lemma locates_leads loc n : LinkSpec.locates (find_in (fl_elements f) (fl_facts f)) loc n ->
  exists e, In e (get_all_report_elements f) /\ e_tag e = n /\ leads_to (get_all_report_elements f) loc e.
Proof.
  intros (href & Eh & Hl). destruct f_elements as (reg & Hn & Er). unfold leads_to, get_all_report_elements. rewrite Er in *.
  assert (Hf : exists e', last_id (QNameModel.get_all (repository_of (ConceptLoad.stored reg))) (LinkSpec.fragment href) e' /\ e_tag e' = n).
  { destruct Hl as [Hl|Hl]; apply (found_cases reg Hn) in Hl as [(e' & H' & E)|(m & E & _)]; try discriminate E; exists e'; (split; [exact H'|]);
      destruct (e_kind e'); congruence. }
  destruct Hf as (e & H & E). exists e. split; [destruct H as (x & y & -> & _); apply in_or_app; right; left; reflexivity|]. split; [exact E|]. exists href. auto.
Qed.

Lemma f_networks : exists eo ro fu sh es1, LinkSpec.orders eo ro /\ NetSpec.some_order sh /\
  LinkModel.parse_networks element_str number (find_in (fl_elements f) (fl_facts f)) eo ro fu sh docs es1 = Ok (fl_nets f, fl_links f).
Proof. destruct (as_links _ _ _ _ _ _ _ Has) as (eo & ro & fu & sh & H). exists eo, ro, fu, sh, es2. exact H. Qed.

Lemma in_network_shows w e : In e (get_all_report_elements f) ->
  (in_network f w e <-> NetSpec.shows (LinkModel.ls_heap (fl_links f)) (LinkModel.w_roots w) (e_tag e)).
Proof.
  intros He. apply In_nth_error in He as (i & Hi). pose proof (all_numbers _ _ Hi) as Ei. unfold in_network, NetSpec.shows, NetSpec.object. split.
  - intros (r & n & x & Hr & Hn & Hx & Hk). exists r, n. rewrite Hx. cbn [option_map]. apply all_numbers in Hk. split; [exact Hr|]. split; [exact Hn|]. congruence.
  - intros (r & n & Hr & Hn & Hk). destruct (nth_error (LinkModel.ls_heap (fl_links f)) n) as [x|] eqn:Hx; [|discriminate]. cbn [option_map] in Hk. injection Hk as Hk.
    exists r, n, x. split; [exact Hr|]. split; [exact Hn|]. split; [exact Hx|]. rewrite Hk, Ei. exact Hi.
Qed.
Lemma below_in_relates w e e' : In e (get_all_report_elements f) -> In e' (get_all_report_elements f) ->
  (below_in f w e e' <-> NetSpec.relates (LinkModel.ls_heap (fl_links f)) (LinkModel.w_roots w) (e_tag e) (e_tag e')).
Proof.
  intros He He'. apply In_nth_error in He as (i & Hi). pose proof (all_numbers _ _ Hi) as Ei. apply In_nth_error in He' as (j & Hj). pose proof (all_numbers _ _ Hj) as Ej.
  unfold below_in, NetSpec.relates, NetSpec.object. split.
  - intros (r & n & x & m & y & Hr & Hn & Hm & Hx & Kx & Hy & Ky). exists r, n, m. rewrite Hx, Hy. cbn [option_map]. apply all_numbers in Kx. apply all_numbers in Ky.
    repeat (split; [first [assumption|congruence]|]). congruence.
  - intros (r & n & m & Hr & Hn & Hm & Kx & Ky).
    destruct (nth_error (LinkModel.ls_heap (fl_links f)) n) as [x|] eqn:Hx; [|discriminate]. cbn [option_map] in Kx. injection Kx as Kx.
    destruct (nth_error (LinkModel.ls_heap (fl_links f)) m) as [y|] eqn:Hy; [|discriminate]. cbn [option_map] in Ky. injection Ky as Ky.
    exists r, n, x, m, y. repeat (split; [assumption|]). rewrite Kx, Ei. split; [exact Hi|]. split; [exact Hy|]. rewrite Ky, Ej. exact Hj.
Qed.

Section Usual.
Hypothesis Husual : LinkSpec.all_usual docs.

(** A report element is in a network, or below another, only if a link of the role and kind says so. *)
Theorem shown_written k role w e : NetModel.is_physical k = false -> of_kind f k role w -> in_network f w e ->
  exists link outside, LinkSpec.extended_link docs link outside /\ LinkSpec.xl "role" link = Some role /\ LinkSpec.link_kind link k /\
    mentioned (get_all_report_elements f) link outside e.
Proof.
  intros Hk (Hw & Ek & Er) Hs. assert (He : In e (get_all_report_elements f)) by (destruct Hs as (? & ? & ? & _ & _ & _ & H); eapply nth_error_In, H).
  apply in_network_shows in Hs; [|exact He]. destruct f_networks as (eo & ro & fu & sh & es3 & Ho & Hsh & H).
  destruct (LinkProps.C76_shown_written _ _ _ _ _ Ho _ _ Hsh _ Husual _ _ _ H role k (e_tag e) Hk) as (link & outside & H1 & H2 & H3 & loc & al & H4 & H5).
  { exists w. auto. }
  exists link, outside. repeat (split; [assumption|]). exists loc, al. split; [exact H4|]. apply leads_locates; assumption.
Qed.
Theorem below_written k role w e e' : NetModel.is_physical k = false -> of_kind f k role w -> below_in f w e e' ->
  exists link outside, LinkSpec.extended_link docs link outside /\ LinkSpec.xl "role" link = Some role /\ LinkSpec.link_kind link k /\
    put_below (get_all_report_elements f) link outside e e'.
Proof.
  intros Hk (Hw & Ek & Er) Hs. assert (He : In e (get_all_report_elements f) /\ In e' (get_all_report_elements f))
    by (destruct Hs as (? & ? & ? & ? & ? & _ & _ & _ & _ & H & _ & H'); split; eapply nth_error_In; eassumption). destruct He as [He He'].
  apply below_in_relates in Hs; [|assumption|assumption]. destruct f_networks as (eo & ro & fu & sh & es3 & Ho & Hsh & H).
  destruct (LinkProps.C76_children_written _ _ _ _ _ Ho _ _ Hsh _ Husual _ _ _ H role k (e_tag e) (e_tag e') Hk)
    as (link & outside & H1 & H2 & H3 & arc & aa & from & af & to & at' & A1 & A2 & A3 & A4 & A5 & A6 & A7).
  { exists w. auto. }
  exists link, outside. repeat (split; [assumption|]). exists arc, aa, from, af, to, at'. repeat (split; [assumption|]). split; apply leads_locates; assumption.
Qed.

Lemma all_anchored_anchored link outside : all_anchored (get_all_report_elements f) link outside ->
  LinkSpec.anchored (find_in (fl_elements f) (fl_facts f)) link outside.
Proof.
  intros H arc aa Ha. destruct (H arc aa Ha) as (loc & al & e & Hl & Hd & E). exists loc, al, (e_tag e). split; [exact Hl|]. split; [|exact E].
  apply leads_locates; [|exact Hd]. destruct Hd as (href & _ & b & a & -> & _). apply in_or_app. right. left. reflexivity.
Qed.
Lemma leads_in loc e : leads_to (get_all_report_elements f) loc e -> In e (get_all_report_elements f).
Proof. intros (href & _ & b & a & -> & _). apply in_or_app. right. left. reflexivity. Qed.

(** What links without cycles say is in the network of their role and kind. *)
Theorem shown_kept_partial k role link outside e : NetModel.is_physical k = false -> LinkSpec.extended_link docs link outside ->
  LinkSpec.xl "role" link = Some role -> LinkSpec.link_kind link k -> LinkSpec.no_cycle link outside -> all_anchored (get_all_report_elements f) link outside ->
  mentioned (get_all_report_elements f) link outside e -> exists w, of_kind f k role w /\ in_network f w e.
Proof.
  intros Hk Hx Hr Hkd Hc Ha (loc & al & Hl & Hd). destruct f_networks as (eo & ro & fu & sh & es3 & Ho & Hsh & H). pose proof (leads_in _ _ Hd) as He.
  destruct (LinkProps.C76_shown_kept_partial _ _ _ _ _ Ho _ _ Hsh _ Husual _ _ _ H role k (e_tag e) link outside Hk Hx Hr Hkd Hc (all_anchored_anchored _ _ Ha)) as (w & H1 & H2 & H3 & H4).
  { exists loc, al. split; [exact Hl|]. apply leads_locates; assumption. }
  exists w. split; [split; auto|]. apply in_network_shows; assumption.
Qed.
Theorem below_kept_partial k role link outside e e' : NetModel.is_physical k = false -> LinkSpec.extended_link docs link outside ->
  LinkSpec.xl "role" link = Some role -> LinkSpec.link_kind link k -> LinkSpec.no_cycle link outside -> all_anchored (get_all_report_elements f) link outside ->
  put_below (get_all_report_elements f) link outside e e' -> exists w, of_kind f k role w /\ below_in f w e e'.
Proof.
  intros Hk Hx Hr Hkd Hc Ha (arc & aa & from & af & to & at' & A1 & A2 & A3 & A4 & A5 & A6 & A7).
  destruct f_networks as (eo & ro & fu & sh & es3 & Ho & Hsh & H). pose proof (leads_in _ _ A6) as He. pose proof (leads_in _ _ A7) as He'.
  destruct (LinkProps.C76_children_kept_partial _ _ _ _ _ Ho _ _ Hsh _ Husual _ _ _ H role k (e_tag e) (e_tag e') link outside Hk Hx Hr Hkd Hc (all_anchored_anchored _ _ Ha)) as (w & H1 & H2 & H3 & H4).
  { exists arc, aa, from, af, to, at'. repeat (split; [assumption|]). split; apply leads_locates; assumption. }
  exists w. split; [split; auto|]. apply below_in_relates; assumption.
Qed.

(** Exactly what is in the networks, whatever the links are like. *)
Lemma named_names link outside s : named (get_all_report_elements f) link outside s <-> LinkSpec.names (find_in (fl_elements f) (fl_facts f)) link outside s.
Proof.
  split.
  - intros (loc & al & e & Hl & Hd & E). exists loc, al, (e_tag e). split; [exact Hl|]. split; [apply leads_locates; [eapply leads_in, Hd|exact Hd]|exact E].
  - intros (loc & al & n & Hl & Hd & E). apply locates_leads in Hd as (e & _ & _ & Hd). exists loc, al, e. auto.
Qed.
Lemma arrives_come link outside s : arrives (get_all_report_elements f) link outside s <-> LinkSpec.come_to (find_in (fl_elements f) (fl_facts f)) link outside s.
Proof.
  split; (induction 1 as [s Hn Ht|s t arc aa _ IH Ha Ef Et Hn]; [econstructor 1|econstructor 2]); try eassumption; apply named_names, Hn.
Qed.
Theorem shown k role e : NetModel.is_physical k = false ->
  ((exists w, of_kind f k role w /\ in_network f w e) <->
   exists link outside, LinkSpec.extended_link docs link outside /\ LinkSpec.xl "role" link = Some role /\ LinkSpec.link_kind link k /\
     mentioned_there (get_all_report_elements f) link outside e).
Proof.
  intros Hk. destruct f_networks as (eo & ro & fu & sh & es3 & Ho & Hsh & H).
  pose proof (LinkProps.C76_shown _ _ _ _ _ Ho _ _ Hsh _ Husual _ _ _ H role k (e_tag e) Hk) as [G1 G2]. split.
  - intros (w & (Hw & Ek & Er) & Hs). assert (He : In e (get_all_report_elements f)) by (destruct Hs as (? & ? & ? & _ & _ & _ & X); eapply nth_error_In, X).
    apply in_network_shows in Hs; [|exact He]. destruct G1 as (link & outside & H1 & H2 & H3 & loc & al & s & A1 & A2 & A3 & A4); [exists w; auto|].
    exists link, outside. repeat (split; [assumption|]). exists loc, al, s. split; [exact A1|]. split; [apply leads_locates; assumption|]. split; [exact A3|]. apply arrives_come, A4.
  - intros (link & outside & H1 & H2 & H3 & loc & al & s & A1 & A2 & A3 & A4). pose proof (leads_in _ _ A2) as He.
    destruct G2 as (w & Hw & Ek & Er & Hs).
    { exists link, outside. repeat (split; [assumption|]). exists loc, al, s. split; [exact A1|]. split; [apply leads_locates; assumption|]. split; [exact A3|]. apply arrives_come, A4. }
    exists w. split; [split; auto|]. apply in_network_shows; assumption.
Qed.
Theorem below k role e e' : NetModel.is_physical k = false ->
  ((exists w, of_kind f k role w /\ below_in f w e e') <->
   exists link outside, LinkSpec.extended_link docs link outside /\ LinkSpec.xl "role" link = Some role /\ LinkSpec.link_kind link k /\
     put_below_there (get_all_report_elements f) link outside e e').
Proof.
  intros Hk. destruct f_networks as (eo & ro & fu & sh & es3 & Ho & Hsh & H).
  pose proof (LinkProps.C76_children _ _ _ _ _ Ho _ _ Hsh _ Husual _ _ _ H role k (e_tag e) (e_tag e') Hk) as [G1 G2]. split.
  - intros (w & (Hw & Ek & Er) & Hs). assert (He : In e (get_all_report_elements f) /\ In e' (get_all_report_elements f))
      by (destruct Hs as (? & ? & ? & ? & ? & _ & _ & _ & _ & X & _ & X'); split; eapply nth_error_In; eassumption). destruct He as [He He'].
    apply below_in_relates in Hs; [|assumption|assumption].
    destruct G1 as (link & outside & H1 & H2 & H3 & arc & aa & from & af & to & at' & s & A1 & A2 & A3 & A4 & A5 & A6 & A7 & A8 & A9); [exists w; auto|].
    exists link, outside. repeat (split; [assumption|]). exists arc, aa, from, af, to, at', s. repeat (split; [assumption|]).
    split; [apply leads_locates; assumption|]. split; [apply leads_locates; assumption|]. apply arrives_come, A9.
  - intros (link & outside & H1 & H2 & H3 & arc & aa & from & af & to & at' & s & A1 & A2 & A3 & A4 & A5 & A6 & A7 & A8 & A9).
    pose proof (leads_in _ _ A7) as He. pose proof (leads_in _ _ A8) as He'.
    destruct G2 as (w & Hw & Ek & Er & Hs).
    { exists link, outside. repeat (split; [assumption|]). exists arc, aa, from, af, to, at', s. repeat (split; [assumption|]).
      split; [apply leads_locates; assumption|]. split; [apply leads_locates; assumption|]. apply arrives_come, A9. }
    exists w. split; [split; auto|]. apply below_in_relates; assumption.
Qed.

(** ** C92 *)

(** A report element has the labels that the label links of the documents give it, and no others. *)
Theorem labels e l : In e (get_all_report_elements f) ->
  (In l (labels_in f e) <-> labelled docs (get_all_report_elements f) e l).
Proof.
  intros He. destruct f_networks as (eo & ro & fu & sh & es3 & Ho & Hsh & H). unfold labels_in.
  rewrite (LinkProps.C72_labels _ _ _ _ _ _ _ _ _ _ _ Ho Husual H). unfold labelled, LinkSpec.gives. split.
  - intros (link & outside & H1 & H2 & H3 & loc & al & res & ar & role & A1 & A2 & A3 & A4 & A5).
    apply leads_locates in A3 as (href & B1 & B2); [|exact He]. exists link, outside, loc, al, res, ar, href, role. repeat (split; [assumption|]). assumption.
  - intros (link & outside & loc & al & res & ar & href & role & H1 & H2 & H3 & A1 & A2 & B1 & B2 & A4 & A5). exists link, outside. repeat (split; [assumption|]).
    exists loc, al, res, ar, role. repeat (split; [assumption|]). split; [apply leads_locates; [exact He|exists href; auto]|]. split; assumption.
Qed.

(** So the table of all labels has one line for every label of every report element. *)
Theorem table line : In line (get_all_labels f) <->
  exists e l, In e (get_all_report_elements f) /\ labelled docs (get_all_report_elements f) e l /\
    line = [ (u "text", inl (LangModel.l_text l)); (u "language", inl (LangModel.l_lang l)); (u "label_role", inl (LangModel.l_role l));
             (u "report_element", inr (e_name e)) ].
Proof.
  unfold get_all_labels. rewrite in_flat_map. split.
  - intros (e & He & Hl). apply in_map_iff in Hl as (l & <- & Hl). exists e, l. split; [exact He|]. apply labels in Hl; [|exact He]. split; [exact Hl|]. reflexivity.
  - intros (e & l & He & Hl & ->). exists e. split; [exact He|]. apply in_map_iff. exists l. split; [reflexivity|]. apply labels; assumption.
Qed.
End Usual.


Lemma those_filter {A} (P : A -> Prop) p (l : list A) : (forall x, p x = true <-> P x) -> those P l (filter p l).
Proof. intros H. induction l as [|x l IH]; cbn [filter]; [constructor|]. destruct (p x) eqn:E; [constructor|apply those_out]; auto; [apply H, E|rewrite <- H; congruence]. Qed.
(** The report elements by kind are the report elements, each under its kind, in the same order. *)
Theorem kinds : 
  Permutation (get_all_report_elements f) (get_all_concepts f ++ get_all_abstracts f ++ get_all_line_items f ++ get_all_hypercubes f ++ get_all_dimensions f ++ get_all_members f) /\
  those (fun e => e_kind e = KConcept) (get_all_report_elements f) (get_all_concepts f) /\
  those (fun e => e_kind e = KAbstract) (get_all_report_elements f) (get_all_abstracts f) /\
  those (fun e => e_kind e = KLineItems) (get_all_report_elements f) (get_all_line_items f) /\
  those (fun e => e_kind e = KHypercube) (get_all_report_elements f) (get_all_hypercubes f) /\
  those (fun e => e_kind e = KDimension) (get_all_report_elements f) (get_all_dimensions f) /\
  those (fun e => e_kind e = KMember) (get_all_report_elements f) (get_all_members f).
Proof.
  split; [|repeat split; apply those_filter; intros e; unfold is_kind; destruct (e_kind e); split; congruence].
  unfold get_all_concepts, get_all_abstracts, get_all_line_items, get_all_hypercubes, get_all_dimensions, get_all_members.
  induction (get_all_report_elements f) as [|e l IH]; [constructor|]. cbn [filter]. cbv [is_kind].
  assert (D : forall (A X Y : list element), Permutation (e :: X) Y -> Permutation (e :: A ++ X) (A ++ Y)).
  { intros A X Y P. eapply Permutation_trans; [apply Permutation_cons_app; reflexivity|]. apply Permutation_app_head, P. }
  eapply Permutation_trans; [apply perm_skip, IH|].
  destruct (e_kind e); cbn [app]; repeat first [reflexivity | apply D].
Qed.

(** No two report elements have the same name. *)
Theorem names : NoDup (map e_name (get_all_report_elements f)).
Proof.
  destruct f_elements as (reg & Hn & Er). unfold get_all_report_elements. rewrite Er, (all_elements reg Hn), map_map. exact Hn.
Qed.


Lemma split_two {A} (l a b c d : list A) x y : l = a ++ x :: b -> l = c ++ y :: d -> (a = c /\ x = y) \/ In y a \/ In x c.
Proof.
  revert l c. induction a as [|z a IH]; intros l c E E'; subst l; destruct c as [|z' c]; cbn [app] in E'; injection E' as E1 E2; [left; auto|right; right; left; auto|right; left; left; auto|].
  destruct (IH _ c eq_refl E2) as [[-> ->]|[H|H]]; [left; split; congruence|right; left; right; exact H|right; right; right; exact H].
Qed.

Section Names.
Hypothesis Hdocs : NoDup (map fst trees).
Hypothesis Hprefixes : ConceptLoad.prefixes_usual trees.

Lemma f_declared : exists es1, ConceptModel.parse_report_elements trees (ConceptModel.empty_rrepo, es) = Ok (fl_elements f, es1).
Proof. exists es1. exact (as_declared _ _ _ _ _ _ _ Has). Qed.

Lemma f_made e : In e (get_all_report_elements f) ->
  exists x, ConceptSpec.first_made trees x /\ e_name e = ConceptModel.r_name x /\ e_id e = ConceptModel.r_id x /\
    e_kind e = kind_of_body (ConceptModel.r_body x).
Proof.
  destruct f_declared as (es3 & H). destruct (ConceptProps.C56_first_declaration _ _ _ _ Hdocs Hprefixes H) as (H1 & _ & _).
  destruct f_elements as (reg & Hn & Er). rewrite Er in H1. unfold get_all_report_elements in *. rewrite Er in *. rewrite ConceptLoad.stored_all in H1 by exact Hn.
  intros He. rewrite (all_elements reg Hn) in He. apply in_map_iff in He as (x & <- & Hx). exists x. apply H1 in Hx. split; [exact Hx|]. auto.
Qed.
Lemma made_declared x : ConceptSpec.first_made trees x ->
  declared trees (ConceptModel.r_name x) (ConceptModel.r_id x) (kind_of_body (ConceptModel.r_body x)).
Proof.
  intros (before & [[root tns] y] & after & Ed & (Hn & Hi & Hb) & Hf). exists before, after, root, tns, y. split; [exact Ed|]. split; [exact Hn|]. split; [exact Hi|].
  assert (D : ConceptSpec.declares y (kind_of_body (ConceptModel.r_body x)) /\ forall c, ConceptModel.r_body x = ConceptModel.BConcept c -> ConceptSpec.valid_concept y c).
  { destruct (ConceptModel.r_body x); cbn [kind_of_body]; (split; [tauto|]); intros c' E; try discriminate E. injection E as <-. tauto. }
  destruct D as [D V]. split; [exact D|]. split; [|exact Hf]. intros [N|[K N]]; [exact (N _ D)|].
  pose proof (ConceptProofs.declares_one _ _ _ D K) as E. destruct (ConceptModel.r_body x) as [c| | | | |]; try discriminate E. exact (N c (V c eq_refl)).
Qed.

(** The report elements are those that are declared: for every name the first declaration that makes
    anything. *)
Theorem elements q id k : In (q, id, k) (map (fun e => (e_name e, e_id e, e_kind e)) (get_all_report_elements f)) <-> declared trees q id k.
Proof.
  split.
  - intros H. apply in_map_iff in H as (e & E & He). destruct (f_made e He) as (x & Hx & E1 & E2 & E3). rewrite E1, E2, E3 in E. injection E as <- <- <-. apply made_declared, Hx.
  - intros (before & after & root & tns & y & Ed & Hn & Ei & Hk & Hm & Hf).
    assert (Hd : In (root, tns, y) (ConceptSpec.all_decls trees)) by (rewrite Ed; apply in_elt).
    destruct (f_declared) as (es3 & H). destruct (ConceptProps.C56_declared _ _ _ _ Hdocs Hprefixes H _ Hd Hm) as (r & Hr & Hn').
    assert (En : ConceptModel.r_name r = q). { destruct Hn as (n & A & B), Hn' as (n' & A' & B'). congruence. }
    destruct f_elements as (reg & Hnd & Er). assert (Hin : In (element_of (fl_elements f) r) (get_all_report_elements f)).
    { unfold get_all_report_elements. rewrite Er in *. rewrite ConceptLoad.stored_all in Hr by exact Hnd. rewrite (all_elements reg Hnd). apply in_map, Hr. }
    apply in_map_iff. exists (element_of (fl_elements f) r). split; [|exact Hin].
    destruct (f_made _ Hin) as (x & Hx & E1 & E2 & E3). destruct (made_declared x Hx) as (b' & a' & root' & tns' & y' & Ed' & Gn & Gi & Gk & Gm & Gf).
    rewrite <- E1 in Gn, Gf. cbn [element_of e_name] in Gn, Gf. rewrite En in Gn, Gf.
    assert (Ey : y' = y).
    { destruct (split_two _ _ _ _ _ _ _ Ed Ed') as [[_ E]|[K|K]]; [congruence| |]; exfalso; [exact (Gm (Hf _ K Gn))|exact (Hm (Gf _ K Hn))]. }
    subst y'. rewrite E2, E3, Gi, Ei, (ConceptProofs.declares_one _ _ _ Gk Hk). cbn [element_of e_name]. rewrite En. reflexivity.
Qed.

(** A report element is known by its position. *)
Theorem positions i e : nth_error (get_all_report_elements f) i = Some e -> e_tag e = i.
Proof. apply all_numbers. Qed.

Hypothesis Hnames : names_usual trees.

Lemma f_known : QNameProps.known (fl_namespaces f) (get_all_report_elements f).
Proof.
  rewrite (as_namespaces _ _ _ _ _ _ _ Has). split; [apply create_nsmap_spec|].
  intros e (pre & post & E & _). assert (He : In e (get_all_report_elements f)) by (rewrite E; apply in_elt). clear pre post E.
  apply f_made in He as (x & (before & [[root tns] y] & after & Ed & Hm & _) & -> & _).
  destruct Hm as ((name & Hn & Hq) & _). assert (Hd : In (root, tns, y) (ConceptSpec.all_decls trees)) by (rewrite Ed; apply in_elt).
  destruct (Hnames _ _ _ _ Hd Hn) as (T1 & T2 & L1 & L2 & P & D).
  assert (Hs : In (x_scope y) (flat_map (fun d => x_scope d :: map x_scope (descendants d)) (dict_values trees))).
  { unfold ConceptSpec.all_decls in Hd. apply in_flat_map in Hd as ([uri d] & Ht & Hd). cbn [snd] in Hd.
    unfold ConceptSpec.decls_of in Hd. destruct (attr d (u "targetNamespace")); [|destruct Hd]. apply in_map_iff in Hd as (z & Ez & Hz). apply filter_In in Hz as [Hz _].
    assert (z = y) by congruence. subst z. apply in_flat_map. exists d. split; [unfold dict_values; apply in_map_iff; exists (uri, d); auto|]. right. apply in_map, Hz. }
  apply (fun H => in_or_app extra _ _ (or_intror H)) in Hs.
  destruct (QNameProps.C33_parsed_names_known _ _ _ _ _ Hs T1 T2 L1 L2 P D Hq) as (Eu & _ & Hin). rewrite Eu. exact Hin.
Qed.

Lemma current_in e : current (get_all_report_elements f) e <-> In e (get_all_report_elements f).
Proof.
  split; [intros (pre & post & -> & _); apply in_elt|]. intros He. apply in_split in He as (pre & post & E). exists pre, post. split; [exact E|].
  intros x Hx En. pose proof names as Hn. rewrite E, map_app in Hn. cbn [map] in Hn. apply NoDup_remove_2 in Hn. apply Hn. rewrite <- En.
  apply in_or_app. right. apply in_map, Hx.
Qed.
Lemma the_only_only P e : the_only (get_all_report_elements f) P e <-> only (get_all_report_elements f) P e.
Proof.
  unfold the_only, only. rewrite current_in. split; intros (H1 & H2 & H3); (split; [exact H1|split; [exact H2|]]); intros x Hx; apply H3, current_in, Hx.
Qed.
Lemma f_registered : repository_of (fl_elements f) = registered (get_all_report_elements f).
Proof.
  destruct f_elements as (reg & Hn & Er). unfold get_all_report_elements. rewrite Er, (all_elements reg Hn). apply repository_registered.
Qed.

(** A text finds the only report element (concept) of the filing that it means, and fails with a
    ValueError when there is none or more than one. *)
Theorem lookup ord s : NetSpec.some_order ord ->
  (forall e, get_report_element_by_name ord (fl_namespaces f) (repository_of (fl_elements f)) s = Ok e <->
     only (get_all_report_elements f) (fun x => means s (e_name x)) e) /\
  (get_report_element_by_name ord (fl_namespaces f) (repository_of (fl_elements f)) s = Raise ValueError <->
     forall e, ~ only (get_all_report_elements f) (fun x => means s (e_name x)) e).
Proof.
  intros Ho. destruct (QNameProps.C33_lookup ord _ _ s Ho f_known) as [H1 H2]. rewrite f_registered. split.
  - intros e. rewrite H1. apply the_only_only.
  - rewrite H2. split; intros H e He; apply (H e); revert He; apply the_only_only.
Qed.
Theorem concept_lookup ord s : NetSpec.some_order ord ->
  (forall e, get_concept_by_name ord (fl_namespaces f) (repository_of (fl_elements f)) s = Ok e <->
     only (get_all_concepts f) (fun x => means s (e_name x)) e) /\
  (get_concept_by_name ord (fl_namespaces f) (repository_of (fl_elements f)) s = Raise ValueError <->
     forall e, ~ only (get_all_concepts f) (fun x => means s (e_name x)) e).
Proof.
  intros Ho. destruct (QNameProps.C33_concept_lookup ord _ _ s Ho f_known) as [H1 H2]. rewrite f_registered.
  assert (G : forall e, the_only (get_all_report_elements f) (fun x => e_kind x = KConcept /\ means s (e_name x)) e <-> only (get_all_concepts f) (fun x => means s (e_name x)) e).
  { intros e. rewrite the_only_only. unfold only, get_all_concepts. rewrite filter_In.
    assert (K : forall x, is_kind KConcept x = true <-> e_kind x = KConcept) by (intros x; unfold is_kind; destruct (e_kind x); split; congruence).
    rewrite K. split; [intros (A & [B C] & D)|intros ([A B] & C & D)]; (split; [auto|split; [auto|]]).
    - intros x Hx Hm. apply filter_In in Hx as [Hx Hk]. apply K in Hk. auto.
    - intros x Hx [Hk Hm]. apply D; [|exact Hm]. apply filter_In. split; [exact Hx|]. apply K, Hk. }
  split.
  - intros e. rewrite H1. apply G.
  - rewrite H2. split; intros H e He; apply (H e); apply G; exact He.
Qed.
End Names.


(** ** Reports *)

Lemma found_stands i : stands_for (get_all_report_elements f) (get_all_facts f) i (find_in (fl_elements f) (fl_facts f) i).
Proof.
  destruct f_elements as (reg & Hn & Er). pose proof all_numbers as N.
  pose proof (as_own _ _ _ _ _ _ _ Has) as Ho.
  assert (Hno : ConceptModel.rr_has_id (fl_elements f) i = false -> forall e, In e (get_all_report_elements f) -> e_id e <> Some i).
  { intros E e He Ei. destruct (last_of_id _ _ _ He Ei) as (e' & Hl). unfold get_all_report_elements in Hl. rewrite Er in *. apply (element_last reg Hn) in Hl as (x & Hx & _).
    apply ConceptLoad.stored_by_id in Hx. assert (K : ConceptModel.rr_has_id (ConceptLoad.stored reg) i = true) by (apply (has_id_get reg); eauto). congruence. }
  destruct (find_in (fl_elements f) (fl_facts f) i) as [fd|] eqn:E.
  - pose proof E as E'. unfold get_all_report_elements, get_all_facts in *. rewrite Er in *. apply (found_cases reg Hn) in E as [(e & Hl & ->)|(n & -> & x & Hx & Hg)].
    + assert (He : In e (QNameModel.get_all (repository_of (ConceptLoad.stored reg)))) by (destruct Hl as (b & a & -> & _); apply in_elt).
      apply In_nth_error in He as (n & He). rewrite (N _ _ He).
      destruct (e_kind e) eqn:K; first [eapply for_concept; [exact Hl|exact K|exact He]|eapply for_element; [exact Hl|rewrite K; discriminate|exact He]].
    + apply for_fact with (x := x); [|exact Hx|]; cycle 1.
      * apply (dict_get_in str_eqb str_eqb_spec) in Hg. exact (Ho _ _ Hg).
      * apply Hno. unfold find_in in E'. destruct (ConceptModel.rr_has_id (ConceptLoad.stored reg) i); [|reflexivity].
        destruct (ConceptModel.rr_get_by_id (ConceptLoad.stored reg) i) as [y|]; [|discriminate]. destruct (ConceptModel.r_body y); discriminate E'.
  - assert (Eh : ConceptModel.rr_has_id (fl_elements f) i = false).
    { destruct (ConceptModel.rr_has_id (fl_elements f) i) eqn:Eh; [|reflexivity]. exfalso. unfold find_in in E. rewrite Eh in E. rewrite Er in *.
      apply (has_id_get reg) in Eh as (x & Hx). rewrite Hx in E. destruct (ConceptModel.r_body x); discriminate E. }
    apply for_nothing; [exact (Hno Eh)|]. intros x Hx Ei. unfold find_in in E. rewrite Eh in E. unfold facts_has_id, dict_mem in E.
    unfold get_all_facts, facts_get_all, dict_values in Hx. apply in_map_iff in Hx as ([j y] & Ey & Hx). cbn [snd] in Ey. subst y.
    pose proof (Ho _ _ Hx) as Ej. assert (j = i) by congruence. subst j.
    destruct (dict_get str_eqb (fr_by_id (fl_facts f)) i) eqn:G; [discriminate E|]. apply (dict_get_none str_eqb str_eqb_spec) in G. apply G. unfold dict_keys. apply in_map_iff. exists (i, x). auto.
Qed.


Section Reports.
Hypothesis Hdocs : NoDup (map fst trees).
Hypothesis Hprefixes : ConceptLoad.prefixes_usual trees.

Lemma f_declaration_reports : exists e1, es1 = es ++ e1 /\ ConceptSpec.error_list trees [] (ConceptSpec.all_decls trees) e1.
Proof. destruct (ConceptProps.C56_errors _ _ _ _ Hdocs Hprefixes (as_declared _ _ _ _ _ _ _ Has)) as (e1 & E & HE). eauto. Qed.

Lemma nillable_is e : In e (get_all_report_elements f) -> e_kind e = KConcept ->
  forall x, declaration_of trees (e_name e) x -> (nillable_in (fl_elements f) e = true <-> attr x (u "nillable") = Some (u "true")).
Proof.
  intros He Hk x (b & a & root & tns & Ed & Hn & Hm & Hf). destruct f_declared as (es3 & H).
  destruct (ConceptProps.C56_first_declaration _ _ _ _ Hdocs Hprefixes H) as (_ & _ & HL).
  assert (G : exists r, ConceptSpec.first_made trees r /\ ConceptModel.r_name r = e_name e /\ kind_of_body (ConceptModel.r_body r) = KConcept).
  { destruct (f_made Hdocs Hprefixes e He) as (r & Hr & E1 & _ & E3). exists r. split; [exact Hr|]. split; [symmetry; exact E1|congruence]. }
  destruct G as (r & Hr & En & Hkr). assert (EL : ConceptModel.rr_get_by_qname (fl_elements f) (e_name e) = Ok r) by (apply HL; auto).
  unfold nillable_in. rewrite EL.
  destruct Hr as (b' & [[root' tns'] y] & a' & Ed' & (Hn' & _ & Hb) & Hf'). rewrite En in Hn', Hf'.
  destruct r as [rn ri rb]. cbn [ConceptModel.r_body] in *. destruct rb as [c| | | | |]; try discriminate Hkr. destruct Hb as [Hd Hv].
  assert (Hm' : ~ ConceptSpec.makes_nothing (root', tns', y)).
  { intros [K|[_ K]]; [exact (K _ Hd)|exact (K c Hv)]. }
  assert (Ey : y = x).
  { destruct (split_two _ _ _ _ _ _ _ Ed Ed') as [[_ E]|[K|K]]; [congruence| |]; exfalso; [exact (Hm' (Hf _ K Hn'))|exact (Hm (Hf' _ K Hn))]. }
  subst y. destruct Hv as (_ & _ & _ & _ & E & _). destruct (ConceptModel.c_nillable c); [split; auto|]. split; [discriminate|]. intros K. rewrite K in E. destruct E as [E|E]; discriminate E.
Qed.


Lemma error_list_clean before l : ConceptSpec.error_list trees before l [] -> forall d, In d l -> ~ ConceptSpec.bad_concept d.
Proof.
  remember [] as e eqn:Ee. induction 1 as [|before d l es0 es' H H' IH]; intros d' Hd; [destruct Hd|].
  apply app_eq_nil in Ee as [-> ->]. destruct Hd as [<-|Hd]; [|exact (IH eq_refl d' Hd)].
  destruct H as [(_ & er & n & E & _)|[(_ & er & E & _)|(Hb & _)]]; [discriminate E|discriminate E|exact Hb].
Qed.

Theorem declarations_kept (Hclean : es1 = []) root tns x k : In (root, tns, x) (ConceptSpec.all_decls trees) -> ConceptSpec.declares x k ->
  exists e, In e (get_all_report_elements f) /\ ConceptSpec.named (root, tns, x) (e_name e).
Proof.
  intros Hd Hk. destruct f_declaration_reports as (e1 & E & HE). rewrite Hclean in E. symmetry in E. apply app_eq_nil in E as [_ ->].
  pose proof (error_list_clean _ _ HE _ Hd) as Hb.
  destruct (f_declared) as (es3 & H). destruct (ConceptProps.C56_declared _ _ _ _ Hdocs Hprefixes H _ Hd) as (r & Hr & Hn).
  { intros [Hno|Hbad]; [exact (Hno k Hk)|exact (Hb Hbad)]. }
  destruct f_elements as (reg & Hnd & Er). unfold get_all_report_elements. rewrite Er in *. rewrite ConceptLoad.stored_all in Hr by exact Hnd.
  exists (element_of (ConceptLoad.stored reg) r). split; [rewrite (all_elements reg Hnd); apply in_map, Hr|exact Hn].
Qed.

End Reports.

Section Links.
Hypothesis Husual : LinkSpec.all_usual docs.
Lemma f_later : exists e3 e4, fl_errors f = es2 ++ e3 ++ e4 /\
  (exists l l1 l2 rss, (forall x around, In (x, around) l <-> LinkSpec.extended_link docs x around) /\
      LinkSpec.in_two_parts LinkSpec.looks_standard l l1 l2 /\
      Forall2 (fun p => LinkSpec.link_reported (find_in (fl_elements f) (fl_facts f)) (fst p) (snd p)) (l1 ++ l2) rss /\
      Forall2 LinkSpec.made (concat rss) e3) /\
  exists ls, e4 = concat ls /\
    Forall2 (fun x l => exists role codes, attr x (u "roleURI") = Some role /\ NoDup codes /\
      Forall2 (fun code e => create code (Some x) [(u "linkrole_uri", role)] = Ok e) codes l /\
      forall code, In code codes <-> CompSpec.warned (networks_of (fl_nets f)) x role code) (flat_map CompModel.role_types docs) ls.
Proof.
  destruct (as_links _ _ _ _ _ _ _ Has) as (eo & ro & fu & sh & Ho & Hs & H3). pose proof (as_components _ _ _ _ _ _ _ Has) as H4. rewrite (as_stored _ _ _ _ _ _ _ Has) in H4.
  destruct (CompProps.C49_warnings _ _ _ _ _ H4) as (ls & El & Hls). rewrite stored_upserts in Hls.
  destruct (LinkProps.C78_reports_partial _ _ _ _ _ _ _ _ _ _ _ Husual H3) as (l & l1 & l2 & rss & e3 & A1 & _ & A2 & A3 & A4 & A5).
  exists e3, (concat ls). split; [rewrite El, A4, <- !app_assoc; reflexivity|]. split; [exists l, l1, l2, rss; auto|]. exists ls. split; [reflexivity|].
  eapply forall2_weaken; [|exact Hls]. intros x r (role & codes & B1 & B2 & B3 & B4). exists role, codes. repeat (split; [assumption|]). intros code. rewrite B4.
  apply (warned_notes _ _ _ (as_notes _ _ _ _ _ _ _ Has)).
Qed.

Hypothesis Hclean : fl_errors f = [].
Lemma clean_later : es2 = [].
Proof. destruct f_later as (e3 & e4 & E & _). rewrite Hclean in E. symmetry in E. apply app_eq_nil in E as [E _]. exact E. Qed.

Theorem links_sound link outside : LinkSpec.extended_link docs link outside -> sound_link f link outside.
Proof.
  intros Hl. destruct f_later as (e3 & e4 & E & (l & l1 & l2 & rss & Hin & Hp & HF & HM) & _). rewrite Hclean in E. symmetry in E.
  apply app_eq_nil in E as [_ E]. apply app_eq_nil in E as [-> _].
  inversion HM as [E|]; subst. clear HM. apply Hin in Hl.
  assert (Hl' : In (link, outside) (l1 ++ l2)).
  { clear -Hp Hl. induction Hp as [|a l l1 l2 Ha Hp IH|a l l1 l2 Ha Hp IH]; [destruct Hl| |]; (destruct Hl as [->|Hl]; [|specialize (IH Hl)]).
    - left. reflexivity.
    - right. exact IH.
    - apply in_elt.
    - apply in_app_iff in IH. apply in_app_iff. destruct IH; [left|right; right]; assumption. }
  assert (HR : LinkSpec.link_reported (find_in (fl_elements f) (fl_facts f)) link outside []).
  { clear -HF E Hl'. revert E. induction HF as [|p rs l l' H H' IH]; intros E; [destruct Hl'|]. cbn [concat] in E. symmetry in E. apply app_eq_nil in E as [-> E].
    destruct Hl' as [->|Hl']; [exact H|]. apply IH; [exact Hl'|symmetry; exact E]. }
  assert (HI : LinkSpec.xl "role" link <> None /\ (exists k, LinkSpec.link_kind link k) /\ LinkSpec.inside_reported (find_in (fl_elements f) (fl_facts f)) link outside []).
  { inversion HR as [|t|k rs H1 H2 H3 H4|rs H1 H2 H3 H4]; subst; [eauto|]. assert (rs = []) by (destruct rs; [reflexivity|discriminate]). subst rs. eauto. }
  destruct HI as (H1 & H2 & ra & rp & HA & HP & E0). symmetry in E0. apply app_eq_nil in E0 as [-> Erp].
  split; [exact H1|]. split; [exact H2|].
  assert (Hpart : forall x around t, t = "locator"%string \/ t = "resource"%string -> LinkSpec.element_of link outside t x around ->
     LinkSpec.part_reported (find_in (fl_elements f) (fl_facts f)) x around []).
  { intros x around t Ht (Hi & Hg & Hx).
    assert (Hp' : In (x, around) (LinkSpec.elements_of link outside ["resource"; "locator"]%string)).
    { unfold LinkSpec.elements_of. apply filter_In. split; [apply LinkProofs.inner_inside, Hi|]. cbn [fst]. destruct (x_tag x); [|congruence]. rewrite Hx.
      destruct Ht as [->| ->]; reflexivity. }
    clear -HP Erp Hp'. revert Erp. induction HP as [|p rs l l' H H' IH]; intros Erp; [destruct Hp'|]. cbn [concat] in Erp. apply app_eq_nil in Erp as [-> Erp].
    destruct Hp' as [->|Hp']; [exact H|]. exact (IH Hp' Erp). }
  split; [|split].
  - intros loc al Hel. pose proof (Hpart _ _ _ (or_introl eq_refl) Hel) as HR'. destruct Hel as (_ & _ & Ht).
    inversion HR' as [href A B C| | | | | |]; subst; try (exfalso; rewrite Ht in *; match goal with K : Some _ = Some _ |- _ => vm_compute in K; discriminate K end).
    destruct (find_in (fl_elements f) (fl_facts f) (LinkSpec.fragment href)) as [fd|] eqn:Ef; [|congruence].
    destruct f_elements as (reg & Hn & Er). unfold get_all_report_elements, get_all_facts, leads_to. rewrite Er in *.
    apply (found_cases reg Hn) in Ef as [(e & He & _)|(m & _ & y & Hy & Hg)].
    + left. exists e, href. auto.
    + right. exists href, y. split; [exact B|]. unfold facts_get_by_id. rewrite Hg. split; [reflexivity|]. eapply nth_error_In, Hy.
  - intros res ar t Hel Et Hpo. pose proof (Hpart _ _ _ (or_intror eq_refl) Hel) as HR'. destruct Hel as (_ & _ & Ht).
    inversion HR' as [href A B C| |t' lang A B C D| | |t' A B C D F|]; subst.
    + exfalso. rewrite Ht in A. vm_compute in A. discriminate A.
    + eauto.
    + exfalso. assert (t' = t) by congruence. subst t'. tauto.
  - clear -HA. revert HA. generalize (@nil xml) as earlier. generalize (map fst (LinkSpec.elements_of link outside ["arc"%string])) as l.
    intros l earlier H. assert (G : ForallOrdPairs (fun x y => ~ LinkSpec.same_arc y x) l /\ forall x y, In x earlier -> In y l -> ~ LinkSpec.same_arc y x); [|exact (proj1 G)].
    remember [] as rs eqn:Ers. induction H as [earlier|earlier x l rs Hx H IH|]; [split; [constructor|intros ? ? _ []]| |discriminate Ers].
    destruct (IH Ers) as [G1 G2]. split.
    + constructor; [|exact G1]. apply Forall_forall. intros y Hy. apply G2; [left; reflexivity|exact Hy].
    + intros z y Hz [<-|Hy]; [apply Hx, Hz|]. apply G2; [right; exact Hz|exact Hy].
Qed.

Lemma used_on_dec x text : CompSpec.used_on x text \/ ~ CompSpec.used_on x text.
Proof.
  destruct (dict_get key_eqb (x_scope x) (Some (u "link"))) as [uri|] eqn:E.
  - pose proof (CompProofs.used_on_spec x uri text E) as H. destruct (CompModel.text_in _ _); [left; apply H; reflexivity|right]. intros K. apply H in K. discriminate K.
  - right. intros (uri & k & H & _). unfold CompSpec.link_at in H. congruence.
Qed.

Theorem announced x role : In x (flat_map CompModel.role_types docs) -> attr x (u "roleURI") = Some role ->
  ((exists w, of_kind f NetModel.KPresentation role w) -> CompSpec.used_on x "link:presentationLink") /\
  ((exists w, of_kind f NetModel.KCalculation role w) -> CompSpec.used_on x "link:calculationLink") /\
  ((exists w, of_kind f NetModel.KLogicalDefinition role w \/ of_kind f NetModel.KPhysicalDefinition role w) -> CompSpec.used_on x "link:definitionLink").
Proof.
  intros Hx Hr. destruct f_later as (e3 & e4 & E & _ & ls & El & HF). rewrite Hclean in E. symmetry in E.
  apply app_eq_nil in E as [_ E]. apply app_eq_nil in E as [_ ->].
  assert (HW : forall code, ~ CompSpec.warned (networks_of (fl_nets f)) x role code).
  { clear -HF El Hx Hr. revert El. induction HF as [|y l ys ls (role' & codes & R & _ & C & W) HF IH]; intros El; [destruct Hx|]. cbn [concat] in El.
    symmetry in El. apply app_eq_nil in El as [-> El]. destruct Hx as [->|Hx]; [|apply IH; [exact Hx|symmetry; exact El]].
    inversion C; subst. assert (role' = role) by congruence. subst role'. intros code Hc. apply W in Hc. destruct Hc. }
  assert (HN : forall w, In w (fl_nets f) -> exists i, In (network_of (i, w)) (networks_of (fl_nets f))).
  { intros w Hw. apply In_nth_error in Hw as (i & Hi). exists i. apply networks_of_nth. exists w. auto. }
  split; [|split].
  - intros (w & Hw & Hk & Hro). destruct (used_on_dec x "link:presentationLink") as [U|U]; [exact U|]. exfalso. eapply HW, CompSpec.warn_presentation; [|exact U].
    destruct (HN w Hw) as (i & Hi). exists (network_of (i, w)). split; [exact Hi|]. apply class_presentation. auto.
  - intros (w & Hw & Hk & Hro). destruct (used_on_dec x "link:calculationLink") as [U|U]; [exact U|]. exfalso. eapply HW, CompSpec.warn_calculation; [|exact U].
    destruct (HN w Hw) as (i & Hi). exists (network_of (i, w)). split; [exact Hi|]. apply class_calculation. auto.
  - intros (w & Hw). assert (Hw' : In w (fl_nets f)) by (destruct Hw as [[Hw _]|[Hw _]]; exact Hw).
    destruct (used_on_dec x "link:definitionLink") as [U|U]; [exact U|]. exfalso. eapply HW, CompSpec.warn_definition; [|exact U].
    destruct (HN w Hw') as (i & Hi). exists (network_of (i, w)). split; [exact Hi|]. apply class_any_definition. unfold of_kind in Hw. tauto.
Qed.

End Links.
End Read.

(** ** Two readings *)


Lemma networks_of_shapes ws ws' : map (fun w => (LinkModel.w_kind w, LinkModel.w_role w)) ws = map (fun w => (LinkModel.w_kind w, LinkModel.w_role w)) ws' ->
  networks_of ws = networks_of ws'.
Proof.
  unfold networks_of. intros E. assert (L : length ws = length ws') by (rewrite <- (map_length (fun w => (LinkModel.w_kind w, LinkModel.w_role w)) ws), E; apply map_length).
  rewrite <- L. clear L. generalize (seq 0 (length ws)) as l. revert ws' E. induction ws as [|w ws IH]; intros [|w' ws'] E l; try discriminate E; [destruct l; reflexivity|].
  cbn [map] in E. injection E as Ek Er E. destruct l as [|i l]; [reflexivity|]. cbn [combine map]. f_equal; [|exact (IH _ E l)].
  unfold network_of. cbn [fst snd]. rewrite Ek, Er. reflexivity.
Qed.


Section Twice.
Variable trees : list (str * xml).
Variables es es1 later1 later2 : repo xml.
Variables notes1 notes2 : list CompModel.network.
Variable extra : list scope.
Variables f1 f2 : filing.
Hypothesis A1 : assembled trees es es1 later1 notes1 extra f1.
Hypothesis A2 : assembled trees es es1 later2 notes2 extra f2.
Hypothesis same_facts : fl_facts f1 = fl_facts f2.

(** The links are read as if there had been no errors before. *)
Lemma links_alone later notes f : assembled trees es es1 later notes extra f -> exists eo ro fu sh st, LinkSpec.orders eo ro /\ NetSpec.some_order sh /\
  LinkModel.parse_networks element_str number (find_in (fl_elements f) (fl_facts f)) eo ro fu sh (dict_values trees) [] = Ok (fl_nets f, st) /\
  fl_links f = LinkFrame.lpre later st.
Proof.
  intros A. destruct (as_links _ _ _ _ _ _ _ A) as (eo & ro & fu & sh & O & S & C). exists eo, ro, fu, sh.
  rewrite <- (app_nil_r later), LinkFrame.keep_networks in C. destruct (LinkModel.parse_networks _ _ _ _ _ _ _ _ _) as [[ws st]|]; [|discriminate C].
  injection C as <- C. exists st. auto.
Qed.
Lemma same_elements : fl_elements f1 = fl_elements f2.
Proof. pose proof (as_declared _ _ _ _ _ _ _ A1) as D1. pose proof (as_declared _ _ _ _ _ _ _ A2) as D2. congruence. Qed.
Lemma same_shapes : map (fun w => (LinkModel.w_kind w, LinkModel.w_role w)) (fl_nets f1) = map (fun w => (LinkModel.w_kind w, LinkModel.w_role w)) (fl_nets f2).
Proof.
  destruct (links_alone _ _ _ A1) as (eo1 & ro1 & fu1 & sh1 & st1 & O1 & S1 & C1 & L1), (links_alone _ _ _ A2) as (eo2 & ro2 & fu2 & sh2 & st2 & O2 & S2 & C2 & L2).
  rewrite same_elements, same_facts in C1. exact (LinkProps.C75_same_networks _ _ _ _ _ _ _ _ _ _ _ _ _ _ _ _ _ O1 O2 C1 C2).
Qed.
Lemma same_number : length (fl_nets f1) = length (fl_nets f2).
Proof. rewrite <- (map_length (fun w => (LinkModel.w_kind w, LinkModel.w_role w)) (fl_nets f1)), same_shapes. apply map_length. Qed.
Theorem same : notes1 = notes2 ->
  get_all_report_elements f1 = get_all_report_elements f2 /\ get_all_facts f1 = get_all_facts f2 /\ fl_namespaces f1 = fl_namespaces f2 /\
  (exists l, fl_errors f1 = later1 ++ l /\ fl_errors f2 = later2 ++ l) /\ get_all_networks f1 = get_all_networks f2 /\ get_all_components f1 = get_all_components f2 /\
  forall e, Permutation (labels_in f1 e) (labels_in f2 e).
Proof.
  intros Hn. pose proof (networks_of_shapes _ _ same_shapes) as En.
  destruct (links_alone _ _ _ A1) as (eo1 & ro1 & fu1 & sh1 & st1 & O1 & S1 & C1 & L1), (links_alone _ _ _ A2) as (eo2 & ro2 & fu2 & sh2 & st2 & O2 & S2 & C2 & L2).
  rewrite same_elements, same_facts in C1. destruct (LinkProps.C75_same_labels _ _ _ _ _ _ _ _ _ _ _ _ _ _ _ _ _ O1 O2 C1 C2) as [Ee P].
  pose proof (as_components _ _ _ _ _ _ _ A1) as D1. pose proof (as_components _ _ _ _ _ _ _ A2) as D2.
  pose proof (as_stored _ _ _ _ _ _ _ A1) as N1. pose proof (as_stored _ _ _ _ _ _ _ A2) as N2.
  rewrite L1 in D1. rewrite L2 in D2. cbn [LinkFrame.lpre LinkModel.ls_errors] in D1, D2. rewrite LinkFrame.keep_components in D1, D2.
  rewrite N1, En, Ee, Hn in D1. rewrite N2 in D2.
  destruct (CompModel.parse_components _ _ _) as [[cs l]|]; [|discriminate D1]. cbn [LinkFrame.pre] in D1, D2. injection D1 as D1 D1'. injection D2 as D2 D2'.
  unfold get_all_report_elements, get_all_facts, get_all_networks, get_all_components, labels_in.
  rewrite same_elements, same_facts, N1, N2, En, Hn, <- D1, <- D2, (as_namespaces _ _ _ _ _ _ _ A1), (as_namespaces _ _ _ _ _ _ _ A2), L1, L2.
  repeat (split; [first [reflexivity|assumption|exists l; split; symmetry; assumption]|]).
  intros e. apply P.
Qed.
Theorem same_content i w1 w2 :
  nth_error (fl_nets f1) i = Some w1 -> nth_error (fl_nets f2) i = Some w2 -> NetModel.is_physical (LinkModel.w_kind w1) = false ->
  LinkModel.w_kind w1 = LinkModel.w_kind w2 /\ LinkModel.w_role w1 = LinkModel.w_role w2 /\
  (forall e, in_network f1 w1 e <-> in_network f2 w2 e) /\ (forall e e', below_in f1 w1 e e' <-> below_in f2 w2 e e').
Proof.
  intros H1 H2 Hp. assert (Ee : get_all_report_elements f1 = get_all_report_elements f2) by (unfold get_all_report_elements; rewrite same_elements; reflexivity).
  pose proof same_shapes as E.
  destruct (links_alone _ _ _ A1) as (eo1 & ro1 & fu1 & sh1 & st1 & O1 & S1 & C1 & L1), (links_alone _ _ _ A2) as (eo2 & ro2 & fu2 & sh2 & st2 & O2 & S2 & C2 & L2).
  rewrite same_elements, same_facts in C1.
  apply (f_equal (fun l => nth_error l i)) in E. rewrite !nth_error_map, H1, H2 in E. cbn [option_map] in E. injection E as E E'. split; [exact E|]. split; [exact E'|].
  destruct (LinkProps.C75_same_content _ _ _ _ _ _ _ _ _ _ _ _ _ _ _ _ _ O1 O2 S1 S2 C1 C2) as [G _].
  assert (K1 : LinkModel.ls_heap (fl_links f1) = LinkModel.ls_heap st1) by (rewrite L1; reflexivity).
  assert (K2 : LinkModel.ls_heap (fl_links f2) = LinkModel.ls_heap st2) by (rewrite L2; reflexivity). rewrite <- K1, <- K2 in G.
  destruct (G w1 w2 (nth_error_In _ _ H1) (nth_error_In _ _ H2) E E' Hp) as [Gs Gr].
  assert (X : forall f w e, in_network f w e -> In e (get_all_report_elements f)) by (intros f w e (? & ? & ? & _ & _ & _ & X); eapply nth_error_In, X).
  assert (Y : forall f w e e', below_in f w e e' -> In e (get_all_report_elements f) /\ In e' (get_all_report_elements f))
    by (intros f w e e' (? & ? & ? & ? & ? & _ & _ & _ & _ & X1 & _ & X2); split; eapply nth_error_In; eassumption).
  split.
  - intros e. split; intros He; pose proof (X _ _ _ He) as Hin.
    + apply (in_network_shows _ _ _ _ _ _ _ A1 _ _ Hin) in He. apply Gs in He. apply (in_network_shows _ _ _ _ _ _ _ A2); [rewrite <- Ee; exact Hin|exact He].
    + apply (in_network_shows _ _ _ _ _ _ _ A2 _ _ Hin) in He. apply Gs in He. apply (in_network_shows _ _ _ _ _ _ _ A1); [rewrite Ee; exact Hin|exact He].
  - intros e e'. split; intros He; destruct (Y _ _ _ _ He) as [Hin Hin'].
    + apply (below_in_relates _ _ _ _ _ _ _ A1 _ _ _ Hin Hin') in He. apply Gr in He. apply (below_in_relates _ _ _ _ _ _ _ A2); [rewrite <- Ee; exact Hin|rewrite <- Ee; exact Hin'|exact He].
    + apply (below_in_relates _ _ _ _ _ _ _ A2 _ _ _ Hin Hin') in He. apply Gr in He. apply (below_in_relates _ _ _ _ _ _ _ A1); [rewrite Ee; exact Hin|rewrite Ee; exact Hin'|exact He].
Qed.
Theorem same_physical w1 :
  In w1 (fl_nets f1) -> NetModel.is_physical (LinkModel.w_kind w1) = true ->
  exists w2, In w2 (fl_nets f2) /\ LinkModel.w_kind w1 = LinkModel.w_kind w2 /\ LinkModel.w_role w1 = LinkModel.w_role w2 /\
    LinkSpec.same_tree (LinkModel.ls_heap (fl_links f1)) (LinkModel.ls_heap (fl_links f2)) (LinkModel.w_roots w1) (LinkModel.w_roots w2).
Proof.
  intros H1 Hp.
  destruct (links_alone _ _ _ A1) as (eo1 & ro1 & fu1 & sh1 & st1 & O1 & S1 & C1 & L1), (links_alone _ _ _ A2) as (eo2 & ro2 & fu2 & sh2 & st2 & O2 & S2 & C2 & L2).
  rewrite same_elements, same_facts in C1. rewrite L1, L2. cbn [LinkFrame.lpre LinkModel.ls_heap].
  destruct (LinkProps.C75_same_content _ _ _ _ _ _ _ _ _ _ _ _ _ _ _ _ _ O1 O2 S1 S2 C1 C2) as [_ G]. exact (G w1 H1 Hp).
Qed.
End Twice.
End Filing.
