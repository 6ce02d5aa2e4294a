(** C49 (components and their networks), C60 (facts by concept). *)
From Verif Require Import Base QNameModel QNameProofs ErrBase ErrTable ErrModel ErrProps CtxModel DtsModel
  ConceptModel ConceptProofs CompModel CompSpec CompProofs.
From Coq Require Import PeanoNat Lia Permutation.
Local Opaque u insert create.

(** * C49: components *)

(** The flags say whether the getters return a network; [get_networks] lists the networks that are
    there: presentation, calculation, definition. *)
Theorem C49_getters (c : component) :
  (has_presentation_network c = true <-> get_presentation_network c <> None) /\
  (has_calculation_network c = true <-> get_calculation_network c <> None) /\
  (has_definition_network c = true <-> get_definition_network c <> None) /\
  map Some (get_networks c) =
    filter (fun o => match o with Some _ => true | None => false end)
      [get_presentation_network c; get_calculation_network c; get_definition_network c].
Proof.
  unfold has_presentation_network, has_calculation_network, has_definition_network, get_networks.
  destruct c as [uri info [p|] [q|] [d|]]; cbn; repeat split; intros; congruence.
Qed.

(** [get_component] returns the first component with the URI and fails with a ValueError exactly when
    there is none, that is when the URI is not among the listed ones. *)
Theorem C49_get_component (cs : list component) (uri : str) :
  (forall c, get_component cs uri = Ok c <-> first_such (fun c => get_URI c = uri) cs (Some c)) /\
  (get_component cs uri = Raise ValueError <-> ~ In uri (get_all_component_uris cs)) /\
  (forall e, get_component cs uri = Raise e -> e = ValueError).
Proof.
  assert (H : get_component cs uri =
              match hd_error (filter (fun c => str_eqb (get_URI c) uri) cs) with
              | Some c => Ok c | None => Raise ValueError end).
  { unfold get_component. induction cs as [|c cs IH]; [reflexivity|]. cbn.
    destruct (str_eqb (get_URI c) uri); [reflexivity|exact IH]. }
  rewrite H. clear H.
  pose proof (first_such_head (fun c => get_URI c = uri) (fun c => str_eqb (get_URI c) uri) cs
                (fun c => str_eqb_eq _ _)) as F.
  split; [|split].
  - intros c. split.
    + destruct (hd_error _) as [c0|]; [|discriminate]. intros [= <-]. exact F.
    + intros H. rewrite (first_such_unique _ _ _ _ F H). reflexivity.
  - unfold get_all_component_uris. rewrite in_map_iff. destruct (hd_error _) as [c0|].
    + split; [discriminate|]. intros H. exfalso. apply H. destruct F as (l1 & l2 & -> & Hu & _).
      exists c0. split; [exact Hu|]. apply in_or_app. right. left. reflexivity.
    + split; [|reflexivity]. intros _ (c & Hu & Hc). cbn in F. rewrite Forall_forall in F. exact (F c Hc Hu).
  - intros e. destruct (hd_error _); [discriminate|]. intros [= <-]. reflexivity.
Qed.

(** One declaration: the component it gives (role URI, definition text, the first stored network of
    each kind, physical definition networks aside) and the warnings. *)
Theorem C49_declaration (ops : list nop) (x : xml) (es : repo xml) c es' :
  parse_component (networks_after ops) x es = Ok (c, es') ->
  declares (stored ops) x c /\
  exists l codes, es' = es ++ l /\ NoDup codes /\
    Forall2 (fun code e => create code (Some x) [(u "linkrole_uri", c_uri c)] = Ok e) codes l /\
    (forall code, In code codes <-> warned (stored ops) x (c_uri c) code).
Proof.
  rewrite parse_component_shape. destruct (attr x (u "roleURI")) as [role|] eqn:Ea; [|discriminate].
  destruct (dict_get key_eqb (x_scope x) (Some (u "link"))) as [uri|] eqn:Eu; [|discriminate].
  destruct (fold_reports x role (tests (networks_after ops) x role uri)
              (tests_codes (networks_after ops) x role uri) es) as (l & -> & Hl).
  cbn [bind]. intros [= <- <-]. split; [apply made_declares; assumption|].
  exists l, (map fst (filter snd (tests (networks_after ops) x role uri))).
  split; [reflexivity|]. split; [apply tests_nodup|]. split; [exact Hl|].
  intros code. apply tests_warned. exact Eu.
Qed.

(** It is read exactly when it has a role URI and the prefix [link] is bound. *)
Theorem C49_readable (ops : list nop) (x : xml) (es : repo xml) :
  match parse_component (networks_after ops) x es with
  | Ok _ => attr x (u "roleURI") <> None /\ exists uri, link_at x uri
  | Raise ValueError => attr x (u "roleURI") = None
  | Raise SyntaxError => attr x (u "roleURI") <> None /\ forall uri, ~ link_at x uri
  | Raise _ => False
  end.
Proof.
  rewrite parse_component_shape. unfold link_at. destruct (attr x (u "roleURI")) as [role|] eqn:Ea; [|reflexivity].
  destruct (dict_get key_eqb (x_scope x) (Some (u "link"))) as [uri|] eqn:Eu.
  - destruct (fold_reports x role (tests (networks_after ops) x role uri)
                (tests_codes (networks_after ops) x role uri) es) as (l & -> & Hl).
    cbn [bind]. split; [discriminate|eauto].
  - split; [discriminate|]. intros uri; discriminate.
Qed.

Lemma parse_role_types_spec ops l : forall cs0 es cs es',
  parse_role_types (networks_after ops) l (cs0, es) = Ok (cs, es') ->
  exists cs1 l1, cs = cs0 ++ cs1 /\ es' = es ++ l1 /\ Forall2 (declares (stored ops)) l cs1 /\
    (forall e, In e l1 -> exists x code role, In x l /\ attr x (u "roleURI") = Some role /\
       warned (stored ops) x role code /\ create code (Some x) [(u "linkrole_uri", role)] = Ok e).
Proof.
  induction l as [|x l IH]; intros cs0 es cs es' H; cbn in H.
  - injection H as <- <-. exists [], []. rewrite !app_nil_r. repeat split; auto. intros e [].
  - apply bind_ok in H. destruct H as ([c es1] & H1 & H). cbn [fst snd] in H.
    destruct (C49_declaration _ _ _ _ _ H1) as (Hd & l0 & codes & -> & _ & Hf & Hw).
    destruct (IH _ _ _ _ H) as (cs1 & l1 & -> & -> & HF & HE).
    exists (c :: cs1), (l0 ++ l1). rewrite <- !app_assoc. split; [reflexivity|]. split; [reflexivity|].
    split; [constructor; assumption|]. intros e He. apply in_app_or in He. destruct He as [He|He].
    + assert (Hx : exists code, In code codes /\ create code (Some x) [(u "linkrole_uri", c_uri c)] = Ok e).
      { clear - Hf He. induction Hf as [|k e' ks es Hk Hf IH]; [destruct He|].
        destruct He as [<-|He]; [exists k; split; [left; reflexivity|exact Hk]|].
        destruct (IH He) as (code & Hi & Hc). exists code. split; [right; exact Hi|exact Hc]. }
      destruct Hx as (code & Hi & Hc). exists x, code, (c_uri c). split; [left; reflexivity|].
      split; [apply Hd|]. split; [apply Hw, Hi|exact Hc].
    + destruct (HE _ He) as (y & code & role & Hy & Hr). exists y, code, role. split; [right; exact Hy|exact Hr].
Qed.

(** All documents: one component for each declaration, in document order. *)
Theorem C49_components (ops : list nop) (roots : list xml) (es : repo xml) cs es' :
  parse_components (networks_after ops) roots es = Ok (cs, es') ->
  Forall2 (declares (stored ops)) (flat_map role_types roots) cs /\
  (forall root x, In x (role_types root) <->
     inside root x /\ x_tag x = Some (u "{" ++ u "http://www.xbrl.org/2003/linkbase" ++ u "}" ++ u "roleType")) /\
  (exists l, es' = es ++ l /\
     forall e, In e l -> exists x code role, In x (flat_map role_types roots) /\
       attr x (u "roleURI") = Some role /\
       warned (stored ops) x role code /\ create code (Some x) [(u "linkrole_uri", role)] = Ok e).
Proof.
  intros H. destruct (parse_role_types_spec _ _ _ _ _ _ H) as (cs1 & l1 & -> & -> & HF & HE).
  split; [exact HF|]. split; [|eauto]. intros root x. unfold role_types. rewrite filter_In, descendants_inside.
  rewrite tagged_spec. reflexivity.
Qed.

(** The warnings: for every declaration, in document order, each warning that applies, once. *)
Theorem C49_warnings (ops : list nop) (roots : list xml) (es : repo xml) cs es' :
  parse_components (networks_after ops) roots es = Ok (cs, es') ->
  exists ls, es' = es ++ concat ls /\
    Forall2 (fun x l => exists role codes, attr x (u "roleURI") = Some role /\ NoDup codes /\
      Forall2 (fun code e => create code (Some x) [(u "linkrole_uri", role)] = Ok e) codes l /\
      forall code, In code codes <-> warned (stored ops) x role code) (flat_map role_types roots) ls.
Proof.
  unfold parse_components. generalize (flat_map role_types roots) as l, (@nil component) as cs0. intros l. revert es.
  induction l as [|x l IH]; intros es cs0 H; cbn in H.
  - injection H as <- <-. exists []. cbn. rewrite app_nil_r. split; [reflexivity|constructor].
  - apply bind_ok in H. destruct H as ([c es1] & H1 & H). cbn [fst snd] in H.
    destruct (C49_declaration _ _ _ _ _ H1) as (Hd & l0 & codes & -> & Hn & Hf & Hw).
    destruct (IH _ _ H) as (ls & -> & HF). exists (l0 :: ls). cbn [concat]. rewrite <- !app_assoc. split; [reflexivity|].
    constructor; [|exact HF]. exists (c_uri c), codes. split; [apply Hd|]. auto.
Qed.

(** When no two declarations have the same role URI, every URI is listed once and [get_component]
    returns the component of its declaration. *)
Theorem C49_each_once_partial (ops : list nop) (roots : list xml) (es : repo xml) cs es' :
  parse_components (networks_after ops) roots es = Ok (cs, es') ->
  NoDup (map (fun x => attr x (u "roleURI")) (flat_map role_types roots)) ->
  NoDup (get_all_component_uris cs) /\
  (forall x c, In x (flat_map role_types roots) -> declares (stored ops) x c ->
     get_component cs (c_uri c) = Ok c) /\
  (forall c, In c cs -> exists x, In x (flat_map role_types roots) /\ declares (stored ops) x c).
Proof.
  intros H Hn. destruct (C49_components _ _ _ _ _ H) as (HF & _ & _).
  assert (Hu : map (fun x => attr x (u "roleURI")) (flat_map role_types roots) = map Some (get_all_component_uris cs)).
  { clear - HF. induction HF as [|x c l cs Hd HF IH]; [reflexivity|]. cbn [map get_all_component_uris].
    f_equal; [apply Hd|exact IH]. }
  assert (Hnd : NoDup (get_all_component_uris cs)).
  { rewrite Hu in Hn. clear - Hn. induction (get_all_component_uris cs) as [|a l IH]; [constructor|].
    cbn in Hn. inversion Hn; subst. constructor; [|auto]. intros Hin. apply H1. apply in_map. exact Hin. }
  split; [exact Hnd|]. split.
  - intros x c Hx Hd. apply C49_get_component.
    assert (Hc : In c cs).
    { clear - HF Hx Hd. induction HF as [|y c' l cs Hy HF IH]; [destruct Hx|]. destruct Hx as [->|Hx].
      - left. eapply declares_unique; eauto.
      - right. auto. }
    apply in_split in Hc. destruct Hc as (l1 & l2 & ->). exists l1, l2. split; [reflexivity|]. split; [reflexivity|].
    rewrite Forall_forall. intros b Hb Eb. unfold get_all_component_uris in Hnd. rewrite map_app in Hnd. cbn in Hnd.
    apply NoDup_remove_2 in Hnd. apply Hnd. apply in_or_app. left. unfold get_URI in *. rewrite <- Eb.
    apply in_map with (f := get_URI). exact Hb.
  - intros c Hc. clear - HF Hc. induction HF as [|y c' l cs Hy HF IH]; [destruct Hc|]. destruct Hc as [->|Hc].
    + exists y. split; [left; reflexivity|exact Hy].
    + destruct (IH Hc) as (x & Hx & Hd). exists x. split; [right; exact Hx|exact Hd].
Qed.

(** Two documents that declare the same role (as XBRL allows) give two components. *)
Local Transparent u.
Definition role_doc (scope : scope) : xml :=
  Xml (Some (u "schema")) [] [] None
    [Xml (Some (u "{http://www.xbrl.org/2003/linkbase}roleType")) [(u "roleURI", u "r")] scope None
       [Xml (Some (u "{http://www.xbrl.org/2003/linkbase}definition")) [] scope (Some (u "Balance sheet")) [];
        Xml (Some (u "{http://www.xbrl.org/2003/linkbase}usedOn")) [] scope (Some (u "link:presentationLink")) []]].
Definition link_scope : scope := [(Some (u "link"), u "http://www.xbrl.org/2003/linkbase")].

Theorem C49_same_role_twice_refuted : exists cs es,
  parse_components (networks_after []) [role_doc link_scope; role_doc link_scope] [] = Ok (cs, es) /\
  get_all_component_uris cs = [u "r"; u "r"].
Proof. eexists; eexists. split; vm_compute; reflexivity. Qed.

(** A document that binds the linkbase namespace to another prefix only is not read at all. *)
Theorem C49_other_prefix_refuted :
  parse_components (networks_after []) [role_doc [(Some (u "lb"), u "http://www.xbrl.org/2003/linkbase")]] [] =
  Raise SyntaxError.
Proof. vm_compute. reflexivity. Qed.

(** The dictionary of a component has no key [definition-network]: the key is misspelt. *)
Theorem C49_dict_refuted (c : component) :
  dict_get str_eqb (component_to_dict c) (u "network-identifier") = Some (inl (get_URI c)) /\
  dict_get str_eqb (component_to_dict c) (u "info") = Some (inl (get_info c)) /\
  dict_get str_eqb (component_to_dict c) (u "presentation-network") = Some (inr (has_presentation_network c)) /\
  dict_get str_eqb (component_to_dict c) (u "calculation-network") = Some (inr (has_calculation_network c)) /\
  dict_get str_eqb (component_to_dict c) (u "definition-network") = None /\
  dict_get str_eqb (component_to_dict c) (u "definintion-network") = Some (inr (has_definition_network c)).
Proof. repeat split. Qed.

(** A role with two presentation networks, a physical and a logical definition network. *)
Example C49_example :
  let n c p i := Network c p (u "r") i in
  let ops := [OpUpsert (n NDefinition true 0%nat); OpGetByType NPresentation; OpUpsert (n NPresentation false 1%nat);
              OpUpsert (Network NCalculation false (u "s") 2%nat); OpUpsert (n NPresentation false 3%nat);
              OpUpsert (n NDefinition false 4%nat)] in
  match parse_components (networks_after ops) [role_doc link_scope] [] with
  | Ok ([c], es) =>
      get_component [c] (u "r") = Ok c /\ get_info c = u "Balance sheet" /\
      map n_object (get_networks c) = [1; 4]%nat /\ length es = 2%nat /\
      NoDup (map (fun x => attr x (u "roleURI")) (flat_map role_types [role_doc link_scope]))
  | _ => False
  end.
Proof. vm_compute. repeat split; repeat constructor; auto. Qed.

(** * C60: facts by concept *)

Lemma collect_app facts facts' r : collect_concepts (facts ++ facts') r =
  (do! r' <- collect_concepts facts r; collect_concepts facts' r').
Proof.
  revert r. induction facts as [|f facts IH]; intros r; cbn; [reflexivity|].
  destruct (fact_concept f) as [c|e]; cbn; [apply IH|reflexivity].
Qed.

Lemma concept_eqb_spec a b : concept_eqb a b = true <-> e_name a = e_name b.
Proof. unfold concept_eqb. destruct (qname_eqb_spec (e_name a) (e_name b)); intuition congruence. Qed.

Lemma concept_spec f c : fact_concept f = Ok c <-> get_characteristic (f_context f) (u "concept") = Some (ChConcept c).
Proof.
  unfold fact_concept, a_concept. destruct (get_characteristic (f_context f) (u "concept")) as [[]|]; split; intros H; try discriminate H; congruence.
Qed.

Lemma collect_spec facts : forall r l, NoDup (map e_name r) -> collect_concepts facts r = Ok l ->
  NoDup (map e_name l) /\ (exists r', l = r ++ r') /\
  (forall c, In c l -> In c r \/ exists f, In f facts /\ fact_concept f = Ok c) /\
  (forall f, In f facts -> exists c, fact_concept f = Ok c /\ In (e_name c) (map e_name l)).
Proof.
  induction facts as [|f facts IH]; intros r l Hn H; cbn in H.
  - injection H as <-. split; [exact Hn|]. split; [exists []; rewrite app_nil_r; reflexivity|].
    split; [auto|intros f []].
  - apply bind_ok in H. destruct H as (c & Hc & H).
    assert (Hex : existsb (concept_eqb c) r = true <-> In (e_name c) (map e_name r)).
    { rewrite existsb_exists, in_map_iff. split; intros (x & H1 & H2); exists x.
      - split; [symmetry; apply concept_eqb_spec, H2|exact H1].
      - split; [exact H2|apply concept_eqb_spec; symmetry; exact H1]. }
    destruct (existsb (concept_eqb c) r).
    + destruct (IH _ _ Hn H) as (H1 & (r' & ->) & H3 & H4). split; [exact H1|]. split; [eauto|]. split.
      * intros c' Hc'. destruct (H3 _ Hc') as [|(f' & Hf' & E)]; [auto|]. right. exists f'. split; [right|]; assumption.
      * intros f' [<-|Hf']; [|auto]. exists c. split; [exact Hc|]. rewrite map_app. apply in_or_app. left. apply Hex. reflexivity.
    + assert (Hn' : NoDup (map e_name (r ++ [c]))).
      { rewrite map_app. cbn. apply NoDup_snoc; [exact Hn|]. intros Hi. apply Hex in Hi. discriminate Hi. }
      destruct (IH _ _ Hn' H) as (H1 & (r' & ->) & H3 & H4). split; [exact H1|].
      split; [exists (c :: r'); rewrite <- app_assoc; reflexivity|]. split.
      * intros c' Hc'. destruct (H3 _ Hc') as [Hi|(f' & Hf' & E)].
        -- apply in_app_or in Hi. destruct Hi as [Hi|[<-|[]]]; [auto|]. right. exists f. split; [left; reflexivity|exact Hc].
        -- right. exists f'. split; [right|]; assumption.
      * intros f' [<-|Hf']; [|auto]. exists c. split; [exact Hc|]. rewrite !map_app. cbn.
        apply in_or_app. left. apply in_or_app. right. left. reflexivity.
Qed.

(** The reported concepts are those some fact reports against, each listed once, in the order in which
    the facts first mention them (what a longer list of facts adds comes at the end). *)
Theorem C60_reported (facts : list fact) l : get_all_reported_concepts facts = Ok l ->
  NoDup (map e_name l) /\
  (forall name, In name (map e_name l) <-> exists f, In f facts /\ reports f name) /\
  (forall before after, facts = before ++ after ->
     exists l1 l2, l = l1 ++ l2 /\ get_all_reported_concepts before = Ok l1).
Proof.
  intros H. destruct (collect_spec facts [] l (NoDup_nil _) H) as (H1 & _ & H3 & H4).
  split; [exact H1|]. split.
  - intros name. split.
    + intros Hi. apply in_map_iff in Hi. destruct Hi as (c & <- & Hc). destruct (H3 _ Hc) as [[]|(f & Hf & E)].
      exists f. split; [exact Hf|]. exists c. split; [apply concept_spec, E|reflexivity].
    + intros (f & Hf & c & Hc & <-). apply concept_spec in Hc. destruct (H4 f Hf) as (c' & Hc' & Hi). congruence.
  - intros before after ->. unfold get_all_reported_concepts in *. rewrite collect_app in H.
    apply bind_ok in H. destruct H as (l1 & Hl1 & H).
    assert (Hn1 : NoDup (map e_name l1)) by (eapply collect_spec; [|exact Hl1]; constructor).
    destruct (collect_spec after l1 l Hn1 H) as (_ & (r' & ->) & _). exists l1, r'. auto.
Qed.

(** It fails only when some fact has no concept. *)
Theorem C60_reported_total (facts : list fact) :
  (forall f, In f facts -> exists name, reports f name) -> exists l, get_all_reported_concepts facts = Ok l.
Proof.
  unfold get_all_reported_concepts. generalize (@nil element). induction facts as [|f facts IH]; intros r H; cbn; [eauto|].
  destruct (H f (or_introl eq_refl)) as (name & c & E & _). apply concept_spec in E. rewrite E. cbn [bind]. apply IH. intros; apply H; right; assumption.
Qed.

Lemma filter_concept_spec c facts l : filter_concept c facts = Ok l ->
  exists P, (forall f, In f facts -> (P f = true <-> reports f (e_name c))) /\ l = filter P facts.
Proof.
  exists (fun f => match fact_concept f with Ok c' => concept_eqb c' c | Raise _ => false end).
  revert l H. induction facts as [|f facts IH]; intros l H; cbn in H.
  - injection H as <-. split; [intros f []|reflexivity].
  - apply bind_ok in H. destruct H as (c' & Hc & H). apply bind_ok in H. destruct H as (l' & Hl & H).
    injection H as <-. destruct (IH _ Hl) as [H1 H2]. split.
    + intros f' [<-|Hf]; [|apply H1, Hf]. rewrite Hc, concept_eqb_spec. unfold reports. split.
      * intros E. exists c'. split; [apply concept_spec, Hc|exact E].
      * intros (c2 & E & En). apply concept_spec in E. congruence.
    + cbn [filter]. rewrite Hc. subst l'. destruct (concept_eqb c' c); reflexivity.
Qed.

(** The facts of a concept, by QName or by concept: exactly the facts that report against it, in the
    order of the filing. *)
Theorem C60_facts_by_name (r : repository) (facts : list fact) (name : qname) l :
  (forall q e, dict_get qname_eqb (by_qname r) q = Some e -> e_name e = q) ->
  get_facts_by_concept_name r facts name = Ok l ->
  exists P, (forall f, In f facts -> (P f = true <-> reports f name)) /\ l = filter P facts.
Proof.
  intros Hr H. unfold get_facts_by_concept_name in H. apply bind_ok in H. destruct H as (c & Hc & H).
  unfold get_typed_by_qname in Hc. apply bind_ok in Hc. destruct Hc as (c' & Hg & Hc).
  destruct (is_concept c'); [|discriminate Hc]. injection Hc as ->.
  unfold get_by_qname in Hg. destruct (dict_get qname_eqb (by_qname r) name) as [e|] eqn:E; [|discriminate Hg].
  injection Hg as ->. rewrite <- (Hr _ _ E). apply filter_concept_spec. exact H.
Qed.

(** The facts of the reported concepts together are all facts, each once. *)
Lemma partition_facts (names : list qname) (P : qname -> fact -> bool) facts :
  NoDup names -> (forall f, In f facts -> exists n, In n names /\ forall m, P m f = true <-> m = n) ->
  Permutation (flat_map (fun n => filter (P n) facts) names) facts.
Proof.
  intros Hn. induction facts as [|f facts IH]; intros H.
  - cbn. induction names; [constructor|]. cbn. inversion Hn; subst. apply IHnames. exact H3. intros f [].
  - assert (IH' := IH (fun f Hf => H f (or_intror Hf))). destruct (H f (or_introl eq_refl)) as (n & Hin & Hp).
    clear IH H. transitivity (f :: flat_map (fun n => filter (P n) facts) names); [|constructor; exact IH'].
    clear IH'. induction names as [|m names IH]; [destruct Hin|]. cbn [flat_map filter]. inversion Hn; subst.
    destruct Hin as [->|Hin].
    + rewrite (proj2 (Hp n) eq_refl). cbn. constructor. apply Permutation_app_head.
      assert (E : flat_map (fun n0 => filter (P n0) (f :: facts)) names = flat_map (fun n0 => filter (P n0) facts) names).
      { rewrite !flat_map_concat_map. f_equal. apply map_ext_in. intros a Ha. cbn.
        destruct (P a f) eqn:E; [|reflexivity]. apply Hp in E. congruence. }
      cbn [filter] in E. rewrite E. reflexivity.
    + destruct (P m f) eqn:E.
      * apply Hp in E. congruence.
      * transitivity (filter (P m) facts ++ f :: flat_map (fun n0 => filter (P n0) facts) names).
        -- apply Permutation_app_head. apply IH; assumption.
        -- symmetry. apply Permutation_middle.
Qed.

Theorem C60_partition (r : repository) (facts : list fact) (cs : list element) (ls : list (list fact)) :
  (forall q e, dict_get qname_eqb (by_qname r) q = Some e -> e_name e = q) ->
  get_all_reported_concepts facts = Ok cs ->
  map_res (get_facts_by_concept r facts) cs = Ok ls ->
  Permutation (concat ls) facts.
Proof.
  intros Hr Hc Hl. destruct (C60_reported _ _ Hc) as (Hn & Hin & _).
  set (P := fun n f => match fact_concept f with Ok c => qname_eqb (e_name c) n | Raise _ => false end).
  assert (E : concat ls = flat_map (fun n => filter (P n) facts) (map e_name cs)).
  { clear Hn Hin Hc. revert ls Hl. induction cs as [|c cs IH]; intros ls Hl; cbn in Hl.
    - injection Hl as <-. reflexivity.
    - apply bind_ok in Hl. destruct Hl as (l & H1 & Hl). apply bind_ok in Hl. destruct Hl as (ls' & H2 & Hl).
      injection Hl as <-. cbn. rewrite (IH _ H2). f_equal. unfold get_facts_by_concept in H1.
      destruct (C60_facts_by_name r facts (e_name c) l Hr H1) as (Q & HQ & ->).
      apply filter_ext_in. intros f Hf. specialize (HQ f Hf). unfold P, reports in *.
      destruct (fact_concept f) as [c'|e] eqn:Ec.
      + destruct (qname_eqb_spec (e_name c') (e_name c)) as [En|En].
        * apply HQ. exists c'. split; [apply concept_spec, Ec|exact En].
        * destruct (Q f) eqn:EQ; [|reflexivity]. exfalso. destruct HQ as [HQ _]. destruct (HQ eq_refl) as (c2 & E2 & En2). apply concept_spec in E2. congruence.
      + destruct (Q f) eqn:EQ; [|reflexivity]. destruct HQ as [HQ _]. destruct (HQ eq_refl) as (c2 & E2 & En2). apply concept_spec in E2. congruence. }
  rewrite E. apply partition_facts; [exact Hn|]. intros f Hf.
  assert (Hf' : exists c, fact_concept f = Ok c /\ In (e_name c) (map e_name cs)).
  { destruct (collect_spec facts [] cs (NoDup_nil _) Hc) as (_ & _ & _ & H4). exact (H4 f Hf). }
  destruct Hf' as (c & E1 & Hi). exists (e_name c). split; [exact Hi|]. intros m. unfold P. rewrite E1.
  destruct (qname_eqb_spec (e_name c) m); intuition congruence.
Qed.

(** Two concepts, three facts. *)
Definition sample_concept (l : string) : element := Element (QName (u "uri") (u "p") (u l)) None KConcept 0.
Definition sample_fact (l v : string) : fact :=
  Fact (add_characteristic (new_context (u "c")) (ChConcept (sample_concept l))) (u v) (Some (u v)).
Definition sample_repo : repository := upsert (upsert empty_repo (sample_concept "A")) (sample_concept "B").

Example C60_example :
  let facts := [sample_fact "A" "1"; sample_fact "B" "2"; sample_fact "A" "3"] in
  get_all_reported_concepts facts = Ok [sample_concept "A"; sample_concept "B"] /\
  get_facts_by_concept sample_repo facts (sample_concept "A") = Ok [sample_fact "A" "1"; sample_fact "A" "3"] /\
  get_facts_by_concept_text (fun l => l) [(u "p", u "uri")] sample_repo facts (u "p:B") = Ok [sample_fact "B" "2"] /\
  map_res (get_facts_by_concept sample_repo facts) [sample_concept "A"; sample_concept "B"] =
    Ok [[sample_fact "A" "1"; sample_fact "A" "3"]; [sample_fact "B" "2"]].
Proof. repeat split; vm_compute; reflexivity. Qed.
Example C60_example_repo q e : dict_get qname_eqb (by_qname sample_repo) q = Some e -> e_name e = q.
Proof.
  intros H. apply (dict_get_in _ qname_eqb_spec) in H. vm_compute in H.
  destruct H as [H|[H|[]]]; injection H as <- <-; reflexivity.
Qed.

Print Assumptions C49_getters.
Print Assumptions C49_get_component.
Print Assumptions C49_declaration.
Print Assumptions C49_readable.
Print Assumptions C49_components.
Print Assumptions C49_warnings.
Print Assumptions C49_each_once_partial.
Print Assumptions C49_same_role_twice_refuted.
Print Assumptions C49_other_prefix_refuted.
Print Assumptions C49_dict_refuted.
Print Assumptions C60_reported.
Print Assumptions C60_reported_total.
Print Assumptions C60_facts_by_name.
Print Assumptions C60_partition.
