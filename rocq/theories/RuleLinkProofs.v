(** Proofs about aspect nodes, filters and the extended links of table linkbases. *)
From Verif Require Import Base Regex PyNum QNameModel CtxModel TableModel RuleModel RuleSpec RuleProofs RuleNodeProofs.
From Coq Require Import Lia.
Local Open Scope nat_scope.

(** ** Rule nodes *)

Lemma find_none_default kids m : listed set_of kids m -> find (fun s => key_eqb (rs_tag s) None) (rev m) = None.
Proof.
  induction 1 as [|x s xs m (t & _ & E & _) _ IH|x xs m Hx _ IH]; cbn [rev]; [reflexivity| |exact IH].
  rewrite find_app, IH. cbn [find]. rewrite E. reflexivity.
Qed.

Lemma sets_nil kids : listed set_of kids [] <-> forall k, In k kids -> ~ exists t, tagged t k.
Proof.
  split.
  - intros H. remember [] as m eqn:Em. induction H as [|x s xs m Hx _ IH|x xs m Hx _ IH].
    + intros k [].
    + discriminate Em.
    + intros k [<-|Hk]; [|auto]. intros (t & Ht).
      destruct (rule_set_exact x) as (r & _ & Hr). destruct r as [s|].
      * destruct Hr as (t' & E & Ha & Hne & Hl). apply (Hx s). exists t'. destruct Ht as (H1 & _). split; [|auto]. split; auto.
      * destruct Ht as (_ & Ha & Hne). auto.
  - induction kids as [|k kids IH]; intros H; [constructor|]. apply listed_silent.
    + intros s (t & Ht & _). apply (H k); [left; reflexivity|]. eauto.
    + apply IH. intros j Hj. apply H. right. exact Hj.
Qed.

Lemma u_label : u "{http://www.w3.org/1999/xlink}label" = xlink_prefix (u "label").
Proof. vm_compute. reflexivity. Qed.
Lemma label_exact x : parse_label x = xlink_label x.
Proof. unfold parse_label, xlink_label. rewrite u_label. reflexivity. Qed.

Theorem rule_node_exact x : match parse_rule_node_element x with
  | Raise e => e = ValueError /\ forall o, ~ order_written x o
  | Ok n => rule_node_written x n
  end.
Proof.
  unfold parse_rule_node_element. pose proof (order_exact x) as Ho.
  destruct (parse_parent_child_order x) as [o|e]; cbn [bind]; [|exact Ho].
  unfold parse_rule_sets. destruct (rule_sets_exact (x_kids x) (RuleSet None []) []) as (l & m & -> & Hl & Hm).
  cbn [bind rs_tag rs_rules app].
  constructor; cbn [rn_abstract rn_merge rn_order rn_selector rn_id rn_label rn_sets]; try reflexivity.
  - exact (flag_exact x (u "abstract")).
  - exact (flag_exact x (u "merge")).
  - exact Ho.
  - intros t s. rewrite fold_sets.
    assert (E : find (fun s => key_eqb (rs_tag s) (Some t)) (rev match l with [] => match m with [] => [RuleSet None l] | _ => m end | _ => m ++ [RuleSet None l] end)
      = find (fun s => key_eqb (rs_tag s) (Some t)) (rev m)).
    { destruct l; [destruct m; reflexivity|]. rewrite rev_app_distr. reflexivity. }
    rewrite E. clear E. pose proof (find_last_set _ _ t Hm) as Hf.
    destruct (find _ (rev m)) as [s'|].
    + destruct Hf as (c & Hc & Ht & Hl'). split.
      * intros [= <-]. exists c. auto.
      * intros (c' & Hc' & Ht' & Hl''). rewrite (last_fun _ _ _ _ Hc' Hc) in Hl''.
        assert (E : rs_rules s' = rs_rules s) by (eapply (listed_fun states); eauto using states_fun).
        destruct s, s'; cbn in *. congruence.
    + split; [discriminate|]. intros (c & Hc & _). destruct (last_none _ _ _ Hf Hc).
  - intros s. rewrite fold_sets.
    pose proof (find_none_default _ _ Hm) as Hn. pose proof (sets_nil (x_kids x)) as Hz.
    assert (E : find (fun s => key_eqb (rs_tag s) None) (rev match l with [] => match m with [] => [RuleSet None l] | _ => m end | _ => m ++ [RuleSet None l] end)
      = if is_nil l && negb (is_nil m) then None else Some (RuleSet None l)).
    { destruct l; [destruct m as [|s0 m]; [reflexivity|exact Hn]|]. rewrite rev_app_distr. reflexivity. }
    rewrite E. clear E. split.
    + destruct (is_nil l && negb (is_nil m)) eqn:Eb; [discriminate|]. intros [= <-]. cbn [rs_tag rs_rules].
      split; [reflexivity|]. split; [exact Hl|]. destruct l; [right|left; discriminate].
      destruct m; [|discriminate Eb]. unfold no_child. apply Hz. exact Hm.
    + intros (Ht & Hl' & Hor). assert (E : rs_rules s = l) by (eapply (listed_fun states); eauto using states_fun).
      destruct s as [tg rules]. cbn in *. subst tg rules.
      destruct l as [|f l]; [|reflexivity]. destruct Hor as [Hor|Hor]; [destruct (Hor eq_refl)|].
      unfold no_child in Hor. apply Hz in Hor.
      destruct m as [|s0 m]; [reflexivity|]. exfalso. clear -Hm Hor.
      revert Hm Hor. generalize (x_kids x). intros kids Hm Hor.
      remember (s0 :: m) as m0 eqn:Em. revert Em Hor. induction Hm as [|y s ys m' Hy _ IH|y ys m' Hy _ IH]; intros Em Hor.
      * discriminate Em.
      * inversion Hor; subst. match goal with H : forall a, ~ set_of y a |- _ => exact (H _ Hy) end.
      * inversion Hor; subst. auto.
Qed.

(** ** Dimension and concept relationship nodes *)

Lemma typed_dimension rep q d : get_typed_by_qname is_dimension rep q = Ok d ->
  dict_get qname_eqb (by_qname rep) q = Some d /\ e_kind d = KDimension.
Proof.
  unfold get_typed_by_qname, get_by_qname. destruct (dict_get qname_eqb (by_qname rep) q) as [e|]; cbn; [|discriminate].
  unfold is_dimension. destruct (e_kind e) eqn:E; cbn; try discriminate. intros [= <-]. auto.
Qed.
Lemma typed_dimension_has rep q : has_typed_qname is_dimension rep q = true ->
  exists d, get_typed_by_qname is_dimension rep q = Ok d.
Proof. unfold has_typed_qname. destruct (get_typed_by_qname is_dimension rep q); [eauto|discriminate]. Qed.
Lemma typed_dimension_not rep q d : has_typed_qname is_dimension rep q = false ->
  dict_get qname_eqb (by_qname rep) q = Some d -> e_kind d <> KDimension.
Proof.
  unfold has_typed_qname, get_typed_by_qname, get_by_qname. intros H E. rewrite E in H. cbn in H.
  unfold is_dimension in H. destruct (e_kind d); cbn in H; congruence.
Qed.

Lemma explicit_fun rep explicit x d d' : names_explicit rep explicit x d -> names_explicit rep explicit x d' -> d = d'.
Proof. intros (q & H & E & _) (q' & H' & E' & _). rewrite (names_fun _ _ _ H' H) in E'. congruence. Qed.

Lemma dimension_loop_exact rep explicit kids : forall d, exists r, dimension_loop rep explicit d kids = Ok r /\
  match r with
  | None => exists k, In k kids /\ table_el "dimension" k /\ forall d, ~ names_explicit rep explicit k d
  | Some d' => (forall k, In k kids -> table_el "dimension" k -> exists d, names_explicit rep explicit k d) /\
      given (table_el "dimension") kids (fun c v => exists e, v = Some e /\ names_explicit rep explicit c e) d d'
  end.
Proof.
  induction kids as [|k kids IH]; intros d; cbn [dimension_loop].
  - exists (Some d). split; [reflexivity|]. split; [intros k []|]. right. split; [intros k []|reflexivity].
  - ttag "dimension"%string k.
    + destruct (names_ex k) as [q Hq]. pose proof (proj1 (names_iff _ _) Hq) as E. rewrite E. cbn [bind]. clear E.
      destruct (has_typed_qname is_dimension rep q) eqn:Eh; cbn [negb].
      * destruct (typed_dimension_has _ _ Eh) as (e & Ee). rewrite Ee. cbn [bind]. apply typed_dimension in Ee.
        destruct Ee as [Ee Ek]. destruct (explicit e) eqn:Ex; cbn [negb].
        -- assert (Hn : names_explicit rep explicit k e) by (exists q; auto).
           destruct (IH (Some e)) as (r & -> & Hr). exists r. split; [reflexivity|]. destruct r as [d'|].
           ++ destruct Hr as [Ha Hg]. split; [intros j [<-|Hj]; eauto|]. eapply given_take; [assumption| |exact Hg]. exists e. split; [reflexivity|assumption].
           ++ destruct Hr as (j & Hj & Hr). exists j. split; [right; exact Hj|exact Hr].
        -- exists None. split; [reflexivity|]. exists k. split; [left; reflexivity|]. split; [assumption|].
           intros d' (q' & Hq' & E' & _ & X). rewrite (names_fun _ _ _ Hq' Hq) in E'. congruence.
      * exists None. split; [reflexivity|]. exists k. split; [left; reflexivity|]. split; [assumption|].
        intros d' (q' & Hq' & E' & X & _). rewrite (names_fun _ _ _ Hq' Hq) in E'.
        exact (typed_dimension_not _ _ _ Eh E' X).
    + destruct (IH d) as (r & -> & Hr). exists r. split; [reflexivity|]. destruct r as [d'|].
      * destruct Hr as [Ha Hg]. split; [|apply given_skip; assumption].
        intros j [<-|Hj] Hd; [unfold table_el in *; clash|eauto].
      * destruct Hr as (j & Hj & Hr). exists j. split; [right; exact Hj|exact Hr].
Qed.

Lemma relation_not_bad rep b x r k : relation_written rep b x r -> In k (x_kids x) -> ~ rel_bad rep k.
Proof.
  intros [_ [Hax _] (l & Hl & Hk & _) _ _ _ _ _]. revert k. apply rel_bad_split. split; [exact Hax|]. exists l. split; assumption.
Qed.

Theorem dimension_exact rep explicit x : match parse_dimension_relationship_node_element rep explicit x with
  | Ok None => (exists o, order_written x o) /\ forall n, ~ dimension_written rep explicit x n
  | Ok (Some n) => dimension_written rep explicit x n
  | Raise e => e = ValueError /\ forall o, ~ order_written x o
  end.
Proof.
  unfold parse_dimension_relationship_node_element. pose proof (relation_exact rep true x) as Hr.
  destruct (parse_relationship_element rep true x) as [[r|]|e]; cbn [bind]; [| |exact Hr].
  - destruct (dimension_loop_exact rep explicit (x_kids x) None) as (d & -> & Hd). cbn [bind].
    assert (Ho : exists o, order_written x o) by (destruct Hr; eauto).
    destruct d as [[d|]|].
    + destruct Hd as [Ha Hg]. constructor; cbn [dr_base dr_dimension]; [exact Hr|exact Ha|].
      destruct Hg as [(c & Hc & e & [= <-] & He)|[_ E]]; [|discriminate E]. exists c. split; assumption.
    + split; [exact Ho|]. intros n [_ _ (c & Hc & Hn)]. destruct Hd as [_ [(c' & Hc' & e & E & _)|[H _]]]; [discriminate E|].
      exact (last_none _ _ _ H Hc).
    + split; [exact Ho|]. intros n [_ Ha _]. destruct Hd as (k & Hk & Ht & Hn). destruct (Ha k Hk Ht) as (d & Hd'). exact (Hn d Hd').
  - destruct Hr as (Ho & k & Hk & Hb). split; [exact Ho|]. intros n [Hw _ _]. exact (relation_not_bad _ _ _ _ _ Hw Hk Hb).
Qed.

Lemma concept_loop_exact kids : forall a n m, exists a' n' m', concept_loop a n m kids = Ok (a', n', m') /\
  given (table_el "arcrole") kids (fun c v => exists t, v = Some t /\ says c t) a a' /\
  given (table_el "arcname") kids (fun c v => exists t, v = Some t /\ names c t) n n' /\
  given (table_el "linkname") kids (fun c v => exists t, v = Some t /\ names c t) m m'.
Proof.
  induction kids as [|k kids IH]; intros a n m; cbn [concept_loop].
  - exists a, n, m. split; [reflexivity|]. split; [|split]; right; (split; [intros k []|reflexivity]).
  - ttag "arcrole"%string k.
    { destruct (IH (Some (text_of k)) n m) as (a' & n' & m' & -> & G1 & G2 & G3). exists a', n', m'. split; [reflexivity|].
      split; [eapply given_take; [assumption| |exact G1]; exists (text_of k); split; [reflexivity|apply says_text; reflexivity]|].
      split; apply given_skip; try assumption; intros Hc; unfold table_el in *; clash. }
    ttag "arcname"%string k.
    { destruct (names_ex k) as [q Hq]. pose proof (proj1 (names_iff _ _) Hq) as E. rewrite E. cbn [bind].
      destruct (IH a (Some q) m) as (a' & n' & m' & -> & G1 & G2 & G3). exists a', n', m'. split; [reflexivity|].
      split; [apply given_skip; assumption|].
      split; [eapply given_take; [assumption| |exact G2]; exists q; auto|].
      apply given_skip; try assumption; intros Hc; unfold table_el in *; clash. }
    ttag "linkname"%string k.
    { destruct (names_ex k) as [q Hq]. pose proof (proj1 (names_iff _ _) Hq) as E. rewrite E. cbn [bind].
      destruct (IH a n (Some q)) as (a' & n' & m' & -> & G1 & G2 & G3). exists a', n', m'. split; [reflexivity|].
      split; [apply given_skip; assumption|]. split; [apply given_skip; assumption|].
      eapply given_take; [assumption| |exact G3]; exists q; auto. }
    destruct (IH a n m) as (a' & n' & m' & -> & G1 & G2 & G3). exists a', n', m'. split; [reflexivity|].
    split; [|split]; apply given_skip; assumption.
Qed.

Lemma given_some (P : xml -> Prop) {A} kids (reads : xml -> A -> Prop) v :
  given P kids (fun c v => exists t, v = Some t /\ reads c t) None (Some v) <-> exists c, last_in P kids c /\ reads c v.
Proof.
  split.
  - intros [(c & Hc & t & [= <-] & H)|[_ E]]; [eauto|discriminate E].
  - intros (c & Hc & H). left. exists c. split; [exact Hc|]. eauto.
Qed.
Lemma given_none (P : xml -> Prop) {A} kids (reads : xml -> A -> Prop) c :
  given P kids (fun c v => exists t, v = Some t /\ reads c t) None None -> ~ last_in P kids c.
Proof. intros [(c' & _ & t & E & _)|[H _]]; [discriminate E|]. apply last_none. exact H. Qed.

Theorem concept_exact rep x : match parse_concept_relationship_node_element rep x with
  | Ok None => (exists o, order_written x o) /\ forall n, ~ concept_written rep x n
  | Ok (Some n) => concept_written rep x n
  | Raise e => e = ValueError /\ forall o, ~ order_written x o
  end.
Proof.
  unfold parse_concept_relationship_node_element. pose proof (relation_exact rep false x) as Hr.
  destruct (parse_relationship_element rep false x) as [[r|]|e]; cbn [bind]; [| |exact Hr].
  - assert (Ho : exists o, order_written x o) by (destruct Hr; eauto).
    destruct (concept_loop_exact (x_kids x) None None None) as (a & n & m & -> & H1 & H2 & H3). cbn [bind].
    destruct a as [[|c0 a]|]; [| |split; [exact Ho|]; intros w [_ (c & Hc & _) _ _]; exact (given_none _ _ _ _ H1 Hc)].
    { split; [exact Ho|]. intros w [_ (c & Hc & Hs & Hne) _ _]. apply given_some in H1. destruct H1 as (c' & Hc' & Hs').
      rewrite (last_fun _ _ _ _ Hc' Hc) in Hs'. apply Hne. eapply says_fun; eauto. }
    destruct n as [n|]; [|split; [exact Ho|]; intros w [_ _ (c & Hc & _) _]; exact (given_none _ _ _ _ H2 Hc)].
    destruct m as [m|]; [|split; [exact Ho|]; intros w [_ _ _ (c & Hc & _)]; exact (given_none _ _ _ _ H3 Hc)].
    apply given_some in H1, H2, H3. constructor; cbn [cr_base cr_arcrole cr_arcname cr_linkname]; auto.
    destruct H1 as (c & Hc & Hs). exists c. split; [exact Hc|]. split; [exact Hs|]. discriminate.
  - destruct Hr as (Ho & k & Hk & Hb). split; [exact Ho|]. intros n [Hw _ _ _]. exact (relation_not_bad _ _ _ _ _ Hw Hk Hb).
Qed.

(** ** Aspect nodes *)

Lemma existsb_str a l : existsb (str_eqb a) l = true <-> In a l.
Proof.
  rewrite existsb_exists. split.
  - intros (y & Hy & E). destruct (str_eqb_spec a y); [subst; assumption|discriminate].
  - intros H. exists a. split; [exact H|]. destruct (str_eqb_spec a a); congruence.
Qed.

Definition unreported_in (c : xml) (v : bool) : Prop := v = true <-> attr_is c "includeUnreportedValue" "true".

Lemma aspect_loop_exact aspects kids : forall a b, exists r, aspect_loop aspects a b kids = Ok r /\
  match r with
  | None => exists k, In k kids /\ is_aspect_child k /\ forall a, ~ aspect_named aspects k a
  | Some (a', b') => (forall k, In k kids -> is_aspect_child k -> exists a, aspect_named aspects k a) /\
      given is_aspect_child kids (fun c v => exists n, v = Some n /\ aspect_named aspects c n) a a' /\
      given (table_el "dimensionAspect") kids unreported_in b b'
  end.
Proof.
  induction kids as [|k kids IH]; intros a b; cbn [aspect_loop].
  - exists (Some (a, b)). split; [reflexivity|]. split; [intros k []|].
    split; right; (split; [intros k []|reflexivity]).
  - assert (G : forall n, is_aspect_child k -> aspect_named aspects k n -> ~ table_el "dimensionAspect" k ->
      exists r, aspect_loop aspects (Some n) b kids = Ok r /\
      match r with
      | None => exists k', In k' (k :: kids) /\ is_aspect_child k' /\ forall a, ~ aspect_named aspects k' a
      | Some (a', b') => (forall k', In k' (k :: kids) -> is_aspect_child k' -> exists a, aspect_named aspects k' a) /\
          given is_aspect_child (k :: kids) (fun c v => exists n, v = Some n /\ aspect_named aspects c n) a a' /\
          given (table_el "dimensionAspect") (k :: kids) unreported_in b b'
      end).
    { intros n Hk Hn Hd. destruct (IH (Some n) b) as (r & -> & Hr). exists r. split; [reflexivity|]. destruct r as [[a' b']|].
      - destruct Hr as (H1 & H2 & H3). split; [intros j [<-|Hj] Ha; eauto|].
        split; [eapply given_take; [assumption| |exact H2]; exists n; split; [reflexivity|assumption]|].
        apply given_skip; assumption.
      - destruct Hr as (j & Hj & Hr). exists j. split; [right; exact Hj|exact Hr]. }
    ttag "conceptAspect"%string k.
    { apply G; [left; assumption|apply named_concept; assumption|]. intros Hc. unfold table_el in *. clash. }
    ttag "entityIdentifierAspect"%string k.
    { apply G; [right; left; assumption|apply named_entity; assumption|]. intros Hc. unfold table_el in *. clash. }
    ttag "periodAspect"%string k.
    { apply G; [do 2 right; left; assumption|apply named_period; assumption|]. intros Hc. unfold table_el in *. clash. }
    ttag "unitAspect"%string k.
    { apply G; [do 3 right; left; assumption|apply named_unit; assumption|]. intros Hc. unfold table_el in *. clash. }
    ttag "dimensionAspect"%string k.
    { assert (Hk : is_aspect_child k) by (do 4 right; assumption).
      destruct (names_ex k) as [q Hq]. pose proof (proj1 (names_iff _ _) Hq) as E. rewrite E. cbn [bind]. clear E.
      destruct (existsb (str_eqb (prefix_local_notation q)) aspects) eqn:Ex; cbn [negb].
      - apply existsb_str in Ex.
        assert (Hn : aspect_named aspects k (prefix_local_notation q)) by (apply named_dimension; assumption).
        destruct (IH (Some (prefix_local_notation q)) (str_eqb (attr_or k (u "includeUnreportedValue") (u "false")) (u "true"))) as (r & -> & Hr).
        exists r. split; [reflexivity|]. destruct r as [[a' b']|].
        + destruct Hr as (H1' & H2' & H3'). split; [intros j [<-|Hj] Ha; eauto|].
          split; [eapply given_take; [assumption| |exact H2']; eexists; split; [reflexivity|assumption]|].
          eapply given_take; [assumption| |exact H3']. exact (flag_exact k (u "includeUnreportedValue")).
        + destruct Hr as (j & Hj & Hr). exists j. split; [right; exact Hj|exact Hr].
      - exists None. split; [reflexivity|]. exists k. split; [left; reflexivity|]. split; [exact Hk|].
        intros a0 Ha. destruct Ha as [| | | |q' _ Hq' Hin]; unfold table_el in *; try clash.
        rewrite (names_fun _ _ _ Hq' Hq) in Hin. apply existsb_str in Hin.
        unfold prefix_local_notation in Ex. congruence. }
    assert (Nk : ~ is_aspect_child k) by (unfold is_aspect_child; tauto).
    destruct (IH a b) as (r & -> & Hr). exists r. split; [reflexivity|]. destruct r as [[a' b']|].
    + destruct Hr as (H1' & H2' & H3'). split; [intros j [<-|Hj] Ha; [contradiction|eauto]|].
      split; apply given_skip; assumption.
    + destruct Hr as (j & Hj & Hr). exists j. split; [right; exact Hj|exact Hr].
Qed.

Theorem aspect_exact aspects x : match parse_aspect_node_element aspects x with
  | Ok None => forall n, ~ aspect_written aspects x n
  | Ok (Some n) => aspect_written aspects x n
  | Raise _ => False
  end.
Proof.
  unfold parse_aspect_node_element. destruct (aspect_loop_exact aspects (x_kids x) None false) as (r & -> & Hr). cbn [bind].
  destruct r as [[[a|] b]|].
  - destruct Hr as (H1 & H2 & H3). constructor; cbn [an_aspect an_unreported an_id an_label].
    + exact H1.
    + apply given_some in H2. exact H2.
    + destruct H3 as [(c & Hc & Hu)|[Hn ->]].
      * split; [intros Hb; exists c; split; [exact Hc|apply Hu; exact Hb]|].
        intros (c' & Hc' & Ha). apply Hu. rewrite (last_fun _ _ _ _ Hc Hc'). exact Ha.
      * split; [discriminate|]. intros (c & Hc & _). destruct (last_none _ _ _ Hn Hc).
    + reflexivity.
    + apply label_exact.
  - destruct Hr as (_ & H2 & _). intros n [_ (c & Hc & _) _ _ _]. exact (given_none _ _ _ _ H2 Hc).
  - intros n [H _ _ _ _]. destruct Hr as (k & Hk & Ha & Hn). destruct (H k Hk Ha) as (a & Hna). exact (Hn a Hna).
Qed.

(** ** Filters *)

Ltac ctag n x := destruct (concept_tag n x) as [[-> ?]|[-> ?]].
Ltac dtag n x := destruct (dimension_tag n x) as [[-> ?]|[-> ?]].
Ltac ptag n x := destruct (period_tag n x) as [[-> ?]|[-> ?]].

Local Notation expression_text := (u "{http://xbrl.org/2014/filter/concept}qnameExpression").
Lemma expression_exact x :
  opt_eqb str_eqb (x_text x) (Some (filter_prefix (u "concept") (u "qnameExpression"))) = true <-> x_text x = Some expression_text.
Proof.
  assert (E : filter_prefix (u "concept") (u "qnameExpression") = expression_text) by (vm_compute; reflexivity).
  rewrite E. destruct (x_text x) as [t|]; cbn [opt_eqb]; [|split; discriminate].
  destruct (str_eqb_spec t expression_text) as [->|Hn]; split; congruence.
Qed.

(** What a [concept] element of a name filter gives. *)
Definition cf_name (k : xml) (q : qname) : Prop := exists g, x_kids k = [g] /\ filter_el "concept" "qname" g /\ names g q.
Definition cf_expr (k : xml) (t : str) : Prop := exists g, x_kids k = [g] /\ ~ filter_el "concept" "qname" g /\ x_text g = Some t.
Definition cf_good (k : xml) : Prop := filter_el "concept" "concept" k /\
  (x_kids k = [] \/ exists g, x_kids k = [g] /\ (filter_el "concept" "qname" g \/ x_text g = Some expression_text)).

Lemma cf_name_fun k q q' : cf_name k q -> cf_name k q' -> q = q'.
Proof. intros (g & E & _ & H) (g' & E' & _ & H'). rewrite E in E'. injection E' as <-. eapply names_fun; eauto. Qed.
Lemma cf_expr_fun k q q' : cf_expr k q -> cf_expr k q' -> q = q'.
Proof. intros (g & E & _ & H) (g' & E' & _ & H'). rewrite E in E'. injection E' as <-. congruence. Qed.

Lemma concept_filter_exact kids : forall names exprs, exists r, concept_filter_loop names exprs kids = Ok r /\
  match r with
  | None => exists k, In k kids /\ ~ cf_good k
  | Some (names', exprs') => (forall k, In k kids -> cf_good k) /\
      exists l m, listed cf_name kids l /\ listed cf_expr kids m /\ names' = names ++ l /\ exprs' = exprs ++ m
  end.
Proof.
  induction kids as [|k kids IH]; intros nn ee; cbn [concept_filter_loop].
  - exists (Some (nn, ee)). split; [reflexivity|]. split; [intros k []|]. exists [], []. rewrite !app_nil_r.
    repeat split; constructor.
  - assert (B : ~ cf_good k -> exists r, @Ok (option (list qname * list str)) None = Ok r /\
      match r with
      | None => exists k', In k' (k :: kids) /\ ~ cf_good k'
      | Some (names', exprs') => (forall k', In k' (k :: kids) -> cf_good k') /\
          exists l m, listed cf_name (k :: kids) l /\ listed cf_expr (k :: kids) m /\ names' = nn ++ l /\ exprs' = ee ++ m
      end).
    { intros Hb. exists None. split; [reflexivity|]. exists k. split; [left; reflexivity|exact Hb]. }
    assert (G : forall l0 m0, cf_good k -> listed cf_name [k] l0 -> listed cf_expr [k] m0 ->
      exists r, concept_filter_loop (nn ++ l0) (ee ++ m0) kids = Ok r /\
      match r with
      | None => exists k', In k' (k :: kids) /\ ~ cf_good k'
      | Some (names', exprs') => (forall k', In k' (k :: kids) -> cf_good k') /\
          exists l m, listed cf_name (k :: kids) l /\ listed cf_expr (k :: kids) m /\ names' = nn ++ l /\ exprs' = ee ++ m
      end).
    { intros l0 m0 Hg Hl Hm. destruct (IH (nn ++ l0) (ee ++ m0)) as (r & -> & Hr). exists r. split; [reflexivity|].
      destruct r as [[n' e']|].
      - destruct Hr as (Ha & l & m & H1 & H2 & -> & ->). split; [intros j [<-|Hj]; auto|].
        exists (l0 ++ l), (m0 ++ m). rewrite !app_assoc. split; [exact (listed_app _ [k] kids l0 l Hl H1)|].
        split; [exact (listed_app _ [k] kids m0 m Hm H2)|]. split; reflexivity.
      - destruct Hr as (j & Hj & Hr). exists j. split; [right; exact Hj|exact Hr]. }
    ctag "concept"%string k; cbn [negb]; [|apply B; intros [Hc _]; unfold filter_el in *; clash].
    destruct (x_kids k) as [|g [|g' gs]] eqn:Ek; cbn [length].
    + change (1 <? 0) with false. cbn [concept_names bind].
      specialize (G [] []). rewrite !app_nil_r in G. apply G.
      * split; [assumption|left; assumption].
      * apply listed_silent; [|constructor]. intros q (g & E & _). congruence.
      * apply listed_silent; [|constructor]. intros q (g & E & _). congruence.
    + change (1 <? 1) with false. cbn [concept_names].
      ctag "qname"%string g.
      * destruct (names_ex g) as [q Hq]. pose proof (proj1 (names_iff _ _) Hq) as E. rewrite E. cbn [bind].
        specialize (G [q] []). rewrite app_nil_r in G. apply G.
        -- split; [assumption|]. right. exists g. auto.
        -- constructor; [|constructor]. exists g. auto.
        -- apply listed_silent; [|constructor]. intros t (g' & E' & Hn & _). rewrite Ek in E'. injection E' as <-. auto.
      * destruct (opt_eqb str_eqb (x_text g) (Some (filter_prefix (u "concept") (u "qnameExpression")))) eqn:Ex.
        -- apply expression_exact in Ex. cbn [bind]. assert (Et : text_of g = expression_text) by (unfold text_of; rewrite Ex; reflexivity).
           rewrite Et. specialize (G [] [expression_text]). rewrite app_nil_r in G. apply G.
           ++ split; [assumption|]. right. exists g. auto.
           ++ apply listed_silent; [|constructor]. intros q (g' & E' & Hn & _). rewrite Ek in E'. injection E' as <-. auto.
           ++ constructor; [|constructor]. exists g. auto.
        -- cbn [bind]. apply B. intros [_ [E|(g' & E & [Hq|Ht])]]; rewrite Ek in E; [discriminate E| |]; injection E as <-; [auto|].
           apply expression_exact in Ht. congruence.
    + change (1 <? S (S (length gs))) with true. apply B. intros [_ [E|(g0 & E & _)]]; rewrite Ek in E; discriminate E.
Qed.

Lemma dimension_element_none x : parse_dimension_element x = Ok None.
Proof. unfold parse_dimension_element. destruct (x_kids x); reflexivity. Qed.

Lemma explicit_loop_none kids : explicit_loop None kids = Ok None.
Proof.
  induction kids as [|k kids IH]; cbn [explicit_loop]; [reflexivity|].
  destruct (tag_is _ k); [rewrite dimension_element_none; reflexivity|]. destruct (tag_is _ k); [reflexivity|exact IH].
Qed.

Ltac kill := match goal with H : filter_kind_of _ _ |- _ => destruct H; unfold filter_el in *; try clash end.

Theorem filter_exact x : exists r, parse_filter_element x = Ok r /\
  forall f, r = Some f <-> filter_kind_of x (tf_kind f) /\ tf_label f = attr x (u "label") /\ tf_id f = attr x (u "id").
Proof.
  assert (N : (forall k, ~ filter_kind_of x k) -> exists r, @Ok (option table_filter) None = Ok r /\
     forall f, r = Some f <-> filter_kind_of x (tf_kind f) /\ tf_label f = attr x (u "label") /\ tf_id f = attr x (u "id")).
  { intros H. exists None. split; [reflexivity|]. intros f. split; [discriminate|]. intros [Hk _]. destruct (H _ Hk). }
  assert (S : forall k, filter_kind_of x k -> (forall k', filter_kind_of x k' -> k' = k) ->
     exists r, Ok (Some (TFilter k (attr x (u "label")) (attr x (u "id")))) = Ok r /\
     forall f, r = Some f <-> filter_kind_of x (tf_kind f) /\ tf_label f = attr x (u "label") /\ tf_id f = attr x (u "id")).
  { intros k Hk Hu. eexists. split; [reflexivity|]. intros f. split.
    - intros [= <-]. auto.
    - intros (Hf & E1 & E2). apply Hu in Hf. destruct f; cbn in *. congruence. }
  assert (D : forall b, (forall k, filter_kind_of x k -> exists d, attr x (u "date") = Some d /\ d <> [] /\ k = KDateTime b d (attr x (u "time"))) ->
     (forall d, attr x (u "date") = Some d -> d <> [] -> filter_kind_of x (KDateTime b d (attr x (u "time")))) ->
     exists r, Ok (parse_period_date_time_filter_element x b) = Ok r /\
     forall f, r = Some f <-> filter_kind_of x (tf_kind f) /\ tf_label f = attr x (u "label") /\ tf_id f = attr x (u "id")).
  { intros b H1 H2. unfold parse_period_date_time_filter_element.
    destruct (attr x (u "date")) as [[|c d]|].
    - apply N. intros k Hk. destruct (H1 _ Hk) as (d & [= <-] & Hne & _). auto.
    - apply S; [apply H2; [reflexivity|discriminate]|]. intros k' Hk. destruct (H1 _ Hk) as (d' & [= <-] & _ & ->). reflexivity.
    - apply N. intros k Hk. destruct (H1 _ Hk) as (d & E & _). discriminate E. }
  unfold parse_filter_element.
  ctag "conceptName"%string x.
  { unfold parse_concept_name_filter_element. destruct (concept_filter_exact (x_kids x) [] []) as (r & -> & Hr). cbn [bind].
    destruct r as [[l m]|].
    - destruct Hr as (Hg & l' & m' & Hl & Hm & -> & ->). cbn [app]. apply S.
      + unfold cf_good, cf_name, cf_expr in Hg, Hl, Hm. apply fk_names; [assumption|exact Hg|exact Hl|exact Hm].
      + intros k' Hk'. kill. f_equal; [eapply (listed_fun cf_name)|eapply (listed_fun cf_expr)]; eauto using cf_name_fun, cf_expr_fun.
    - apply N. intros k' Hk'. destruct Hr as (k & Hk & Hb). kill. apply Hb.
      match goal with H : forall k, In k (x_kids x) -> _ |- _ => exact (H k Hk) end. }
  dtag "explicitDimension"%string x.
  { unfold parse_explicit_dimension_filter_element. rewrite explicit_loop_none. cbn [bind]. apply N. intros k Hk. kill. }
  dtag "typedDimension"%string x.
  { unfold parse_typed_dimension_filter_element.
    assert (E : forall c, (do! d <- parse_dimension_element c; Ok match d with
         | None => None
         | Some d => Some (TFilter (KTypedDimension d (attr x (u "test"))) (attr x (u "label")) (attr x (u "id")))
         end) = @Ok (option table_filter) None) by (intros c; rewrite dimension_element_none; reflexivity).
    destruct (find _ (x_kids x)) as [c|]; [rewrite E|]; apply N; intros k Hk; kill. }
  ptag "period"%string x.
  { unfold parse_period_filter_element. destruct (attr x (u "test")) as [t|] eqn:Et.
    - apply S; [apply fk_period; assumption|]. intros k' Hk'. kill. congruence.
    - apply N. intros k' Hk'. kill. congruence. }
  ptag "periodStart"%string x. { apply D; [intros k Hk; kill; eauto|intros d Hd Hne; apply fk_start; assumption]. }
  ptag "periodEnd"%string x. { apply D; [intros k Hk; kill; eauto|intros d Hd Hne; apply fk_end; assumption]. }
  ptag "periodInstant"%string x. { apply D; [intros k Hk; kill; eauto|intros d Hd Hne; apply fk_instant; assumption]. }
  ptag "forever"%string x. { apply S; [apply fk_forever; assumption|]. intros k' Hk'. kill. reflexivity. }
  apply N. intros k Hk. kill.
Qed.

(** ** Members of dimension filters *)

Lemma member_axis_exact x : match member_axis_of (text_of x) with
  | Some a => member_axis_written x a
  | None => forall a, ~ member_axis_written x a
  end.
Proof.
  unfold member_axis_of, member_axis_written.
  destruct (str_eqb_spec (text_of x) (u "child")) as [E|N1]; [apply says_text; auto|].
  destruct (str_eqb_spec (text_of x) (u "child-or-self")) as [E|N2]; [apply says_text; auto|].
  destruct (str_eqb_spec (text_of x) (u "descendant")) as [E|N3]; [apply says_text; auto|].
  destruct (str_eqb_spec (text_of x) (u "descendant-or-self")) as [E|N4]; [apply says_text; auto|].
  destruct (str_eqb_spec (text_of x) []) as [E|N5]; [apply says_text; auto|].
  intros a H. apply says_text in H. destruct a; congruence.
Qed.

Lemma member_loop_exact kids : forall v l a ax, exists r, member_loop v l a ax kids = Ok r /\
  match r with
  | None => exists k, In k kids /\ filter_el "dimension" "axis" k /\ forall a, ~ member_axis_written k a
  | Some (v', l', a', ax') =>
      (forall k, In k kids -> filter_el "dimension" "axis" k -> exists a, member_axis_written k a) /\
      given is_member_value kids (fun c w => exists t, w = Some t /\ member_value c t) v v' /\
      given (filter_el "dimension" "linkrole") kids (fun c w => exists t, w = Some t /\ says c t) l l' /\
      given (filter_el "dimension" "arcrole") kids (fun c w => exists t, w = Some t /\ says c t) a a' /\
      given (filter_el "dimension" "axis") kids member_axis_written ax ax'
  end.
Proof.
  induction kids as [|k kids IH]; intros v l a ax; cbn [member_loop].
  - exists (Some (v, l, a, ax)). split; [reflexivity|]. split; [intros k []|].
    split; [|split; [|split]]; right; (split; [intros k []|reflexivity]).
  - assert (G : forall v1 l1 a1 ax1,
      (filter_el "dimension" "axis" k -> exists a, member_axis_written k a) ->
      (forall w, given is_member_value kids (fun c w => exists t, w = Some t /\ member_value c t) v1 w -> given is_member_value (k :: kids) (fun c w => exists t, w = Some t /\ member_value c t) v w) ->
      (forall w, given (filter_el "dimension" "linkrole") kids (fun c w => exists t, w = Some t /\ says c t) l1 w -> given (filter_el "dimension" "linkrole") (k :: kids) (fun c w => exists t, w = Some t /\ says c t) l w) ->
      (forall w, given (filter_el "dimension" "arcrole") kids (fun c w => exists t, w = Some t /\ says c t) a1 w -> given (filter_el "dimension" "arcrole") (k :: kids) (fun c w => exists t, w = Some t /\ says c t) a w) ->
      (forall w, given (filter_el "dimension" "axis") kids member_axis_written ax1 w -> given (filter_el "dimension" "axis") (k :: kids) member_axis_written ax w) ->
      exists r, member_loop v1 l1 a1 ax1 kids = Ok r /\
      match r with
      | None => exists k', In k' (k :: kids) /\ filter_el "dimension" "axis" k' /\ forall a, ~ member_axis_written k' a
      | Some (v', l', a', ax') =>
          (forall k', In k' (k :: kids) -> filter_el "dimension" "axis" k' -> exists a, member_axis_written k' a) /\
          given is_member_value (k :: kids) (fun c w => exists t, w = Some t /\ member_value c t) v v' /\
          given (filter_el "dimension" "linkrole") (k :: kids) (fun c w => exists t, w = Some t /\ says c t) l l' /\
          given (filter_el "dimension" "arcrole") (k :: kids) (fun c w => exists t, w = Some t /\ says c t) a a' /\
          given (filter_el "dimension" "axis") (k :: kids) member_axis_written ax ax'
      end).
    { intros v1 l1 a1 ax1 A0 A1 A2 A3 A4. destruct (IH v1 l1 a1 ax1) as (r & -> & Hr). exists r. split; [reflexivity|].
      destruct r as [[[[v' l'] a'] ax']|].
      - destruct Hr as (B0 & B1 & B2 & B3 & B4). split; [intros j [<-|Hj]; eauto|]. auto.
      - destruct Hr as (j & Hj & Hr). exists j. split; [right; exact Hj|exact Hr]. }
    Ltac skips := match goal with
      | |- forall w, given _ _ _ _ _ -> given _ _ _ _ _ => intros w; apply given_skip; unfold is_member_value, filter_el in *;
          first [assumption | intros Hcl; repeat destruct Hcl as [Hcl|Hcl]; clash]
      | |- filter_el _ _ _ -> _ => intros Hcl; unfold filter_el in *; clash
      end.
    dtag "qname"%string k.
    { destruct (names_ex k) as [q Hq]. pose proof (proj1 (names_iff _ _) Hq) as E. rewrite E. cbn [bind].
      apply G; try skips. intros w. apply given_take; [left; assumption|]. exists (Name q). split; [reflexivity|].
      left. split; [left; assumption|]. exists q. split; [reflexivity|exact Hq]. }
    dtag "qnameExpression"%string k.
    { apply G; try skips. intros w. apply given_take; [do 2 right; assumption|]. exists (Expr (text_of k)). split; [reflexivity|].
      right. split; [assumption|]. exists (text_of k). split; [reflexivity|]. apply says_text. reflexivity. }
    dtag "variable"%string k.
    { destruct (names_ex k) as [q Hq]. pose proof (proj1 (names_iff _ _) Hq) as E. rewrite E. cbn [bind].
      apply G; try skips. intros w. apply given_take; [right; left; assumption|]. exists (Name q). split; [reflexivity|].
      left. split; [right; assumption|]. exists q. split; [reflexivity|exact Hq]. }
    assert (Nv : ~ is_member_value k) by (unfold is_member_value; tauto).
    dtag "linkrole"%string k.
    { apply G; try skips. intros w. apply given_take; [assumption|]. exists (text_of k). split; [reflexivity|].
      apply says_text. reflexivity. }
    dtag "arcrole"%string k.
    { apply G; try skips. intros w. apply given_take; [assumption|]. exists (text_of k). split; [reflexivity|].
      apply says_text. reflexivity. }
    dtag "axis"%string k.
    { pose proof (member_axis_exact k) as Hx. destruct (member_axis_of (text_of k)) as [ax1|].
      - apply G; try skips; [eauto|]. intros w. apply given_take; assumption.
      - exists None. split; [reflexivity|]. exists k. split; [left; reflexivity|]. split; assumption. }
    apply G; try skips.
Qed.

Theorem member_exact x : match parse_member_element x with
  | Ok None => forall m, ~ member_written x m
  | Ok (Some m) => member_written x m
  | Raise _ => False
  end.
Proof.
  unfold parse_member_element. destruct (member_loop_exact (x_kids x) None None None MUnspecified) as (r & -> & Hr). cbn [bind].
  destruct r as [[[[[v|] l] a] ax]|].
  - destruct Hr as (B0 & B1 & B2 & B3 & B4). constructor; cbn [fm_member fm_linkrole fm_arcrole fm_axis].
    + apply given_some in B1. exact B1.
    + destruct B2 as [(c & Hc & t & -> & Hs)|[Hn ->]]; [left; exists c, t; auto|right; auto].
    + destruct B3 as [(c & Hc & t & -> & Hs)|[Hn ->]]; [left; exists c, t; auto|right; auto].
    + exact B0.
    + destruct B4 as [(c & Hc & Hs)|[Hn ->]]; [left; exists c; auto|right; auto].
  - destruct Hr as (_ & B1 & _). intros m [(c & Hc & _) _ _ _ _]. exact (given_none _ _ _ _ B1 Hc).
  - destruct Hr as (k & Hk & Hax & Hn). intros m [_ _ _ H _]. destruct (H k Hk Hax) as (a & Ha). exact (Hn a Ha).
Qed.

(** ** The extended link *)

Lemma u_from : u "{http://www.w3.org/1999/xlink}from" = xlink_prefix (u "from").
Proof. vm_compute. reflexivity. Qed.
Lemma u_to : u "{http://www.w3.org/1999/xlink}to" = xlink_prefix (u "to").
Proof. vm_compute. reflexivity. Qed.

Lemma arc_exact x : match arc_of x with Some a => arc_written x a | None => forall a, ~ arc_written x a end.
Proof.
  unfold arc_of, read_arc, arc_written. rewrite u_from, u_to.
  ttag "tableBreakdownArc"%string x. { cbn [a_kind a_from a_to a_axis a_order]. auto 10. }
  ttag "breakdownTreeArc"%string x. { cbn [a_kind a_from a_to a_axis a_order]. auto 10. }
  ttag "definitionNodeSubtreeArc"%string x. { cbn [a_kind a_from a_to a_axis a_order]. auto 10. }
  intros a [[[_ Hc]|[[_ Hc]|[_ Hc]]] _]; auto.
Qed.

Definition is_arc (x : xml) : Prop :=
  table_el "tableBreakdownArc" x \/ table_el "breakdownTreeArc" x \/ table_el "definitionNodeSubtreeArc" x.

Lemma el_tag n x : el n x -> x_tag x <> None.
Proof. intros [H]. congruence. Qed.

Lemma stops_none x n e : table_el n x -> ~ has_order_attr x -> ~ stops x e.
Proof. intros Ht Hn [[_ H]|(_ & H & _)]; [exact (el_tag _ _ Ht H)|auto]. Qed.
Lemma stops_order x n e o : table_el n x -> order_written x o -> ~ stops x e.
Proof. intros Ht Hn [[_ H]|(_ & _ & H)]; [exact (el_tag _ _ Ht H)|exact (H _ Hn)]. Qed.

Lemma filter_brace x k : filter_kind_of x k ->
  exists t, x_tag x = Some t /\ starts_with (u "http://xbrl.org/2008/filter") t = false.
Proof. intros Hk. destruct Hk; match goal with H : filter_el _ _ _ |- _ => destruct H as [E] end; (eexists; split; [exact E|]); vm_compute; reflexivity. Qed.

Theorem resource_exact rep explicit aspects role x :
  match parse_resource rep explicit aspects role x with
  | Raise e => stops x e
  | Ok (ENode r d) => (forall e, ~ stops x e) /\ written rep explicit aspects role x (IResource r, Some d)
  | Ok (EFilter _) => False
  | Ok ENothing => (forall e, ~ stops x e) /\ forall r d, ~ written rep explicit aspects role x (IResource r, d)
  end.
Proof.
  unfold parse_resource. cbv zeta.
  ttag "table"%string x.
  { pose proof (order_exact x) as Ho. destruct (parse_parent_child_order x) as [o|e]; cbn [bind].
    - split; [intros e; eapply stops_order; eauto|]. rewrite label_exact. apply w_table; assumption.
    - destruct Ho as [-> Ho]. right. split; [reflexivity|]. split; [left; assumption|exact Ho]. }
  ttag "breakdown"%string x.
  { pose proof (order_exact x) as Ho. destruct (parse_parent_child_order x) as [o|e]; cbn [bind].
    - split; [intros e; eapply stops_order; eauto|]. rewrite label_exact. apply w_breakdown; assumption.
    - destruct Ho as [-> Ho]. right. split; [reflexivity|]. split; [right; left; assumption|exact Ho]. }
  ttag "ruleNode"%string x.
  { pose proof (rule_node_exact x) as Hn. destruct (parse_rule_node_element x) as [n|e]; cbn [bind].
    - split; [intros e; eapply stops_order; [eassumption|destruct Hn; eassumption]|].
      rewrite (nw_label _ _ Hn). apply w_rule; assumption.
    - destruct Hn as [-> Ho]. right. split; [reflexivity|]. split; [do 2 right; left; assumption|exact Ho]. }
  assert (R : (table_el "conceptRelationshipNode" x \/ table_el "dimensionRelationshipNode" x) ->
    match (do! n <- parse_dimension_relationship_node_element rep explicit x;
           Ok match n with
              | Some n => ENode (Resource CRelationship (rl_order (dr_base n)) (rl_label (dr_base n))) (DRelationship n)
              | None => ENothing
              end) with
    | Raise e => stops x e
    | Ok (ENode r d) => (forall e, ~ stops x e) /\ written rep explicit aspects role x (IResource r, Some d)
    | Ok (EFilter _) => False
    | Ok ENothing => (forall e, ~ stops x e) /\ forall r d, ~ written rep explicit aspects role x (IResource r, d)
    end).
  { intros Ht. assert (Ht' : exists n, table_el n x) by (destruct Ht; eauto). destruct Ht' as (tn & Htn).
    pose proof (dimension_exact rep explicit x) as Hd.
    destruct (parse_dimension_relationship_node_element rep explicit x) as [[n|]|e]; cbn [bind].
    - split; [intros e; eapply stops_order; [exact Htn|destruct Hd as [[Ho] _ _]; exact Ho]|].
      destruct Hd as [Hb Hall Hdim]. pose proof (rw_label _ _ _ _ Hb) as Hl. rewrite Hl. fold (xlink_label x).
      apply w_relationship; [destruct Ht; auto|]. constructor; assumption.
    - destruct Hd as [(o & Ho) Hn]. split; [intros e; eapply stops_order; [exact Htn|exact Ho]|].
      intros r d Hw. inversion Hw; subst; unfold table_el in *; try (destruct Ht; clash).
      match goal with H : dimension_written _ _ _ _ |- _ => exact (Hn _ H) end.
    - destruct Hd as [-> Ho]. right. split; [reflexivity|]. split; [|exact Ho]. do 3 right. exact Ht. }
  ttag "conceptRelationshipNode"%string x. { apply R. auto. }
  ttag "dimensionRelationshipNode"%string x. { apply R. auto. }
  clear R.
  assert (Nh : ~ has_order_attr x) by (unfold has_order_attr; tauto).
  ttag "aspectNode"%string x.
  { pose proof (aspect_exact aspects x) as Ha. destruct (parse_aspect_node_element aspects x) as [[n|]|e]; cbn [bind].
    - split; [intros e; eapply stops_none; eauto|]. pose proof (aw_label _ _ _ Ha) as Hl. rewrite Hl. fold (xlink_label x).
      apply w_aspect; assumption.
    - split; [intros e; eapply stops_none; eauto|]. intros r d Hw. inversion Hw; subst; unfold table_el in *; try clash.
      + match goal with H : _ \/ _ |- _ => destruct H; clash end.
      + match goal with H : aspect_written _ _ _ |- _ => exact (Ha _ H) end.
    - destruct Ha. }
  assert (Nw : forall r d, ~ written rep explicit aspects role x (IResource r, d)).
  { intros r d Hw. inversion Hw; subst; unfold table_el in *; try clash.
    match goal with H : _ \/ _ |- _ => destruct H; clash end. }
  destruct (x_tag x) as [tag|] eqn:Et; [|left; split; [reflexivity|exact Et]].
  assert (Ns : forall e, ~ stops x e) by (intros e [[_ H']|(_ & H' & _)]; [congruence|auto]).
  destruct (starts_with (u "http://xbrl.org/2008/filter") tag) eqn:Es; [|auto].
  destruct (filter_exact x) as (r & -> & Hr). cbn [bind]. destruct r as [f|]; [|auto].
  destruct (proj1 (Hr f) eq_refl) as [Hk _]. apply filter_brace in Hk. destruct Hk as (t & Hk & Hn).
  assert (tag = t) by congruence. subst t. congruence.
Qed.

Theorem children_exact rep explicit aspects role kids : forall filters,
  match read_children rep explicit aspects role filters kids with
  | Raise e => exists pre k post, kids = pre ++ k :: post /\ stops k e /\ forall j e', In j pre -> ~ stops j e'
  | Ok (l, fs) => fs = filters /\ (forall k e, In k kids -> ~ stops k e) /\ listed (written rep explicit aspects role) kids l
  end.
Proof.
  induction kids as [|k kids IH]; intros filters; cbn [read_children].
  - split; [reflexivity|]. split; [intros k e []|constructor].
  - pose proof (resource_exact rep explicit aspects role k) as Hk.
    destruct (parse_resource rep explicit aspects role k) as [en|e]; cbn [bind].
    2: { exists [], k, kids. split; [reflexivity|]. split; [exact Hk|]. intros j e' []. }
    destruct en as [r d|f|]; [|destruct Hk|]; destruct Hk as [Hs Hk]; specialize (IH filters);
      destruct (read_children rep explicit aspects role filters kids) as [[l fs]|e]; cbn [bind].
    2,4: destruct IH as (pre & j & post & -> & Hj & Hp); exists (k :: pre), j, post; split; [reflexivity|]; split; [exact Hj|];
         intros j' e' [<-|Hin]; [apply Hs|apply Hp; exact Hin].
    + destruct IH as (-> & Hn & Hl). split; [reflexivity|]. split; [intros j e [<-|Hj]; [apply Hs|apply Hn; exact Hj]|].
      constructor; assumption.
    + destruct IH as (-> & Hn & Hl). split; [reflexivity|]. split; [intros j e [<-|Hj]; [apply Hs|apply Hn; exact Hj]|].
      pose proof (arc_exact k) as Ha. destruct (arc_of k) as [a|].
      * constructor; [apply w_arc; exact Ha|exact Hl].
      * apply listed_silent; [|exact Hl]. intros [[r|a] d] Hw; [exact (Hk _ _ Hw)|]. inversion Hw; subst. eapply Ha; eauto.
Qed.

Lemma attach_none L c kids : flat_map (attach L c []) kids = [].
Proof.
  induction kids as [|k kids IH]; cbn [flat_map]; [reflexivity|]. rewrite IH, app_nil_r. unfold attach.
  assert (E : match attr k (xlink_prefix (u "to")) with
                   | None | Some [] => None
                   | Some l => dict_get str_eqb (@nil (str * table_filter)) l
                   end = None) by (destruct (attr k (xlink_prefix (u "to"))) as [[|c0 l]|]; reflexivity).
  rewrite E. destruct (tag_is _ k).
  - destruct (lookup _ _); reflexivity.
  - destruct (tag_is _ k); [|reflexivity]. destruct (lookup _ _); reflexivity.
Qed.
