(** Proofs about parsing the facts of inline documents (C64-C67). *)
From Verif Require Import Base Regex PyNum NumModel DateModel QNameModel QNameProofs ErrBase ErrModel
  CtxModel CtxSpec CtxProofs CtxParseProofs CtxExactProofs InlineModel InlineSpec.

Lemma insert_create (st : repo xml) code ctx kw st' :
  insert st code ctx kw = Ok st' -> exists e, create code ctx kw = Ok e /\ st' = st ++ [e].
Proof.
  unfold insert. destruct (create code ctx kw) as [e|]; cbn; [|discriminate].
  intros [= <-]. exists e. auto.
Qed.

Local Opaque u insert create.

Lemma reported_app code x es es' : reported code x es \/ reported code x es' -> reported code x (es ++ es').
Proof.
  intros [(kw & e & Hin & H)|(kw & e & Hin & H)]; exists kw, e; (split; [apply in_or_app|exact H]); auto.
Qed.
Lemma reported_one code x kw e : create code (Some x) kw = Ok e -> reported code x [e].
Proof. intros H. exists kw, e. split; [left; reflexivity|exact H]. Qed.

(** ** Identifiers *)

(** The identifiers that are taken after an element with an optional identifier. *)
Definition take (x : xml) (taken : list str) : list str :=
  match attr x (u "id") with Some i => i :: taken | None => taken end.
Definition dup_reported (x : xml) (taken : list str) (es : list (error xml)) : Prop :=
  forall i, attr x (u "id") = Some i -> In i taken ->
    exists e, In e es /\ create "IXBRL_DUPLICATE_ELEMENT_ID" (Some x) [(u "id", i)] = Ok e.

Lemma mem_In i l : mem i l = true <-> In i l.
Proof.
  unfold mem. rewrite existsb_exists. split.
  - intros (y & Hy & E). apply (reflect_iff _ _ (str_eqb_spec i y)) in E. subst. exact Hy.
  - intros H. exists i. split; [exact H|]. apply (reflect_iff _ _ (str_eqb_spec i i)). reflexivity.
Qed.

Lemma dup_app x taken es es' : dup_reported x taken es -> dup_reported x taken (es ++ es').
Proof. intros H i Hi Ht. destruct (H i Hi Ht) as (e & He & Ec). exists e. split; [apply in_or_app; auto|exact Ec]. Qed.

Lemma dup_app_r x taken es es' : dup_reported x taken es' -> dup_reported x taken (es ++ es').
Proof. intros H i Hi Ht. destruct (H i Hi Ht) as (e & He & Ec). exists e. split; [apply in_or_app; auto|exact Ec]. Qed.

(** ** Steps that only add errors, under an invariant *)

Section Steps.
Variable J : state -> Prop.
Hypothesis JE : forall s es, J s -> J (State es (s_chars s) (s_aspects s) (s_facts s)).

Definition step {A} (m : M A) (Q : A -> list (error xml) -> Prop) : Prop :=
  forall s a s', J s -> m s = Ok (a, s') -> J s' /\ exists es, s_errors s' = s_errors s ++ es /\ Q a es.

Lemma step_ret {A} (a : A) (Q : A -> list (error xml) -> Prop) : Q a [] -> step (ret a) Q.
Proof. intros H s b s' Hj [= <- <-]. split; [exact Hj|]. exists []. rewrite app_nil_r. auto. Qed.

Lemma step_bind {A B} (m : M A) (f : A -> M B) P Q :
  step m P -> (forall a es, P a es -> step (f a) (fun b es' => Q b (es ++ es'))) ->
  step (let! a := m in f a) Q.
Proof.
  intros Hm Hf s b s' Hj. unfold mbind. destruct (m s) as [[a s1]|] eqn:E; [|discriminate].
  intros E'. destruct (Hm _ _ _ Hj E) as (Hj1 & es & He & Hp).
  destruct (Hf a es Hp _ _ _ Hj1 E') as (Hj2 & es' & He' & Hq).
  split; [exact Hj2|]. exists (es ++ es'). rewrite app_assoc, <- He. auto.
Qed.

Lemma step_conseq {A} (m : M A) (P Q : A -> list (error xml) -> Prop) :
  step m P -> (forall a es, P a es -> Q a es) -> step m Q.
Proof.
  intros Hm H s a s' Hj E. destruct (Hm _ _ _ Hj E) as (Hj' & es & He & Hp). split; [exact Hj'|]. eauto.
Qed.

Lemma step_lift {A} (r : res A) (Q : A -> list (error xml) -> Prop) :
  (forall a, r = Ok a -> Q a []) -> step (lift r) Q.
Proof.
  intros H s a s' Hj. unfold lift. destruct r as [b|]; [|discriminate]. intros [= <- <-].
  split; [exact Hj|]. exists []. rewrite app_nil_r. auto.
Qed.
Lemma step_lift_then {A B} (r : res A) (f : A -> M B) Q :
  (forall a, r = Ok a -> step (f a) Q) -> step (let! a := lift r in f a) Q.
Proof.
  intros H. eapply step_bind; [apply step_lift with (Q := fun a es => r = Ok a /\ es = []); auto|].
  intros a es [E ->]. apply H, E.
Qed.

Lemma step_fail {A} e Q : step (@fail A e) Q.
Proof. intros s a s' _ [=]. Qed.

Lemma step_report code x kw (Q : unit -> list (error xml) -> Prop) :
  (forall e, create code (Some x) kw = Ok e -> Q tt [e]) -> step (report code x kw) Q.
Proof.
  intros H s a s' Hj. unfold report. destruct (insert _ _ _ _) as [es|] eqn:E; [|discriminate].
  intros [= <- <-]. apply insert_create in E as (e & Ec & ->). split; [apply JE, Hj|].
  exists [e]. split; [reflexivity|]. apply H, Ec.
Qed.
Lemma step_report_then {A} code x kw (m : M A) Q :
  (forall e, create code (Some x) kw = Ok e -> step m (fun a es => Q a (e :: es))) ->
  step (let! _ := report code x kw in m) Q.
Proof.
  intros H. eapply step_bind.
  { apply step_report with (Q := fun _ es => exists e, create code (Some x) kw = Ok e /\ es = [e]); eauto. }
  intros _ es (e & Ec & ->). apply (H e Ec).
Qed.
Lemma step_report_plain code (Q : unit -> list (error xml) -> Prop) :
  (forall e, create code None [] = Ok e -> Q tt [e]) -> step (report_plain code) Q.
Proof.
  intros H s a s' Hj. unfold report_plain. destruct (insert _ _ _ _) as [es|] eqn:E; [|discriminate].
  intros [= <- <-]. apply insert_create in E as (e & Ec & ->). split; [apply JE, Hj|].
  exists [e]. split; [reflexivity|]. apply H, Ec.
Qed.

Lemma check_taken_step x taken id :
  step (check_taken x taken id) (fun _ es => In id taken ->
    exists e, In e es /\ create "IXBRL_DUPLICATE_ELEMENT_ID" (Some x) [(u "id", id)] = Ok e).
Proof.
  unfold check_taken, when. destruct (mem id taken) eqn:E.
  - apply step_report. intros e Ec _. exists e. split; [left; reflexivity|exact Ec].
  - apply step_ret. intros H. apply mem_In in H. congruence.
Qed.

(** A step that does not matter. *)
Definition quiet (m : M unit) : Prop := step m (fun _ _ => True).
Lemma quiet_report code x kw : quiet (report code x kw).
Proof. apply step_report. auto. Qed.
Lemma quiet_when b m : quiet m -> quiet (when b m).
Proof. intros H. destruct b; [exact H|apply step_ret; exact I]. Qed.
Lemma quiet_for {A} (f : A -> M unit) l : (forall a, quiet (f a)) -> quiet (for_each f l).
Proof.
  intros H. induction l as [|a l IH]; cbn.
  - apply step_ret. exact I.
  - eapply step_bind; [apply H|]. intros _ es _. eapply step_conseq; [apply IH|auto].
Qed.
Lemma step_quiet {A} (m : M unit) (f : M A) Q :
  quiet m -> (forall es, step f (fun a es' => Q a (es ++ es'))) -> step (let! _ := m in f) Q.
Proof. intros Hm Hf. eapply step_bind; [exact Hm|]. intros _ es _. apply Hf. Qed.
End Steps.

Arguments quiet J m : assert.

(** ** One fact *)

Section Fact.
Variable rep : repository.
Variable py_float : str -> option bool.
Variable era_valid : list (part * str) -> res bool.
(** The units that are known when the facts are read. *)
Variable units_at : str -> option characteristic.
Hypothesis units_class : forall i c, units_at i = Some c -> class_of c = ClsUnit.
Let J (s : state) : Prop := forall i, dict_get char_key_eqb (s_chars s) (i, ClsUnit) = units_at i.

Lemma J_errors s es : J s -> J (State es (s_chars s) (s_aspects s) (s_facts s)).
Proof. intros H. exact H. Qed.

Notation step := (step J).
Hint Resolve J_errors : core.

Definition units_found (n : node) (us : list characteristic) (es : list (error xml)) : Prop :=
  match attr (n_el n) (u "unitRef") with
  | None | Some [] =>
      us = [] /\ (tag_name (n_el n) = Ok (u "ix:nonFraction") ->
                  reported "IXBRL_NON_FRACTION_WITHOUT_UNIT" (n_el n) es)
  | Some id =>
      (exists c, us = [c] /\ units_at id = Some c) \/
      us = [] /\ units_at id = None /\ reported "IXBRL_INVALID_FACT_UNIT_ID" (n_el n) es
  end.
Lemma units_found_app n us es1 es2 es3 : units_found n us es2 -> units_found n us (es1 ++ es2 ++ es3).
Proof.
  unfold units_found. assert (R : forall c, reported c (n_el n) es2 -> reported c (n_el n) (es1 ++ es2 ++ es3)).
  { intros c H. apply reported_app. right. apply reported_app. left. exact H. }
  destruct (attr (n_el n) (u "unitRef")) as [[|c id]|].
  - intros [-> H]. auto.
  - intros [H|(-> & E & H)]; [left; exact H|right; auto].
  - intros [-> H]. auto.
Qed.

Lemma find_units_step n tag : tag_name (n_el n) = Ok tag ->
  step (find_units (n_el n) tag) (units_found n).
Proof.
  intros Ht. unfold find_units, units_found.
  assert (Hnone : step (let! _ := when (str_eqb tag (u "ix:nonFraction"))
                  (report "IXBRL_NON_FRACTION_WITHOUT_UNIT" (n_el n)
                     [(u "fact_id", str_opt (attr (n_el n) (u "id")))]) in ret (@nil characteristic))
      (fun us es => us = [] /\ (tag_name (n_el n) = Ok (u "ix:nonFraction") ->
                  reported "IXBRL_NON_FRACTION_WITHOUT_UNIT" (n_el n) es))).
  { unfold when. destruct (str_eqb_spec tag (u "ix:nonFraction")) as [->|Hn].
    - apply step_report_then; [auto|]. intros e Ec. apply step_ret. split; [reflexivity|].
      intros _. eapply reported_one, Ec.
    - apply step_bind with (P := fun _ es => es = []); [apply step_ret; reflexivity|].
      intros _ es ->. apply step_ret. split; [reflexivity|]. intros E. congruence. }
  destruct (attr (n_el n) (u "unitRef")) as [[|c0 id]|]; [exact Hnone| |exact Hnone].
  clear Hnone. set (uid := c0 :: id).
  intros s a s' Hj. unfold char_get. rewrite (Hj uid).
  destruct (units_at uid) as [c|] eqn:E.
  - rewrite (units_class _ _ E). cbn. intros [= <- <-]. split; [exact Hj|]. exists [].
    rewrite app_nil_r. split; [reflexivity|]. left. eauto.
  - unfold mbind, ret. intros H.
    destruct (report _ _ _ s) as [[[] s1]|] eqn:Er; [|discriminate]. injection H as <- <-.
    destruct (step_report J J_errors "IXBRL_INVALID_FACT_UNIT_ID" (n_el n) _
      (fun _ es => reported "IXBRL_INVALID_FACT_UNIT_ID" (n_el n) es)
      (fun e Ec => reported_one _ _ _ e Ec) s tt s1 Hj Er) as (Hj1 & es & He & Hr).
    split; [exact Hj1|]. exists es. split; [exact He|]. right. auto.
Qed.

Lemma upsert_concept_step name e (Q : unit -> list (error xml) -> Prop) : Q tt [] -> step (char_upsert name (ChConcept e)) Q.
Proof.
  intros H s a s' Hj [= <- <-]. split; [|exists []; rewrite app_nil_r; auto].
  intros i. cbn. rewrite (dict_get_set_other _ char_key_eqb_spec); [apply Hj|]. intros [= _].
Qed.

Section Lookup.
Variable cs : contexts.

Inductive context_found (n : node) (es : list (error xml)) : option context -> Prop :=
| cf_no_name : attr (n_el n) (u "name") = None ->
    reported "IXBRL_FACT_WITHOUT_CONCEPT_NAME" (n_el n) es -> context_found n es None
| cf_no_concept name : attr (n_el n) (u "name") = Some name -> (forall e, ~ fact_concept rep (n_el n) e) ->
    reported "IXBRL_FACT_INVALID_CONCEPT" (n_el n) es -> context_found n es None
| cf_no_reference : attr (n_el n) (u "contextRef") = None ->
    reported "IXBRL_FACT_WITHOUT_CONTEXT" (n_el n) es -> context_found n es None
| cf_no_context cid : attr (n_el n) (u "contextRef") = Some cid -> dict_get str_eqb cs cid = None ->
    reported "IXBRL_INVALID_FACT_CONTEXT_ID" (n_el n) es -> context_found n es None
| cf_found e us cid c : fact_concept rep (n_el n) e -> units_found n us es ->
    attr (n_el n) (u "contextRef") = Some cid -> dict_get str_eqb cs cid = Some c ->
    context_found n es (Some (fold_left add_characteristic (ChConcept e :: us) c)).

Lemma fact_context_step n tag : tag_name (n_el n) = Ok tag ->
  step (fact_context rep cs (n_el n) tag) (fun r es => context_found n es r).
Proof.
  intros Ht. unfold fact_context.
  destruct (attr (n_el n) (u "name")) as [name|] eqn:En.
  2:{ apply step_report_then; [auto|]. intros e Ec. apply step_ret.
      apply cf_no_name; [exact En|]. eapply reported_one, Ec. }
  apply step_lift_then. intros q Eq.
  destruct (get_typed_by_qname is_concept rep q) as [e|] eqn:Ee.
  2:{ apply step_report_then; [auto|]. intros er Ec. apply step_ret.
      eapply cf_no_concept; [exact En| |eapply reported_one, Ec].
      intros e1 (name' & q' & E1 & E2 & E3). congruence. }
  assert (He : fact_concept rep (n_el n) e) by (exists name, q; auto).
  eapply step_bind; [apply (upsert_concept_step name e (fun _ es => es = []) eq_refl)|].
  intros _ es0 ->. cbn [app].
  eapply step_bind; [apply find_units_step, Ht|]. intros us es Hus.
  destruct (attr (n_el n) (u "contextRef")) as [cid|] eqn:Er.
  2:{ apply step_report_then; [auto|]. intros er Ec. apply step_ret.
      apply cf_no_reference; [exact Er|]. apply reported_app. right. eapply reported_one, Ec. }
  destruct (dict_get str_eqb cs cid) as [c|] eqn:Ed.
  2:{ apply step_report_then; [auto|]. intros er Ec. apply step_ret.
      eapply cf_no_context; [exact Er|exact Ed|]. apply reported_app. right. eapply reported_one, Ec. }
  apply step_ret. rewrite app_nil_r. eapply cf_found; eauto.
Qed.

Lemma check_taken_quiet x taken id : quiet J (check_taken x taken id).
Proof. apply quiet_when. apply quiet_report. auto. Qed.

Lemma qname_total t sc : exists q, qname_from_str t sc = Ok q.
Proof.
  unfold qname_from_str. destruct (re_match clark_re t) as [c|] eqn:E1.
  - unfold qname_from_clark. rewrite E1. eauto.
  - destruct (re_match colon_re t) as [c|] eqn:E2; [unfold qname_from_colon; rewrite E2; eauto|eauto].
Qed.

Lemma attr_prefixed_total x name : exists v, attr_prefixed x name = Ok v.
Proof. unfold attr_prefixed. destruct (qname_total name (x_scope x)) as [q ->]. cbn. eauto. Qed.

Lemma nil_of_eq x v : attr_prefixed x (u "xsi:nil") = Ok v -> nil_of x = v.
Proof. unfold nil_of. intros ->. reflexivity. Qed.

Lemma opt_str_eqb_true a b : opt_str_eqb a b = true <-> a = b.
Proof.
  unfold opt_str_eqb. destruct (opt_eqb_spec str_eqb str_eqb_spec a b); split; congruence.
Qed.

Lemma has_text_eq n : nf_has_text n = shows_text n.
Proof.
  unfold nf_has_text, shows_text. destruct (x_text (n_el n)); [reflexivity|]. cbn.
  induction (n_tails n) as [|t l IH]; cbn; [reflexivity|]. rewrite IH. destruct t as [[|]|]; reflexivity.
Qed.
Lemma has_children_eq n : nf_has_children n = has_inside n.
Proof. unfold nf_has_children, has_inside. destruct (x_kids (n_el n)); reflexivity. Qed.

Lemma number_attribute_step x name code :
  step (number_attribute x (u name) code) (fun r _ => r = decimals_of x name).
Proof.
  unfold number_attribute, decimals_of. destruct (parse_decimals_or_precision _) as [d|e] eqn:E.
  - apply step_ret. reflexivity.
  - apply step_report_then; [auto|]. intros er _. apply step_ret. reflexivity.
Qed.

Lemma check_parent_quiet x p : quiet J (check_parent x p).
Proof.
  unfold check_parent. destruct p as [p|]; [|apply step_ret; exact I].
  apply step_lift_then. intros tag _. destruct (negb _); [apply step_ret; exact I|].
  apply step_lift_then. intros nil _.
  eapply step_quiet; [apply quiet_when, quiet_report; auto|]. intros es.
  eapply step_conseq; [apply quiet_when, quiet_report; auto|]. auto.
Qed.

Lemma report_all_quiet x v codes : quiet J (report_all x v codes).
Proof. apply quiet_for. intros c. apply quiet_report. auto. Qed.

Definition number_fact (n : node) (c : context) (f : ifact) : Prop :=
  f_context (if_fact f) = c /\ f_id (if_fact f) = attr (n_el n) (u "id") /\
  number_is py_float n (f_value (if_fact f)) /\
  if_decimals f = decimals_of (n_el n) "decimals" /\ if_precision f = decimals_of (n_el n) "precision".
Definition text_fact (n : node) (c : context) (f : ifact) : Prop :=
  f_context (if_fact f) = c /\ f_id (if_fact f) = attr (n_el n) (u "id") /\
  text_is era_valid n (f_value (if_fact f)) /\ if_decimals f = None /\ if_precision f = None.
Lemma check_id_step x taken :
  step (match attr x (u "id") with Some i => check_taken x taken i | None => ret tt end)
    (fun _ es => dup_reported x taken es).
Proof.
  unfold dup_reported. destruct (attr x (u "id")) as [i|].
  - eapply step_conseq; [apply check_taken_step, J_errors|]. cbn. intros _ es H i' [= <-]. exact H.
  - apply step_ret. discriminate.
Qed.

Lemma parse_non_fraction_step n c taken :
  step (parse_non_fraction py_float n c taken)
    (fun r es => number_fact n c (fst r) /\ snd r = take (n_el n) taken /\ dup_reported (n_el n) taken es).
Proof.
  unfold parse_non_fraction. rewrite has_text_eq, has_children_eq.
  eapply step_bind; [apply check_id_step|]. intros [] es0 Hdup. cbn beta in Hdup.
  match goal with |- step ?m _ => assert (H : step m
    (fun r _ => number_fact n c (fst r) /\ snd r = take (n_el n) taken)) end.
  2:{ eapply step_conseq; [exact H|]. cbn. intros r es [H1 H2]. split; [exact H1|]. split; [exact H2|].
      apply dup_app, Hdup. }
  eapply step_bind; [apply number_attribute_step|]. intros dec es1 ->.
  eapply step_bind; [apply number_attribute_step|]. intros prec es2 ->.
  apply step_lift_then. intros nil En. apply nil_of_eq in En.
  eapply step_quiet; [apply quiet_when, quiet_report; auto|]. intros es3.
  eapply step_quiet; [apply quiet_when, quiet_report; auto|]. intros es4.
  eapply step_quiet; [apply quiet_when, quiet_report; auto|]. intros es5.
  eapply step_quiet; [apply quiet_when, quiet_report; auto|]. intros es6.
  eapply step_quiet; [apply check_parent_quiet|]. intros es7.
  eapply step_bind with (P := fun v _ => number_is py_float n v).
  2:{ intros v es8 Hv. apply step_ret. split; [|reflexivity]. repeat split; auto. }
  destruct (opt_str_eqb nil (Some (u "true"))) eqn:Enil; cbn [orb].
  { apply step_ret. apply num_nil. unfold is_nil. rewrite En. apply opt_str_eqb_true, Enil. }
  assert (Hn : ~ is_nil (n_el n)).
  { unfold is_nil. rewrite En. intros E. apply opt_str_eqb_true in E. congruence. }
  destruct (shows_text n) eqn:Et.
  { rewrite andb_false_r. cbn [andb].
    destruct (process_non_fraction_value _ _ _ _ _) as [v codes] eqn:Ep.
    eapply step_quiet; [apply report_all_quiet|]. intros es8. apply step_ret.
    assert (v = number_value py_float n) as -> by (unfold number_value; rewrite Ep; reflexivity).
    apply num_text; assumption. }
  destruct (has_inside n) eqn:Ek.
  { rewrite andb_false_r.
    eapply step_quiet; [apply quiet_when, quiet_report; auto|]. intros es8.
    destruct (x_kids (n_el n)) as [|k r] eqn:Ekids; [apply step_fail|].
    apply step_lift_then. intros tag _.
    eapply step_quiet; [apply quiet_when, quiet_report; auto|]. intros es9.
    apply step_ret. apply num_nested; assumption. }
  rewrite !andb_true_r.
  destruct (negb (is_some (NumModel.truthy nil)) || opt_str_eqb nil (Some (u "false"))) eqn:Em.
  { apply step_ret. apply num_none. split; [exact Et|]. split; [exact Ek|]. rewrite En.
    apply orb_true_iff in Em as [Em|Em].
    - destruct nil as [[|c0 t]|]; cbn in Em; [right; left; reflexivity|discriminate|left; reflexivity].
    - apply opt_str_eqb_true in Em. right. right. left. congruence. }
  unfold has_inside in Ek. destruct (x_kids (n_el n)) as [|k r]; [|discriminate].
  eapply step_quiet; [apply quiet_when, quiet_report; auto|]. intros es8. apply step_fail.
Qed.

Lemma parse_non_numeric_step n c taken :
  step (parse_non_numeric era_valid n c taken)
    (fun r es => text_fact n c (fst r) /\ snd r = take (n_el n) taken /\ dup_reported (n_el n) taken es).
Proof.
  unfold parse_non_numeric.
  eapply step_bind; [apply check_id_step|]. intros [] es0 Hdup. cbn beta in Hdup.
  match goal with |- step ?m _ => assert (H : step m
    (fun r _ => text_fact n c (fst r) /\ snd r = take (n_el n) taken)) end.
  2:{ eapply step_conseq; [exact H|]. cbn. intros r es [H1 H2]. split; [exact H1|]. split; [exact H2|].
      apply dup_app, Hdup. }
  eapply step_bind with (P := fun b _ => b = escapes (n_el n)).
  { unfold escapes. destruct (attr (n_el n) (u "escape")) as [[|c0 e]|]; [apply step_ret; reflexivity| |apply step_ret; reflexivity].
    unfold mem. cbn [existsb]. rewrite orb_false_r.
    destruct (str_eqb_spec (c0 :: e) (u "true")) as [E|Ht]; cbn [orb].
    { apply step_ret. rewrite E. destruct (str_eqb_spec (u "true") (u "false")); [discriminate|reflexivity]. }
    destruct (str_eqb_spec (c0 :: e) (u "false")) as [E|Hf].
    { apply step_ret. reflexivity. }
    apply step_report_then; [auto|]. intros er _. apply step_ret. reflexivity. }
  intros b es1 ->. apply step_lift_then. intros content Ec.
  destruct (parse_non_numerical_fact_value _ _ _) as [[v codes]|] eqn:Ev; [|apply step_fail].
  eapply step_quiet; [apply report_all_quiet|]. intros es8. apply step_ret.
  split; [|reflexivity]. split; [reflexivity|]. split; [reflexivity|]. split; [|split; reflexivity].
  exists content, codes. auto.
Qed.

(** ** All facts *)

Inductive fact_found (n : node) (taken : list str) : option ifact * list (error xml) -> Prop :=
| ff_dropped es : context_found n es None -> fact_found n taken (None, es)
| ff_number c f es : context_found n es (Some c) -> tag_name (n_el n) = Ok (u "ix:nonFraction") ->
    number_fact n c f -> dup_reported (n_el n) taken es -> fact_found n taken (Some f, es)
| ff_text c f es : context_found n es (Some c) -> tag_name (n_el n) = Ok (u "ix:nonNumeric") ->
    text_fact n c f -> dup_reported (n_el n) taken es -> fact_found n taken (Some f, es).

(** The elements are read one after the other, each with the identifiers taken by then. *)
Inductive facts_found : list node -> list str -> list (option ifact * list (error xml)) -> list str -> Prop :=
| fs_nil taken : facts_found [] taken [] taken
| fs_drop n l taken es os taken' : fact_found n taken (None, es) ->
    facts_found l taken os taken' -> facts_found (n :: l) taken ((None, es) :: os) taken'
| fs_keep n l taken f es os taken' : fact_found n taken (Some f, es) ->
    facts_found l (take (n_el n) taken) os taken' ->
    facts_found (n :: l) taken ((Some f, es) :: os) taken'.

Lemma context_found_app n es es' r : context_found n es r -> context_found n (es ++ es') r.
Proof.
  assert (R : forall c, reported c (n_el n) es -> reported c (n_el n) (es ++ es'))
    by (intros; apply reported_app; auto).
  intros [H1 H2|name H1 H2 H3|H1 H2|cid H1 H2 H3|e us cid c H1 H2 H3 H4].
  - apply cf_no_name; auto.
  - eapply cf_no_concept; eauto.
  - apply cf_no_reference; auto.
  - eapply cf_no_context; eauto.
  - eapply cf_found; eauto. apply (units_found_app n us [] es es' H2).
Qed.
Lemma parse_facts_step l : (forall n, In n l -> conventional n) -> forall last taken fr,
  step (parse_facts rep py_float era_valid cs l last taken fr)
    (fun r es => exists os, facts_found l taken os (fst r) /\ es = concat (map snd os) /\
       snd r = fold_left ifacts_upsert (somes (map fst os)) fr).
Proof.
  intros Hl. induction l as [|n l IH]; intros last taken fr; cbn [parse_facts].
  { apply step_ret. exists []. repeat split. constructor. }
  assert (IH' := IH (fun m H => Hl m (or_intror H))). clear IH.
  apply step_lift_then. intros tag Ht. assert (Ht0 := Ht).
  eapply step_bind; [apply fact_context_step, Ht0|]. intros [c|] es1 Hc.
  2:{ eapply step_conseq; [apply IH'|]. cbn. intros r es (os & Hos & -> & Hr).
      exists ((None, es1) :: os). split; [|split; [reflexivity|exact Hr]].
      apply fs_drop; [apply ff_dropped, Hc|exact Hos]. }
  eapply step_bind with (P := fun r es => exists f, r = Some (f, take (n_el n) taken) /\
    fact_found n taken (Some f, es1 ++ es)).
  { destruct (Hl n (or_introl eq_refl)) as [E|E]; rewrite E in Ht; injection Ht as <-.
    - rewrite str_eqb_refl. eapply step_bind; [apply parse_non_numeric_step|].
      intros [f t] es (Hf & Et & Hd). cbn in *. subst t. apply step_ret. exists f. split; [reflexivity|].
      rewrite app_nil_r.
      eapply ff_text; [apply context_found_app, Hc|exact E|exact Hf|apply dup_app_r, Hd].
    - destruct (str_eqb_spec (u "ix:nonFraction") (u "ix:nonNumeric")) as [D|_]; [discriminate D|].
      rewrite str_eqb_refl. eapply step_bind; [apply parse_non_fraction_step|].
      intros [f t] es (Hf & Et & Hd). cbn in *. subst t. apply step_ret. exists f. split; [reflexivity|].
      rewrite app_nil_r.
      eapply ff_number; [apply context_found_app, Hc|exact E|exact Hf|apply dup_app_r, Hd]. }
  intros r es2 (f & -> & Hf). cbv iota.
  eapply step_conseq; [apply IH'|]. cbn. intros r' es (os & Hos & -> & Hr).
  exists ((Some f, es1 ++ es2) :: os). split; [|split; [cbn; rewrite app_assoc; reflexivity|exact Hr]].
  apply fs_keep; assumption.
Qed.
End Lookup.
End Fact.

(** ** Contexts and units *)

Lemma step_spec pd rp docs {A} (m : M A) Q : spec pd rp docs m Q -> step (inv pd rp docs) m Q.
Proof. intros H s a s' Hi E. destruct (H s a s' Hi E) as (H1 & _ & H2). auto. Qed.

Lemma inv_errors pd rp docs s es : inv pd rp docs s ->
  inv pd rp docs (State es (s_chars s) (s_aspects s) (s_facts s)).
Proof. intros H. exact H. Qed.

Lemma holding_occurs l x : In x l -> occurs [holding l] x.
Proof.
  intros H. exists (holding l). split; [left; reflexivity|]. unfold holding. cbn. right.
  apply in_or_app. left. exact (kid_descendant (Xml None [] [] None l) x H).
Qed.

Section Contexts.
Variable parse_date : str -> res date.
Variable rep : repository.
Variable docs : list xml.
Let J := inv parse_date rep docs.
Notation context_as' := (context_as (entity_shared docs) (period_shared parse_date)
                           (explicit_shared rep docs) (typed_shared rep docs)).

Inductive contexts_found : list xml -> list str -> list (option context * list (error xml)) -> list str -> Prop :=
| cs_nil taken : contexts_found [] taken [] taken
| cs_keep x l taken id c es os taken' :
    attr x (u "id") = Some id -> context_as' x [] c -> dup_reported x taken es ->
    contexts_found l (id :: taken) os taken' ->
    contexts_found (x :: l) taken ((Some c, es) :: os) taken'
| cs_skip x l taken id es os taken' :
    attr x (u "id") = Some id ->
    find_kid (u "period") x = None \/ find_kid (u "entity") x = None -> dup_reported x taken es ->
    contexts_found l (id :: taken) os taken' ->
    contexts_found (x :: l) taken ((None, es) :: os) taken'.

Definition add_context (cs : contexts) (c : context) : contexts := fst (insert_context cs c).

Lemma parse_context_none x s s' : parse_context parse_date rep x [] s = Ok (None, s') ->
  find_kid (u "period") x = None \/ find_kid (u "entity") x = None.
Proof.
  unfold parse_context, mbind, lift. destruct (get_str_attribute x (u "id")) as [id|]; [|discriminate].
  destruct (find_kid (u "period") x) as [xp|]; [|auto].
  destruct (find_kid (u "entity") x) as [xe|]; [|auto].
  destruct (parse_period parse_date xp s) as [[p s1]|]; [|discriminate].
  destruct (parse_entity xe s1) as [[e s2]|]; [|discriminate].
  destruct (find_kid (u "segment") xe) as [seg|].
  - destruct (parse_dimensions _ _ _ _) as [[c s3]|]; discriminate.
  - discriminate.
Qed.
Lemma parse_context_id x s r : parse_context parse_date rep x [] s = Ok r -> attr x (u "id") <> None.
Proof.
  unfold parse_context, mbind, lift, get_str_attribute. destruct (attr x (u "id")); discriminate.
Qed.

Lemma parse_context_step x : occurs docs x ->
  step J (parse_context parse_date rep x []) (fun r es => attr x (u "id") <> None /\ match r with
    | Some c => context_as' x [] c
    | None => find_kid (u "period") x = None \/ find_kid (u "entity") x = None
    end).
Proof.
  intros Hx s r s' Hj E.
  destruct (step_spec _ _ _ _ _ (parse_context_spec parse_date rep docs x [] Hx) s r s' Hj E)
    as (Hj' & es & He & Hr & _).
  split; [exact Hj'|]. exists es. split; [exact He|]. split; [eapply parse_context_id, E|].
  destruct r as [c|]; [exact Hr|]. eapply parse_context_none, E.
Qed.

Lemma dup_cons x taken e es : dup_reported x taken es -> dup_reported x taken (e :: es).
Proof. apply (dup_app_r x taken [e] es). Qed.

Lemma parse_contexts_step l : (forall x, In x l -> occurs docs x) -> forall taken cs,
  step J (parse_contexts parse_date rep l taken cs)
    (fun r es => exists os, contexts_found l taken os (fst r) /\ es = concat (map snd os) /\
       snd r = fold_left add_context (somes (map fst os)) cs).
Proof.
  assert (JE := inv_errors parse_date rep docs).
  intros Hl. induction l as [|x l IH]; intros taken cs; cbn [parse_contexts].
  { apply step_ret. exists []. repeat split. constructor. }
  assert (IH' := IH (fun y H => Hl y (or_intror H))). clear IH.
  eapply step_quiet; [apply quiet_when, quiet_report, JE|]. intros es0.
  eapply step_bind; [apply (check_taken_step J JE)|]. intros [] es1 Hdup. cbn beta in Hdup.
  eapply step_bind; [apply parse_context_step, Hl; left; reflexivity|]. intros r es2 [Hid Hr].
  destruct (attr x (u "id")) as [id|] eqn:Eid; [|congruence]. cbn [str_opt] in *.
  assert (Hd : forall es', dup_reported x taken (es0 ++ es1 ++ es')).
  { intros es' i Hi Ht. rewrite Eid in Hi. injection Hi as <-. destruct (Hdup Ht) as (e & He & Ec).
    exists e. split; [|exact Ec]. rewrite !in_app_iff. auto. }
  destruct r as [c|].
  - unfold add_context. destruct (insert_context cs c) as [cs1 added] eqn:Ei.
    eapply step_quiet; [apply quiet_when, quiet_report, JE|]. intros es3.
    eapply step_conseq; [apply IH'|]. cbn. intros r es (os & Hos & -> & Hs).
    exists ((Some c, es0 ++ es1 ++ es2 ++ es3) :: os). split; [|split].
    + eapply cs_keep; [exact Eid|exact Hr| |exact Hos]. apply Hd.
    + cbn. rewrite <- !app_assoc. reflexivity.
    + cbn. rewrite Ei. exact Hs.
  - eapply step_conseq; [apply IH'|]. cbn. intros r es (os & Hos & -> & Hs).
    exists ((None, es0 ++ es1 ++ es2) :: os). split; [|split].
    + eapply cs_skip; [exact Eid|exact Hr| |exact Hos]. apply Hd.
    + cbn. rewrite <- !app_assoc. reflexivity.
    + cbn. exact Hs.
Qed.

(** The first usable context element decides. *)
Lemma add_context_get cs c i :
  dict_get str_eqb (add_context cs c) i =
  match dict_get str_eqb cs i with
  | Some c' => Some c'
  | None => if str_eqb (c_id c) i then Some c else None
  end.
Proof.
  unfold add_context, insert_context, dict_mem.
  destruct (str_eqb_spec (c_id c) i) as [<-|Hn].
  - destruct (dict_get str_eqb cs (c_id c)) eqn:E; cbn; [exact E|].
    apply (dict_get_set_same _ str_eqb_spec).
  - destruct (dict_get str_eqb cs (c_id c)) eqn:E; cbn.
    + destruct (dict_get str_eqb cs i); reflexivity.
    + rewrite (dict_get_set_other _ str_eqb_spec); [|exact Hn]. destruct (dict_get str_eqb cs i); reflexivity.
Qed.
Lemma fold_context_get l : forall cs i,
  dict_get str_eqb (fold_left add_context l cs) i =
  match dict_get str_eqb cs i with
  | Some c => Some c
  | None => find (fun c => str_eqb (c_id c) i) l
  end.
Proof.
  induction l as [|c l IH]; intros cs i; cbn.
  - destruct (dict_get str_eqb cs i); reflexivity.
  - rewrite IH, add_context_get. destruct (dict_get str_eqb cs i); [reflexivity|].
    destruct (str_eqb (c_id c) i); reflexivity.
Qed.

Lemma context_as_id x c id : context_as' x [] c -> attr x (u "id") = Some id -> c_id c = id.
Proof. intros (id' & xp & xe & p & en & ds & H1 & _ & _ & _ & _ & _ & ->) H. rewrite fold_id. cbn. congruence. Qed.
Lemma context_as_usable x c id : context_as' x [] c -> attr x (u "id") = Some id -> usable id x.
Proof.
  intros (id' & xp & xe & p & en & ds & H1 & H2 & H3 & _) H. repeat split; congruence.
Qed.

Lemma contexts_found_get l taken os taken' : contexts_found l taken os taken' -> forall cid,
  match dict_get str_eqb (fold_left add_context (somes (map fst os)) []) cid with
  | Some c => exists xc, first_with (usable cid) l xc /\ context_as' xc [] c
  | None => forall xc, In xc l -> ~ usable cid xc
  end.
Proof.
  intros H cid. rewrite fold_context_get. cbn [dict_get find].
  induction H as [taken|x l taken id c es os taken' Hid Hc Hd H IH|x l taken id es os taken' Hid Hk Hd H IH].
  - cbn. intros xc [].
  - cbn. destruct (str_eqb_spec (c_id c) cid) as [Ec|Hn].
    + exists x. split; [|exact Hc]. exists [], l. split; [reflexivity|]. split; [|intros y []].
      rewrite (context_as_id _ _ _ Hc Hid) in Ec. subst. eapply context_as_usable; eauto.
    + assert (Hx : ~ usable cid x).
      { intros (E & _). apply Hn. rewrite Hid in E. injection E as <-. eapply context_as_id; eauto. }
      change (flat_map _ (map fst os)) with (somes (map fst os)).
      destruct (find _ (somes (map fst os))) as [c'|].
      * destruct IH as (xc & (pre & post & -> & Hu & Hpre) & Has). exists xc. split; [|exact Has].
        exists (x :: pre), post. split; [reflexivity|]. split; [exact Hu|].
        intros y [<-|Hy]; [exact Hx|apply Hpre, Hy].
      * intros xc [<-|Hin]; [exact Hx|apply IH, Hin].
  - cbn. assert (Hx : ~ usable cid x) by (intros (_ & H1 & H2); destruct Hk; auto).
    change (flat_map _ (map fst os)) with (somes (map fst os)).
    destruct (find _ (somes (map fst os))) as [c'|].
    + destruct IH as (xc & (pre & post & -> & Hu & Hpre) & Has). exists xc. split; [|exact Has].
      exists (x :: pre), post. split; [reflexivity|]. split; [exact Hu|].
      intros y [<-|Hy]; [exact Hx|apply Hpre, Hy].
    + intros xc [<-|Hin]; [exact Hx|apply IH, Hin].
Qed.
End Contexts.

(** A copy of a unit element in a document of its own. *)
Definition alone (x : xml) : xml :=
  Xml None [] [] None [Xml (Some (u "unit")) (x_attrs x) (x_scope x) (x_text x) (x_kids x)].

Lemma has_local_unit attrs sc t ks : has_local (u "unit") (Xml (Some (u "unit")) attrs sc t ks) = true.
Proof. Local Transparent u. vm_compute. reflexivity. Local Opaque u. Qed.

Lemma reads_unit_kids x y ns ds : x_kids x = x_kids y -> reads_unit x ns ds -> reads_unit y ns ds.
Proof.
  intros E [m q Hk Hm Hr|dv ns' ds' Hk Hm Hd Hr|m Hk Hm Hd|Hl]; rewrite E in *.
  - eapply ru_measure; eauto.
  - eapply ru_divide; eauto.
  - eapply ru_unknown; eauto.
  - apply ru_count, Hl.
Qed.

Lemma alone_exact x id ns ds : attr x (u "id") = Some id -> reads_unit x ns ds ->
  unit_exact (alone x) id (ChUnit id ns ds).
Proof.
  intros Hid Hr. exists (Xml (Some (u "unit")) (x_attrs x) (x_scope x) (x_text x) (x_kids x)), ns, ds.
  split; [|split; [eapply reads_unit_kids; [|exact Hr]; reflexivity|reflexivity]].
  unfold find_by_id, alone. cbn [x_kids find]. rewrite has_local_unit. unfold attr in *. cbn [x_attrs].
  rewrite Hid. cbn. rewrite str_eqb_refl. reflexivity.
Qed.

(** Steps that leave the characteristics as they are. *)
Definition keeps {A} (m : M A) : Prop := forall s a s', m s = Ok (a, s') -> s_chars s' = s_chars s.
Lemma keeps_ret {A} (a : A) : keeps (ret a).
Proof. intros s b s' [= <- <-]. reflexivity. Qed.
Lemma keeps_fail {A} e : keeps (@fail A e).
Proof. intros s b s' [=]. Qed.
Lemma keeps_lift {A} (r : res A) : keeps (lift r).
Proof. intros s b s'. unfold lift. destruct r; [intros [= <- <-]; reflexivity|discriminate]. Qed.
Lemma keeps_report code x kw : keeps (report code x kw).
Proof. intros s b s'. unfold report. destruct (insert _ _ _ _); [intros [= <- <-]; reflexivity|discriminate]. Qed.
Lemma keeps_has i k : keeps (char_has i k).
Proof. intros s b s' [= <- <-]. reflexivity. Qed.
Lemma keeps_bind {A B} (m : M A) (f : A -> M B) : keeps m -> (forall a, keeps (f a)) -> keeps (let! a := m in f a).
Proof.
  intros Hm Hf s b s'. unfold mbind. destruct (m s) as [[a s1]|] eqn:E; [|discriminate].
  intros E'. rewrite (Hf _ _ _ _ E'). eapply Hm, E.
Qed.
Lemma keeps_measure x : keeps (parse_measure x).
Proof.
  unfold parse_measure. destruct (x_text x).
  - apply keeps_bind; [apply keeps_lift|intros; apply keeps_ret].
  - apply keeps_bind; [apply keeps_report|intros; apply keeps_ret].
Qed.
Lemma keeps_if {A} (b : bool) (m m' : M A) : keeps m -> keeps m' -> keeps (if b then m else m').
Proof. destruct b; auto. Qed.
Lemma keeps_divide un uid l : forall nums dens, keeps (parse_divide un uid l nums dens).
Proof.
  induction l as [|nd l IH]; intros nums dens; cbn [parse_divide]; [apply keeps_ret|].
  apply keeps_bind; [apply keeps_lift|intros a]. apply keeps_bind; [apply keeps_lift|intros b].
  apply keeps_bind; [apply keeps_if; [apply keeps_report|apply keeps_ret]|intros _].
  destruct (x_kids nd); [apply keeps_fail|]. apply keeps_bind; [apply keeps_measure|intros [q|]; [|apply keeps_ret]].
  apply keeps_if; [apply IH|apply keeps_if; apply IH].
Qed.
Lemma keeps_unit x : keeps (parse_unit x).
Proof.
  unfold parse_unit. apply keeps_bind; [apply keeps_lift|intros id]. apply keeps_bind; [apply keeps_has|intros k].
  apply keeps_bind; [apply keeps_if; [apply keeps_report|apply keeps_ret]|intros _].
  assert (H : forall kw, keeps (let! _ := report "XML_UNIT_ELEMENT_WITHOUT_ONE_CHILD" x kw in
            ret (Some (ChUnit id [] [])))) by (intros; apply keeps_bind; [apply keeps_report|intros; apply keeps_ret]).
  destruct (x_kids x) as [|child [|k2 r]]; [apply H| |apply H]. clear H.
  apply keeps_bind; [apply keeps_lift|intros m]. apply keeps_if.
  { apply keeps_bind; [apply keeps_measure|intros [q|]; apply keeps_ret]. }
  apply keeps_bind; [apply keeps_lift|intros d]. apply keeps_if.
  2:{ apply keeps_bind; [apply keeps_report|intros; apply keeps_ret]. }
  apply keeps_bind; [apply keeps_if; [apply keeps_report|apply keeps_ret]|intros _].
  apply keeps_bind; [apply keeps_divide|intros [[ns ds]|]; [|apply keeps_ret]].
  destruct (x_kids child) as [|a [|b l]]; [apply keeps_fail|apply keeps_fail|].
  apply keeps_bind; [apply keeps_if; [apply keeps_report|apply keeps_ret]|intros; apply keeps_ret].
Qed.

Lemma find_app {A} (f : A -> bool) l l' :
  find f (l ++ l') = match find f l with Some a => Some a | None => find f l' end.
Proof. induction l as [|a l IH]; cbn; [reflexivity|]. destruct (f a); [reflexivity|exact IH]. Qed.

Section Units.
Variable parse_date : str -> res date.
Variable rep : repository.
Variable docs : list xml.
Let J := inv parse_date rep docs.

Inductive units_read : list xml -> list str -> list (option characteristic * list (error xml)) -> list str -> Prop :=
| ur_nil taken : units_read [] taken [] taken
| ur_unit x l taken id o os taken' :
    attr x (u "id") = Some id -> unit_outcome x o -> dup_reported x taken (snd o) ->
    units_read l (id :: taken) os taken' -> units_read (x :: l) taken (o :: os) taken'.

Definition named_b (id : str) (c : characteristic) : bool :=
  match c with ChUnit n _ _ => str_eqb n id | _ => false end.
Definition last_unit (id : str) (l : list characteristic) : option characteristic := find (named_b id) (rev l).

Lemma parse_units_sem l : (forall x, In x l -> In (alone x) docs) -> forall taken s t s', J s ->
  parse_units l taken s = Ok (t, s') -> exists os,
    units_read l taken os t /\ J s' /\ s_errors s' = s_errors s ++ concat (map snd os) /\
    forall i, dict_get char_key_eqb (s_chars s') (i, ClsUnit) =
      match last_unit i (somes (map fst os)) with
      | Some c => Some c
      | None => dict_get char_key_eqb (s_chars s) (i, ClsUnit)
      end.
Proof.
  assert (JE := inv_errors parse_date rep docs).
  intros Hl. induction l as [|x l IH]; intros taken s t s' Hj; cbn [parse_units].
  { intros [= <- <-]. exists []. split; [constructor|]. split; [exact Hj|]. cbn. rewrite app_nil_r. auto. }
  assert (IH' := IH (fun y H => Hl y (or_intror H))). clear IH.
  unfold mbind. destruct (when _ _ s) as [[[] s1]|] eqn:E1; [|discriminate].
  assert (K1 : s_chars s1 = s_chars s).
  { unfold when in E1. destruct (negb _); [eapply keeps_report, E1|eapply keeps_ret, E1]. }
  assert (Q1 := quiet_when J _ _ (quiet_report J JE _ _ _) s tt s1 Hj E1).
  destruct Q1 as (Hj1 & es1 & He1 & _).
  destruct (attr x (u "id")) as [id|] eqn:Eid.
  2:{ unfold ret. unfold parse_unit, mbind, lift, get_str_attribute. rewrite Eid. discriminate. }
  destruct (check_taken x taken id s1) as [[[] s2]|] eqn:E2; [|discriminate].
  assert (K2 : s_chars s2 = s_chars s1).
  { unfold check_taken, when in E2. destruct (mem _ _); [eapply keeps_report, E2|eapply keeps_ret, E2]. }
  destruct (check_taken_step J JE x taken id s1 tt s2 Hj1 E2) as (Hj2 & es2 & He2 & Hdup).
  destruct (parse_unit x s2) as [[c s3]|] eqn:E3; [|discriminate].
  assert (K3 := keeps_unit x s2 c s3 E3).
  destruct (step_spec _ _ _ _ _ (parse_unit_spec parse_date rep docs x id Eid) s2 c s3 Hj2 E3)
    as (Hj3 & es3 & He3 & Hc & Hne).
  assert (Hd : forall es, dup_reported x taken (es1 ++ es2 ++ es)).
  { intros es i Hi Ht. rewrite Eid in Hi. injection Hi as <-. destruct (Hdup Ht) as (e & He & Ec).
    exists e. split; [|exact Ec]. rewrite !in_app_iff. auto. }
  assert (He : s_errors s3 = s_errors s ++ es1 ++ es2 ++ es3).
  { rewrite He3, He2, He1, <- !app_assoc. reflexivity. }
  assert (K : s_chars s3 = s_chars s) by congruence.
  destruct c as [c|].
  - destruct Hc as (ns & ds & Hr & ->). cbn [value_str str_opt].
    set (s4 := State (s_errors s3)
       (dict_set char_key_eqb (s_chars s3) (id, ClsUnit) (ChUnit id ns ds)) (s_aspects s3) (s_facts s3)).
    change (char_upsert id (ChUnit id ns ds) s3) with (@Ok (unit * state) (tt, s4)). cbv iota beta.
    assert (Hj4 : J s4).
    { destruct Hj3 as [Hc3 Ha3]. split; [|exact Ha3]. intros k cl c. unfold s4. cbn [s_chars].
      destruct (char_key_eqb_spec (id, ClsUnit) (k, cl)) as [[= <- <-]|Hn].
      - rewrite (dict_get_set_same _ char_key_eqb_spec). intros [= <-]. split; [|reflexivity].
        exists (alone x). split; [apply Hl; left; reflexivity|]. apply alone_exact; assumption.
      - rewrite (dict_get_set_other _ char_key_eqb_spec); [apply Hc3|exact Hn]. }
    intros E. destruct (IH' _ _ _ _ Hj4 E) as (os & Hos & Hj' & Hes & Hget).
    exists ((Some (ChUnit id ns ds), es1 ++ es2 ++ es3) :: os). split; [|split; [exact Hj'|split]].
    + eapply ur_unit; [exact Eid|exists id, ns, ds; auto|apply Hd|exact Hos].
    + cbn [map snd concat]. rewrite app_assoc, <- He. exact Hes.
    + intros i. rewrite (Hget i). cbn [map fst]. unfold last_unit. cbn [somes flat_map app].
      change (flat_map _ (map fst os)) with (somes (map fst os)). cbn [rev].
      rewrite find_app. destruct (find (named_b i) (rev (somes (map fst os)))); [reflexivity|].
      cbn [find named_b]. unfold s4. cbn [s_chars].
      destruct (str_eqb_spec id i) as [->|Hn].
      * apply (dict_get_set_same _ char_key_eqb_spec).
      * rewrite (dict_get_set_other _ char_key_eqb_spec); [rewrite K; reflexivity|congruence].
  - unfold ret. intros E. destruct (IH' _ _ _ _ Hj3 E) as (os & Hos & Hj' & Hes & Hget).
    exists ((None, es1 ++ es2 ++ es3) :: os). split; [|split; [exact Hj'|split]].
    + eapply ur_unit; [exact Eid| |apply Hd|exact Hos]. unfold unit_outcome. cbn.
      intros E0. apply app_eq_nil in E0 as [_ E0]. apply app_eq_nil in E0 as [_ E0]. apply Hne; auto.
    + cbn [map snd concat]. rewrite app_assoc, <- He. exact Hes.
    + intros i. rewrite (Hget i), K. cbn. reflexivity.
Qed.

Lemma units_read_units l taken os t : units_read l taken os t ->
  Forall (fun c => exists id ns ds, c = ChUnit id ns ds) (somes (map fst os)).
Proof.
  induction 1 as [|x l taken id [o es] os taken' Hid Ho Hd H IH]; cbn; [constructor|].
  destruct o as [c|]; cbn; [|exact IH]. constructor; [|exact IH].
  destruct Ho as (id' & ns & ds & _ & _ & ->). eauto.
Qed.
Lemma units_read_forall l taken os t : units_read l taken os t -> Forall2 unit_outcome l os.
Proof. induction 1; constructor; auto. Qed.
End Units.

Lemma named_b_spec id c : named_b id c = true <-> unit_named id c.
Proof.
  unfold unit_named. destruct c; cbn; (split; [|intros [? ?]]); try discriminate.
  - intros E. apply (reflect_iff _ _ (str_eqb_spec _ _)) in E. auto.
  - apply (reflect_iff _ _ (str_eqb_spec _ _)). assumption.
Qed.

Lemma last_unit_spec id l : match last_unit id l with
  | Some c => last_with (unit_named id) l c
  | None => forall c, In c l -> ~ unit_named id c
  end.
Proof.
  unfold last_unit. enough (G : forall r, match find (named_b id) r with
    | Some c => last_with (unit_named id) (rev r) c
    | None => forall c, In c (rev r) -> ~ unit_named id c
    end) by (specialize (G (rev l)); rewrite rev_involutive in G; exact G).
  induction r as [|c r IH]; cbn; [intros c []|].
  destruct (named_b id c) eqn:E.
  - exists (rev r), []. split; [reflexivity|]. split; [apply named_b_spec, E|intros y []].
  - assert (Hc : ~ unit_named id c) by (rewrite <- named_b_spec; congruence).
    destruct (find (named_b id) r) as [c'|].
    + destruct IH as (pre & post & Er & Hu & Hp). exists pre, (post ++ [c]).
      split; [rewrite Er, <- app_assoc; reflexivity|]. split; [exact Hu|].
      intros y Hy. apply in_app_iff in Hy as [Hy|[<-|[]]]; [apply Hp, Hy|exact Hc].
    + intros y Hy. apply in_app_iff in Hy as [Hy|[<-|[]]]; [apply IH, Hy|exact Hc].
Qed.
