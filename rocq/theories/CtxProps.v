(** Properties C25-C27, C38-C41 and C48: contexts, characteristics and facts. *)
From Verif Require Import Base Regex PyNum QNameModel ErrBase ErrModel CtxModel CtxSpec CtxProofs
  CtxParseProofs CtxExactProofs.

(** ** Sample documents *)

Definition s_scope : scope := [(Some (u "t"), u "urn:t"); (Some (u "iso"), u "urn:iso")].
Definition s_elem (local : string) (attrs : list (str * str)) (text : option str) (kids : list xml) : xml :=
  Xml (Some (xbrli local)) attrs s_scope text kids.
Definition s_identifier (id scheme : string) : xml :=
  s_elem "identifier" [(u "scheme", u scheme)] (Some (u id)) [].
Definition s_entity (id scheme : string) (segment : list xml) : xml :=
  s_elem "entity" [] None
    (s_identifier id scheme :: match segment with [] => [] | _ => [s_elem "segment" [] None segment] end).
Definition s_instant (t : string) : xml :=
  s_elem "period" [] None [s_elem "instant" [] (Some (u t)) []].
Definition s_duration (a b : string) : xml :=
  s_elem "period" [] None [s_elem "startDate" [] (Some (u a)) []; s_elem "endDate" [] (Some (u b)) []].
Definition s_context (id : string) (period entity : xml) : xml :=
  s_elem "context" [(u "id", u id)] None [entity; period].
Definition s_measure (t : string) : xml := s_elem "measure" [] (Some (u t)) [].
Definition s_unit (id : string) (kids : list xml) : xml :=
  s_elem "unit" [(u "id", u id)] None kids.
Definition s_fact (attrs : list (str * str)) (value : string) : xml :=
  Xml (Some (u "{urn:t}Cash")) attrs s_scope (Some (u value)) [].
Definition s_ref (ctx : string) (rest : list (str * str)) : list (str * str) :=
  (u "contextRef", u ctx) :: rest.
Definition s_member (dim mem : string) (sc : scope) : xml :=
  Xml (Some (u "{http://xbrl.org/2006/xbrldi}explicitMember")) [(u "dimension", u dim)] sc (Some (u mem)) [].
Definition s_typed (dim value : string) : xml :=
  Xml (Some (u "{http://xbrl.org/2006/xbrldi}typedMember")) [(u "dimension", u dim)] s_scope None
    [Xml (Some (u "{urn:t}v")) [] s_scope (Some (u value)) []].
Definition s_instance (kids : list xml) : xml := s_elem "xbrl" [] None kids.

Definition e_cash : element := Element (QName (u "urn:t") (u "t") (u "Cash")) None KConcept 0.
Definition e_axis : element := Element (QName (u "urn:t") (u "t") (u "Axis")) None KDimension 1.
Definition e_m1 : element := Element (QName (u "urn:t") (u "t") (u "M1")) None KMember 2.
Definition e_m2 : element := Element (QName (u "urn:other") (u "t") (u "M1")) None KMember 3.
Definition e_axis2 : element := Element (QName (u "urn:other") (u "t") (u "Axis")) None KDimension 4.
Definition s_rep : repository := fold_left upsert [e_cash; e_axis; e_m1; e_m2; e_axis2] empty_repo.

(** Dates written as year-month-day. *)
Definition iso_date (t : str) : res date :=
  if negb (forallb (fun c => is_digit c || (c =? ch "-")%N) t) then Raise ValueError else
  match split_char (ch "-") t with
  | [y; m; d] =>
      match py_int y, py_int m, py_int d with
      | Some y, Some m, Some d => Ok (Date y m d)
      | _, _, _ => Raise ValueError
      end
  | _ => Raise ValueError
  end.

Definition s_parse (docs : list xml) : res (unit * state) :=
  parse_facts iso_date s_rep (fun _ => false) docs empty_state.
(** The characteristics of an aspect in the facts with an id, in order. *)
Definition s_chars_of (aspect : str) (docs : list xml) : res (list (option characteristic)) :=
  do! r <- s_parse docs;
  Ok (map (fun f => get_characteristic (f_context f) aspect) (facts_get_all (s_facts (snd r)))).

Lemma parse_check docs (check : state -> bool) :
  match s_parse docs with Ok (_, s) => check s | Raise _ => false end = true ->
  exists s, s_parse docs = Ok (tt, s) /\ check s = true.
Proof. destruct (s_parse docs) as [[[] s]|]; [|discriminate]. intros H. exists s. auto. Qed.
Definition no_errors (s : state) : bool := match s_errors s with [] => true | _ => false end.
Lemma no_errors_nil s : no_errors s = true -> s_errors s = [].
Proof. unfold no_errors. destruct (s_errors s); [reflexivity|discriminate]. Qed.
(** The number of errors and the rows of the facts with an id. *)
Definition s_rows (docs : list xml) : res (nat * list (list (str * str))) :=
  do! r <- s_parse docs;
  Ok (length (s_errors (snd r)), map fact_to_dict (facts_get_all (s_facts (snd r)))).

Definition c1 := s_context "c1" (s_instant "2020-12-31") (s_entity "E1" "urn:s1" []).
Definition f1 := s_fact (s_ref "c1" [(u "id", u "f1")]) "7".

(** ** C25: contexts *)

Theorem C25_contexts id xs :
  let c := fold_left add_characteristic xs (new_context id) in
  c_id c = id /\
  StronglySorted lex_lt (c_aspects c) /\ NoDup (c_aspects c) /\
  (forall a, In a (c_aspects c) <-> exists x, In x xs /\ aspect_of x = a) /\
  (forall a x, get_characteristic c a = Some x <-> first_with (fun y => aspect_of y = a) xs x) /\
  (forall a, has_characteristic c a = true <-> get_characteristic c a <> None).
Proof.
  intros c. assert (Hc : ctx_ok c) by (apply fold_ok, new_ok).
  assert (Hget : forall a, get_characteristic c a = find (fun x => str_eqb (aspect_of x) a) xs).
  { intros a. unfold c. rewrite fold_get by apply new_ok. reflexivity. }
  split; [apply fold_id|].
  split.
  { destruct Hc as (Hn & Hs & _). induction Hs as [|a l Hs IH Hf]; constructor.
    - apply IH. inversion Hn; assumption.
    - rewrite Forall_forall in *. intros b Hb. apply str_leb_lex; [apply Hf, Hb|].
      intros ->. inversion Hn; contradiction. }
  split; [apply Hc|]. split; [|split].
  - intros a. rewrite (ctx_aspect_get c a Hc), Hget. split.
    + destruct (find _ xs) as [x|] eqn:E; [|congruence]. intros _.
      apply find_some in E as [E1 E2]. apply str_eqb_eq in E2. eauto.
    + intros (x & Hx & <-) E. pose proof (find_none _ _ E x Hx) as H. cbn in H.
      rewrite str_eqb_refl in H. discriminate.
  - intros a x. rewrite Hget. apply find_first_with. intros y. apply str_eqb_eq.
  - intros a. unfold has_characteristic. rewrite existsb_str. apply ctx_aspect_get, Hc.
Qed.

Example C25_example :
  let c := fold_left add_characteristic
    [ChConcept e_cash; ChEntity (u "E1") (u "urn:s"); ChTyped e_axis (u "v") (u "t:Axis");
     ChEntity (u "E2") (u "urn:s")] (new_context (u "c1")) in
  c_aspects c = [u "concept"; u "entity"; u "t:Axis"] /\
  get_characteristic c (u "entity") = Some (ChEntity (u "E1") (u "urn:s")).
Proof. vm_compute. split; reflexivity. Qed.
Print Assumptions C25_contexts.

(** ** C26: rows *)

Lemma two_sets (d : list (str * str)) (k1 k2 v1 v2 : str) :
  ~ In k1 (map fst d) -> ~ In k2 (map fst d) -> k1 <> k2 ->
  dict_set str_eqb (dict_set str_eqb d k1 v1) k2 v2 = d ++ [(k1, v1); (k2, v2)].
Proof.
  intros H1 H2 Hn. rewrite (dict_set_keys_new _ str_eqb_spec d k1 v1 H1).
  rewrite (dict_set_keys_new _ str_eqb_spec).
  - rewrite <- app_assoc. reflexivity.
  - unfold dict_keys. rewrite map_app. intros H. apply in_app_iff in H as [H|[H|[]]]; [exact (H2 H)|exact (Hn H)].
Qed.

(** The row has exactly the aspects with their texts, then the id and the value, unless an aspect
    is itself named "id" or "value". *)
Theorem C26_row_partial id xs v i :
  let c := fold_left add_characteristic xs (new_context id) in
  ~ In (u "id") (c_aspects c) -> ~ In (u "value") (c_aspects c) ->
  fact_to_dict (Fact c v i) =
    map (fun a => (a, match get_characteristic c a with Some x => value_str x | None => [] end)) (c_aspects c)
    ++ [(u "id", match i with Some i => i | None => [] end); (u "value", v)].
Proof.
  intros c H1 H2. assert (Hc : ctx_ok c) by (apply fold_ok, new_ok).
  unfold fact_to_dict. cbn [f_context f_id f_value]. rewrite row_is by apply Hc.
  assert (Hk : map fst (map (fun a => (a, get_characteristic_as_str c a)) (c_aspects c)) = c_aspects c).
  { rewrite map_map. cbn. apply map_id. }
  apply two_sets; [| |discriminate].
  - intros H. apply H1. rewrite <- Hk. exact H.
  - intros H. apply H2. rewrite <- Hk. exact H.
Qed.

(** Whatever the names: the id and the value are in the row, and so is every other aspect. *)
Theorem C26_entries id xs v i a :
  let c := fold_left add_characteristic xs (new_context id) in
  dict_get str_eqb (fact_to_dict (Fact c v i)) a =
    if str_eqb a (u "value") then Some v
    else if str_eqb a (u "id") then Some (match i with Some i => i | None => [] end)
    else option_map value_str (get_characteristic c a).
Proof.
  intros c. assert (Hc : ctx_ok c) by (apply fold_ok, new_ok).
  unfold fact_to_dict. cbn [f_context f_id f_value]. rewrite !dict_set_get_any.
  rewrite (str_eqb_sym (u "value")), (str_eqb_sym (u "id")).
  destruct (str_eqb a (u "value")); [reflexivity|]. destruct (str_eqb a (u "id")); [reflexivity|].
  rewrite row_is by apply Hc. rewrite dict_get_map. unfold get_characteristic_as_str.
  pose proof (ctx_aspect_get c a Hc) as H. rewrite <- existsb_str in H.
  destruct (get_characteristic c a); cbn.
  - rewrite (proj2 H) by discriminate. reflexivity.
  - destruct (existsb (str_eqb a) (c_aspects c)); [|reflexivity]. exfalso. apply (proj1 H); reflexivity.
Qed.

(** The property fails for a dimension without prefix that is named "value". *)
Theorem C26_row_refuted :
  exists id xs v i a, let c := fold_left add_characteristic xs (new_context id) in
  exists x, get_characteristic c a = Some x /\
            dict_get str_eqb (fact_to_dict (Fact c v i)) a <> Some (value_str x).
Proof.
  exists (u "c1"), [ChConcept e_cash; ChTyped e_axis (u "blue") (u "value")], (u "7"), None, (u "value").
  cbn zeta. eexists. split; [vm_compute; reflexivity|]. vm_compute. discriminate.
Qed.

(** With translated names: nothing is lost if the names are distinct and differ from the two
    literals. *)
Theorem C26_translated_partial id xs v i key text id_lit value_lit none_lit :
  let c := fold_left add_characteristic xs (new_context id) in
  NoDup (map key (c_aspects c) ++ [id_lit; value_lit]) ->
  fact_to_dict_translated key text id_lit value_lit none_lit (Fact c v i) =
    map (fun a => (key a, text a)) (c_aspects c)
    ++ [(id_lit, match i with Some (n :: r) => n :: r | _ => none_lit end); (value_lit, v)].
Proof.
  intros c Hn. unfold fact_to_dict_translated, convert_to_df_row_translated.
  cbn [f_context f_id f_value].
  assert (Hn1 : NoDup (map key (c_aspects c))).
  { revert Hn. generalize (map key (c_aspects c)) as l. intros l Hn.
    induction l as [|y l IH]; constructor.
    - cbn in Hn. inversion Hn as [|? ? Hy _]. intros Hin. apply Hy, in_or_app. left. exact Hin.
    - apply IH. cbn in Hn. inversion Hn; assumption. }
  rewrite (fold_set_keys key text) by exact Hn1. cbn [app].
  assert (Hk : map fst (map (fun a => (key a, text a)) (c_aspects c)) = map key (c_aspects c)).
  { rewrite map_map. reflexivity. }
  pose proof (NoDup_remove_2 _ _ _ Hn) as Ha.
  change [id_lit; value_lit] with ([id_lit] ++ [value_lit]) in Hn. rewrite app_assoc in Hn.
  pose proof (NoDup_remove_2 _ _ _ Hn) as Hb. rewrite app_nil_r in Hb.
  apply two_sets.
  - intros H. apply Ha, in_or_app. left. rewrite <- Hk. exact H.
  - intros H. apply Hb, in_or_app. left. rewrite <- Hk. exact H.
  - intros ->. apply Hb, in_or_app. right. left. reflexivity.
Qed.

(** Two aspects with the same label: one column is lost. *)
Theorem C26_translated_refuted :
  exists id xs v i key text, let c := fold_left add_characteristic xs (new_context id) in
  length (c_aspects c) = 2 /\
  length (fact_to_dict_translated key text (u "id") (u "value") (u "None") (Fact c v i)) = 3.
Proof.
  exists (u "c1"), [ChTyped e_axis (u "a") (u "t:A"); ChTyped e_axis (u "b") (u "t:B")], (u "7"), None,
    (fun _ => u "Region"), (fun a => a).
  vm_compute. split; reflexivity.
Qed.

Example C26_example :
  fact_to_dict (Fact (fold_left add_characteristic
    [ChConcept e_cash; ChPeriod (Instant (Date 2020 12 31))] (new_context (u "c1"))) (u "7") (Some (u "f1")))
  = [(u "concept", u "t:Cash"); (u "period", u "2020-12-31"); (u "id", u "f1"); (u "value", u "7")].
Proof. vm_compute. reflexivity. Qed.
Print Assumptions C26_row_partial.
Print Assumptions C26_entries.
Print Assumptions C26_row_refuted.
Print Assumptions C26_translated_partial.
Print Assumptions C26_translated_refuted.

(** ** C27: facts of the filing *)

Theorem C27_distinct_partial fs :
  NoDup (map f_id fs) -> (forall f, In f fs -> f_id f <> None) ->
  facts_get_all (fold_left facts_upsert fs empty_facts) = fs.
Proof. apply facts_distinct. Qed.

(** In general: per id, in order of first use, the last fact; none without an id. *)
Theorem C27_general fs :
  let r := fold_left facts_upsert fs empty_facts in
  (forall i f, facts_get_by_id r i = Ok f <-> last_with (fun f => f_id f = Some i) fs f) /\
  (forall f, In f (facts_get_all r) <-> exists i, last_with (fun f => f_id f = Some i) fs f) /\
  map f_id (facts_get_all r) = map Some (first_uses (somes (map f_id fs))) /\
  fr_without_id r = filter (fun f => match f_id f with None => true | _ => false end) fs.
Proof.
  intros r. replace r with (facts_after fs) by reflexivity. clear r. split; [|split; [|split]].
  - intros i f. unfold facts_get_by_id. rewrite <- facts_by_id.
    destruct (dict_get str_eqb (fr_by_id (facts_after fs)) i); split; congruence.
  - intros f. unfold facts_get_all, dict_values. rewrite in_map_iff. split.
    + intros ([i g] & <- & H). exists i. apply facts_by_id.
      apply (dict_get_in_nodup _ str_eqb_spec _ _ _ (facts_keys_nodup fs)). exact H.
    + intros (i & H). apply facts_by_id in H. apply (dict_get_in _ str_eqb_spec) in H.
      exists (i, f). auto.
  - assert (Hk : map fst (fr_by_id (facts_after fs)) = first_uses (somes (map f_id fs))).
    { induction fs as [|g fs IH] using rev_ind; [reflexivity|].
      rewrite facts_after_snoc, map_app. unfold somes, first_uses in *.
      rewrite flat_map_app, fold_left_app. cbn [map flat_map]. rewrite app_nil_r.
      unfold facts_upsert. destruct (f_id g) as [i|]; [|exact IH]. cbn [fr_by_id fold_left].
      rewrite <- IH. destruct (existsb (str_eqb i) (map fst (fr_by_id (facts_after fs)))) eqn:E.
      - apply existsb_str in E. apply (dict_set_keys_old _ str_eqb_spec). exact E.
      - rewrite (dict_set_keys_new _ str_eqb_spec).
        + rewrite map_app. reflexivity.
        + intros H. apply existsb_str in H. apply (eq_true_false_abs _ H). exact E. }
    rewrite <- Hk. unfold facts_get_all, dict_values. rewrite !map_map.
    apply map_ext_in. intros [i f] H. exact (facts_keys_id fs i f H).
  - apply facts_without.
Qed.

(** A fact without an id is never returned. *)
Theorem C27_refuted :
  (exists f, ~ In f (facts_get_all (fold_left facts_upsert [f] empty_facts))) /\
  (exists f g, ~ In f (facts_get_all (fold_left facts_upsert [f; g] empty_facts)) /\ f_id f <> None).
Proof.
  split.
  - exists (Fact (new_context (u "c1")) (u "7") None). intros [].
  - exists (Fact (new_context (u "c1")) (u "7") (Some (u "f"))),
           (Fact (new_context (u "c1")) (u "8") (Some (u "f"))).
    split; [|discriminate]. vm_compute. intros [H|[]]. discriminate.
Qed.

(** The same for a document: two facts are written, none is returned. *)
Theorem C27_document_refuted :
  exists docs s, s_parse docs = Ok (tt, s) /\ length (all_fact_elements docs) = 2 /\
    s_errors s = [] /\ length (facts_get_all (s_facts s)) = 0 /\ length (fr_without_id (s_facts s)) = 2.
Proof.
  set (docs := [s_instance [c1; s_fact (s_ref "c1" []) "7"; s_fact (s_ref "c1" []) "8"]]).
  destruct (parse_check docs (fun s => no_errors s && (Nat.eqb (length (facts_get_all (s_facts s))) 0 &&
    Nat.eqb (length (fr_without_id (s_facts s))) 2))) as (s & E & H); [vm_compute; reflexivity|].
  apply andb_true_iff in H as [H1 H]. apply andb_true_iff in H as [H2 H3].
  exists docs, s. split; [exact E|]. split; [vm_compute; reflexivity|].
  split; [apply no_errors_nil, H1|]. split; apply Nat.eqb_eq; assumption.
Qed.
Print Assumptions C27_distinct_partial.
Print Assumptions C27_general.
Print Assumptions C27_refuted.
Print Assumptions C27_document_refuted.

(** ** C48: facts and their contexts *)

Section Filing.
Variable parse_date : str -> res date.
Variable rep : repository.
Variable nillable : element -> bool.

Definition parsed (docs : list xml) (s : state) : Prop :=
  parse_facts parse_date rep nillable docs empty_state = Ok (tt, s).
(** The outcomes, one per fact element, account for the errors and the facts. *)
Definition accounts (docs : list xml) (s : state) (os : list outcome) : Prop :=
  s_errors s = concat (map snd os) /\
  s_facts s = fold_left facts_upsert (somes (map fst os)) empty_facts.

(** Each fact element leads to one fact, or to no fact and at least one error.  A fact has the
    referenced context of its own document and a concept registered under its tag; characteristics
    are written in some element of the documents with the same key. *)
Theorem C48_facts docs s : parsed docs s ->
  exists os, Forall2 (outcome_of (concept_shared rep docs) (unit_shared docs) (entity_shared docs)
                        (period_shared parse_date) (explicit_shared rep docs) (typed_shared rep docs))
               (all_fact_elements docs) os /\ accounts docs s os.
Proof.
  intros H. destruct (parse_facts_sem parse_date rep nillable docs _ _ (inv_empty parse_date rep docs) H)
    as (_ & os & Hos & Ha). exists os. split; [exact Hos|]. exact Ha.
Qed.

(** All characteristics are exactly those written, if equal keys mean equal things. *)
Theorem C48_exact_partial docs s : parsed docs s ->
  one_scheme docs -> one_unit docs -> one_concept rep docs -> one_explicit rep docs ->
  one_typed rep docs -> plain_dimensions docs -> plain_periods docs -> no_period_word parse_date ->
  exists os, Forall2 (outcome_of (concept_exact rep) unit_exact entity_exact (period_exact parse_date)
                        (explicit_exact rep) (typed_exact rep))
               (all_fact_elements docs) os /\ accounts docs s os.
Proof.
  intros H H1 H2 H3 H4 H5 H6 H7 H8. destruct (C48_facts docs s H) as (os & Hos & Ha).
  exists os. split; [|exact Ha]. revert Hos. apply outcomes_mono.
  - intros x e Hx. apply concept_to_exact with (docs := docs); assumption.
  - intros i id c Hi. apply unit_to_exact; assumption.
  - intros x r Hx. apply entity_to_exact; assumption.
  - intros x r Hx. apply period_to_exact; auto.
  - intros x r Hx. apply explicit_to_exact; assumption.
  - intros x r Hx. apply typed_to_exact; assumption.
Qed.

(** A fact element without defects is never dropped, whatever was parsed before. *)
Theorem C48_accepted docs s i x : parsed docs s -> In (i, x) (all_fact_elements docs) ->
  good_fact parse_date rep i x ->
  exists s' f, parse_fact_element parse_date rep nillable i x s = Ok (tt, s') /\
               s_facts s' = facts_upsert (s_facts s) f.
Proof.
  intros H Hix Hg.
  apply in_flat_map in Hix as (j & Hj & Hix). apply in_map_iff in Hix as (y & [= -> ->] & Hy).
  destruct (parse_facts_sem parse_date rep nillable docs _ _ (inv_empty parse_date rep docs) H) as (Hi & _).
  apply (good_fact_added parse_date rep nillable docs); assumption.
Qed.

(** The concept of a fact is the one of its element. *)
Theorem C48_concept C U E P X T i x f : fact_as C U E P X T i x f ->
  exists e, C x e /\ get_characteristic (f_context f) a_concept = Some (ChConcept e).
Proof.
  intros (cid & xc & e & us & _ & _ & H3 & _ & (id & xp & xe & p & en & ds & _ & _ & _ & _ & _ & _ & Hc) & _).
  exists e. split; [exact H3|]. rewrite Hc. apply first_concept.
Qed.

(** ** C38: entities *)

Theorem C38_entities_partial docs s : parsed docs s -> one_scheme docs ->
  exists os, Forall2 (outcome_of (concept_shared rep docs) (unit_shared docs) entity_exact
                        (period_shared parse_date) (explicit_shared rep docs) (typed_shared rep docs))
               (all_fact_elements docs) os /\ accounts docs s os.
Proof.
  intros H H1. destruct (C48_facts docs s H) as (os & Hos & Ha).
  exists os. split; [|exact Ha]. revert Hos. apply outcomes_mono; auto.
  intros x r Hx. apply entity_to_exact; assumption.
Qed.

(** The entity of the fact's context is the one written there. *)
Theorem C38_context_entity docs C X T i x f :
  fact_as C (unit_shared docs) entity_exact (period_shared parse_date) X T i x f ->
  exists xc xe, find_by_id (u "context") (c_id (f_context f)) i = Some xc /\
    find_kid (u "entity") xc = Some xe /\
    forall id scheme, writes_entity xe id scheme ->
      get_characteristic (f_context f) a_entity = Some (ChEntity id scheme).
Proof.
  intros (cid & xc & e & us & _ & H2 & _ & H4 & (id & xp & xe & p & en & ds & _ & _ & K3 & K4 & K5 & _ & Hc)
                & H6 & _).
  exists xc, xe. rewrite H6. split; [exact H2|]. split; [exact K3|].
  intros id' sch Hw. rewrite Hc, fold_get by apply new_ok. cbn [app].
  change (get_characteristic (new_context id) a_entity) with (@None characteristic). cbn iota.
  destruct en as [en|]; [|exfalso; exact (K5 _ _ Hw)].
  destruct K5 as (id2 & sch2 & Hw2 & ->).
  assert (E : id2 = id' /\ sch2 = sch).
  { destruct Hw as (j & E1 & E2 & E3), Hw2 as (j2 & F1 & F2 & F3).
    assert (j2 = j) by congruence. subst. split; congruence. }
  destruct E as [-> ->].
  assert (Hskip : forall l r, (forall c, In c l -> class_of c = ClsConcept \/ class_of c = ClsUnit \/ class_of c = ClsPeriod) ->
    find (fun x => str_eqb (aspect_of x) a_entity) (l ++ r) = find (fun x => str_eqb (aspect_of x) a_entity) r).
  { induction l as [|c l IH]; intros r Hl; [reflexivity|]. cbn [app find].
    assert (Hf : str_eqb (aspect_of c) a_entity = false).
    { destruct (Hl c (or_introl eq_refl)) as [Hk|[Hk|Hk]]; destruct c; try discriminate; reflexivity. }
    rewrite Hf. apply IH. intros c' Hc'. apply Hl. right. exact Hc'. }
  change (ChConcept e :: us ++ opt_list p ++ opt_list (Some (ChEntity id' sch)) ++ ds)
    with ((ChConcept e :: us) ++ opt_list p ++ opt_list (Some (ChEntity id' sch)) ++ ds).
  rewrite app_assoc, Hskip; [reflexivity|].
  intros c Hin. apply in_app_iff in Hin as [[<-|Hin]|Hin]; [auto| |].
  - right; left. unfold units_are in H4. destruct (attr x (u "unitRef")) as [[|a b]|].
    1,3: subst us; destruct Hin.
    destruct H4 as (c' & -> & Hu). destruct Hin as [<-|[]].
    destruct Hu as (_ & j & _ & xu & ns & dd & _ & _ & ->). reflexivity.
  - right; right. destruct p as [p|]; [|destruct Hin]. destruct Hin as [<-|[]].
    destruct K4 as (k & q & _ & _ & ->). reflexivity.
Qed.

(** ** C39: dimensions *)

Theorem C39_dimensions_partial docs s : parsed docs s ->
  one_explicit rep docs -> one_typed rep docs -> plain_dimensions docs ->
  exists os, Forall2 (outcome_of (concept_shared rep docs) (unit_shared docs) (entity_shared docs)
                        (period_shared parse_date) (explicit_exact rep) (typed_exact rep))
               (all_fact_elements docs) os /\ accounts docs s os.
Proof.
  intros H H1 H2 H3. destruct (C48_facts docs s H) as (os & Hos & Ha).
  exists os. split; [|exact Ha]. revert Hos. apply outcomes_mono; auto.
  - intros x r Hx. apply explicit_to_exact; assumption.
  - intros x r Hx. apply typed_to_exact; assumption.
Qed.

(** ** C40: periods *)

Theorem C40_periods_partial docs s : parsed docs s -> plain_periods docs -> no_period_word parse_date ->
  exists os, Forall2 (outcome_of (concept_shared rep docs) (unit_shared docs) (entity_shared docs)
                        (period_exact parse_date) (explicit_shared rep docs) (typed_shared rep docs))
               (all_fact_elements docs) os /\ accounts docs s os.
Proof.
  intros H H1 H2. destruct (C48_facts docs s H) as (os & Hos & Ha).
  exists os. split; [|exact Ha]. revert Hos. apply outcomes_mono; auto.
  intros x r Hx. apply period_to_exact; auto.
Qed.

(** Without any condition: the period of every fact is an instant or ordered. *)
Theorem C40_ordered docs s f : parsed docs s ->
  In f (facts_get_all (s_facts s)) \/ In f (fr_without_id (s_facts s)) ->
  forall a b, get_characteristic (f_context f) a_period = Some (ChPeriod (Duration a b)) ->
  date_ltb b a = false.
Proof.
  intros H Hf a b Hg. destruct (C48_facts docs s H) as (os & Hos & _ & Hfs).
  assert (Hin : In f (somes (map fst os))).
  { rewrite Hfs in Hf. destruct (C27_general (somes (map fst os))) as (_ & G1 & _ & G2).
    destruct Hf as [Hf|Hf].
    - apply G1 in Hf as (i & pre & post & -> & _). apply in_or_app. right. left. reflexivity.
    - rewrite G2 in Hf. apply filter_In in Hf as [Hf _]. exact Hf. }
  assert (Hex : exists ix, fact_as (concept_shared rep docs) (unit_shared docs) (entity_shared docs)
    (period_shared parse_date) (explicit_shared rep docs) (typed_shared rep docs) (fst ix) (snd ix) f).
  { clear Hfs H. induction Hos as [|ix o l os Ho Hos IH]; [destruct Hin|].
    cbn [map somes flat_map] in Hin. apply in_app_iff in Hin as [Hin|Hin]; [|apply IH, Hin].
    unfold outcome_of in Ho. destruct (fst o) as [g|]; [|destruct Hin].
    destruct Hin as [<-|[]]. eauto. }
  destruct Hex as (ix & cid & xc & e & us & _ & _ & _ & H4 &
    (id & xp & xe & p & en & ds & _ & _ & _ & K4 & K5 & K6 & Hc) & _).
  rewrite Hc, fold_get in Hg by apply new_ok. cbn iota in Hg.
  change (get_characteristic (new_context id) a_period) with (@None characteristic) in Hg. cbn iota in Hg.
  apply find_some in Hg as [Hg _].
  cbn [app] in Hg. destruct Hg as [Hg|Hg]; [discriminate|].
  apply in_app_iff in Hg as [Hg|Hg].
  { exfalso. unfold units_are in H4. destruct (attr (snd ix) (u "unitRef")) as [[|]|].
    1,3: subst us; destruct Hg.
    destruct H4 as (c & -> & (_ & j & _ & xu & ns & dd & _ & _ & ->)). destruct Hg as [Hg|[]]. discriminate. }
  apply in_app_iff in Hg as [Hg|Hg].
  { destruct p as [p|]; [|destruct Hg]. destruct Hg as [->|[]].
    destruct K4 as (k & q & _ & Hk & [= <-]). inversion Hk; subst. assumption. }
  apply in_app_iff in Hg as [Hg|Hg].
  { exfalso. destruct en as [en|]; [|destruct Hg]. destruct Hg as [->|[]].
    destruct K5 as (? & ? & ? & ? & _ & _ & _ & E). discriminate. }
  exfalso. unfold dimensions_are in K6. destruct (find_kid (u "segment") xe) as [seg|]; [|subst; destruct Hg].
  destruct K6 as (rs & Hrs & ->). clear Hc.
  induction Hrs as [|y r ys rs Hy Hrs IHrs]; [destruct Hg|].
  cbn [somes flat_map] in Hg. apply in_app_iff in Hg as [Hg|Hg]; [|apply IHrs, Hg].
  destruct r as [r|]; [|destruct Hg]. destruct Hg as [->|[]].
  destruct Hy as [[_ Hy]|(_ & _ & Hy)].
  - destruct Hy as (? & ? & ? & ? & ? & ? & ? & ? & ? & _ & _ & _ & _ & E). discriminate.
  - destruct Hy as (? & ? & ? & ? & ? & ? & ? & _ & _ & _ & _ & E). discriminate.
Qed.

(** ** C41: units *)

(** Units of facts are read from the unit element with the referenced id. *)
Theorem C41_units_partial docs s : parsed docs s -> one_unit docs ->
  exists os, Forall2 (outcome_of (concept_shared rep docs) unit_exact (entity_shared docs)
                        (period_shared parse_date) (explicit_shared rep docs) (typed_shared rep docs))
               (all_fact_elements docs) os /\ accounts docs s os.
Proof.
  intros H H1. destruct (C48_facts docs s H) as (os & Hos & Ha).
  exists os. split; [|exact Ha]. revert Hos. apply outcomes_mono; auto.
  intros i id c Hi. apply unit_to_exact; assumption.
Qed.
End Filing.

Print Assumptions C48_facts.
Print Assumptions C48_exact_partial.
Print Assumptions C48_accepted.
Print Assumptions C48_concept.
Print Assumptions C38_entities_partial.
Print Assumptions C38_context_entity.
Print Assumptions C39_dimensions_partial.
Print Assumptions C40_periods_partial.
Print Assumptions C40_ordered.
Print Assumptions C41_units_partial.

(** *** Samples and refutations *)

Ltac each_descendant H :=
  destruct H as (?i & Hi & H); destruct Hi as [<-|[]]; vm_compute in H;
  repeat (destruct H as [H|H]; [subst|]); [..|destruct H].

(** A document that meets all conditions of [C48_exact_partial]. *)
Definition sample : xml :=
  s_instance
    [s_context "c1" (s_duration "2020-01-01" "2020-12-31")
       (s_entity "E1" "urn:s1" [s_member "t:Axis" "t:M1" s_scope]);
     s_unit "u1" [s_measure "iso:EUR"];
     s_fact (s_ref "c1" [(u "id", u "f1"); (u "unitRef", u "u1")]) "7"].

Example sample_no_period_word : no_period_word iso_date.
Proof. intros t d. vm_compute. discriminate. Qed.

Example sample_plain : plain_dimensions [sample] /\ plain_periods [sample].
Proof.
  split.
  - intros x t Hx. each_descendant Hx; vm_compute; intros [= <-]; intros H;
      repeat (destruct H as [H|H]; [discriminate|]); destruct H.
  - intros x Hx. each_descendant Hx; intros n i t Hn; cbn [In] in Hn;
      destruct Hn as [<-|[<-|[<-|[]]]]; vm_compute; intros [= <-] [= <-] H;
      repeat (destruct H as [H|H]; [discriminate|]); destruct H.
Qed.

Example sample_consistent :
  one_scheme [sample] /\ one_unit [sample] /\ one_concept s_rep [sample] /\
  one_explicit s_rep [sample] /\ one_typed s_rep [sample].
Proof.
  split; [|split; [|split; [|split]]].
  - intros x y id s s' Hx Hy (i & E1 & E2 & E3) (j & F1 & F2 & F3).
    assert (i = s_identifier "E1" "urn:s1") by (each_descendant Hx; vm_compute in E1; first [discriminate|injection E1 as <-; reflexivity]).
    assert (j = s_identifier "E1" "urn:s1") by (each_descendant Hy; vm_compute in F1; first [discriminate|injection F1 as <-; reflexivity]).
    congruence.
  - intros i j id x y [<-|[]] [<-|[]]. congruence.
  - intros x y tag e e' Hx Hy (T1 & q & Q1 & G1) (T2 & q' & Q2 & G2).
    assert (e = e_cash) by
      (rewrite <- T1 in Q1; clear T1 T2; each_descendant Hx; vm_compute in Q1; try discriminate; injection Q1 as <-;
       vm_compute in G1; first [discriminate|injection G1 as <-; reflexivity]).
    assert (e' = e_cash) by
      (rewrite <- T2 in Q2; clear T1 T2; each_descendant Hy; vm_compute in Q2; try discriminate; injection Q2 as <-;
       vm_compute in G2; first [discriminate|injection G2 as <-; reflexivity]).
    congruence.
  - intros x y dt mt d m d' m' Hx Hy (A1 & B1 & _ & (q & Q1 & G1) & (q' & Q1' & G1'))
      (A2 & B2 & _ & (p & P1 & K1) & (p' & P1' & K1')).
    assert (E1 : d = e_axis /\ m = e_m1).
    { each_descendant Hx; try discriminate A1. vm_compute in A1, B1. injection A1 as <-. injection B1 as <-.
      vm_compute in Q1, Q1'. injection Q1 as <-. injection Q1' as <-. vm_compute in G1, G1'.
      injection G1 as <-. injection G1' as <-. split; reflexivity. }
    assert (E2 : d' = e_axis /\ m' = e_m1).
    { clear A1 B1 Q1 Q1'. each_descendant Hy; try discriminate A2. vm_compute in A2, B2. injection A2 as <-.
      injection B2 as <-.
      vm_compute in P1, P1'. injection P1 as <-. injection P1' as <-. vm_compute in K1, K1'.
      injection K1 as <-. injection K1' as <-. split; reflexivity. }
    destruct E1, E2; split; congruence.
  - intros x y dt v d d' Hx Hy (A1 & (k & r & E & _) & _). exfalso.
    each_descendant Hx; try discriminate A1; vm_compute in E; discriminate.
Qed.

Example sample_parsed : s_rows [sample] =
  Ok (0, [[(u "concept", u "t:Cash"); (u "entity", u "{urn:s1}E1");
           (u "period", u "2020-01-01/2020-12-31"); (u "t:Axis", u "t:M1"); (u "unit", u "u1");
           (u "id", u "f1"); (u "value", u "7")]]).
Proof. vm_compute. reflexivity. Qed.

Example sample_good : good_fact iso_date s_rep (s_instance [c1; f1]) f1.
Proof.
  exists (u "c1"), c1, (s_instant "2020-12-31"), (s_entity "E1" "urn:s1" []), e_cash, (u "E1"), (u "urn:s1"),
    (Instant (Date 2020 12 31)), (u "7").
  split; [reflexivity|]. split; [vm_compute; reflexivity|]. split; [vm_compute; reflexivity|].
  split; [vm_compute; reflexivity|]. split; [vm_compute; reflexivity|].
  split; [|split; [|split; [|split; reflexivity]]].
  - apply (writes_instant iso_date _ (s_elem "instant" [] (Some (u "2020-12-31")) []) (u "2020-12-31"));
      [vm_compute; reflexivity|reflexivity|discriminate|vm_compute; reflexivity].
  - exists (s_identifier "E1" "urn:s1"). split; [vm_compute; reflexivity|]. split; reflexivity.
  - split; [reflexivity|]. exists (QName (u "urn:t") (u "t") (u "Cash")). split; vm_compute; reflexivity.
Qed.

(** *** C38 *)

(** Two schemes for one identifier: the second context gets the first scheme. *)
Theorem C38_refuted :
  exists docs, s_chars_of a_entity docs =
    Ok [Some (ChEntity (u "E1") (u "urn:s1")); Some (ChEntity (u "E1") (u "urn:s1"))] /\
  exists xe, occurs docs xe /\ writes_entity xe (u "E1") (u "urn:s2").
Proof.
  set (c2 := s_context "c2" (s_instant "2020-12-31") (s_entity "E1" "urn:s2" [])).
  exists [s_instance [c1; c2; f1; s_fact (s_ref "c2" [(u "id", u "f2")]) "8"]].
  split; [vm_compute; reflexivity|].
  exists (s_entity "E1" "urn:s2" []). split.
  - eexists. split; [left; reflexivity|].
    apply (descendants_trans _ c2); apply kid_descendant; unfold c2, s_instance, s_context, s_elem;
      cbn [x_kids]; [right; left|left]; reflexivity.
  - exists (s_identifier "E1" "urn:s2"). split; [vm_compute; reflexivity|]. split; reflexivity.
Qed.

(** An identifier without text: no entity and no error. *)
Theorem C38_silent_refuted :
  exists docs, s_rows docs = Ok (0, [[(u "concept", u "t:Cash"); (u "period", u "2020-12-31");
                                      (u "id", u "f1"); (u "value", u "7")]]).
Proof.
  exists [s_instance [s_context "c1" (s_instant "2020-12-31")
     (s_elem "entity" [] None [s_elem "identifier" [(u "scheme", u "urn:s1")] None []]); f1]].
  vm_compute. reflexivity.
Qed.

(** *** C39 *)

(** The same texts with a prefix bound to different namespaces: the second member is the first. *)
Theorem C39_refuted :
  exists docs, s_chars_of (u "t:Axis") docs =
    Ok [Some (ChExplicit e_axis e_m1 (u "t:Axis")); Some (ChExplicit e_axis e_m1 (u "t:Axis"))] /\
  exists x, occurs docs x /\ writes_explicit s_rep x (u "t:Axis") (u "t:M1") e_axis2 e_m2.
Proof.
  set (m2 := s_member "t:Axis" "t:M1" [(Some (u "t"), u "urn:other")]).
  set (c1' := s_context "c1" (s_instant "2020-12-31") (s_entity "E1" "urn:s1" [s_member "t:Axis" "t:M1" s_scope])).
  set (c2 := s_context "c2" (s_instant "2020-12-31") (s_entity "E1" "urn:s1" [m2])).
  exists [s_instance [c1'; c2; f1; s_fact (s_ref "c2" [(u "id", u "f2")]) "8"]].
  split; [vm_compute; reflexivity|].
  exists m2. split.
  - eexists. split; [left; reflexivity|].
    apply (descendants_trans _ c2); [apply kid_descendant; right; left; reflexivity|].
    apply (descendants_trans _ (s_entity "E1" "urn:s1" [m2])); [apply kid_descendant; left; reflexivity|].
    apply (descendants_trans _ (s_elem "segment" [] None [m2])); apply kid_descendant;
      [right; left|left]; reflexivity.
  - split; [reflexivity|]. split; [reflexivity|]. split; [discriminate|].
    split; eexists; split; vm_compute; reflexivity.
Qed.

Example C39_typed_example :
  s_chars_of (u "t:Axis") [s_instance [s_context "c1" (s_instant "2020-12-31")
     (s_entity "E1" "urn:s1" [s_typed "t:Axis" "a b"]); f1]]
  = Ok [Some (ChTyped e_axis (u "a b") (u "t:Axis"))].
Proof. vm_compute. reflexivity. Qed.

(** *** C40 *)

(** A period that is not understood is reported. *)
Theorem C40_reported parse_date rep nillable docs s x r s' :
  parsed parse_date rep nillable docs s -> parse_period parse_date x s = Ok (r, s') ->
  (r = None -> exists e es, s_errors s' = s_errors s ++ e :: es) /\
  (forall c, r = Some c -> exists p, c = ChPeriod p /\ forall a b, p = Duration a b -> date_ltb b a = false).
Proof.
  intros H E.
  destruct (parse_facts_sem parse_date rep nillable docs _ _ (inv_empty parse_date rep docs) H) as (Hi & _).
  destruct (parse_period_spec parse_date rep docs x _ _ _ Hi E) as (_ & _ & es & Es & Hr & He).
  split.
  - intros Hn. specialize (He Hn). destruct es as [|e es]; [congruence|]. eauto.
  - intros c ->. destruct Hr as (k & p & _ & Hk & ->). exists p. split; [reflexivity|].
    intros a b ->. inversion Hk; assumption.
Qed.

(** Equal periods are those with equal texts. *)
Theorem C40_equal_text p q : python_period p -> python_period q ->
  (period_eqb p q = true <-> p = q).
Proof.
  intros Hp Hq. unfold period_eqb. rewrite str_eqb_eq. split; [|congruence].
  apply period_str_inj; assumption.
Qed.

Example C40_example :
  s_chars_of a_period [s_instance [s_context "c1" (s_duration "2020-12-31" "2020-01-01")
     (s_entity "E1" "urn:s1" []); f1]] = Ok [None] /\
  s_chars_of a_period [s_instance [c1; f1]] = Ok [Some (ChPeriod (Instant (Date 2020 12 31)))].
Proof. split; vm_compute; reflexivity. Qed.

(** *** C41 *)

(** A unit with one measure, and one measure over another, are read as written. *)
Theorem C41_well_formed s x id : attr x (u "id") = Some id ->
  dict_mem char_key_eqb (s_chars s) (id, ClsUnit) = false ->
  (forall m q, x_kids x = [m] -> measure_is m q -> parse_unit x s = Ok (Some (ChUnit id [q] []), s)) /\
  (forall dv a b n d, x_kids x = [dv] -> x_tag dv = Some (xbrli "divide") -> x_kids dv = [a; b] ->
     part_is "unitNumerator" a n -> part_is "unitDenominator" b d ->
     parse_unit x s = Ok (Some (ChUnit id [n] [d]), s)).
Proof.
  intros Hid Hk. split.
  - intros m q Ek (Et & t & Ex & Eq). unfold parse_unit.
    unfold mbind at 1, lift at 1, get_str_attribute. rewrite Hid.
    unfold mbind at 1, char_has. rewrite Hk. rewrite Ek.
    unfold mbind at 1, ret at 1. unfold mbind at 1, lift at 1, tag_contains. rewrite Et.
    replace (contains (u "measure") (xbrli "measure")) with true by (vm_compute; reflexivity).
    unfold mbind at 1, parse_measure. rewrite Ex. unfold mbind at 1, lift. rewrite Eq. reflexivity.
  - intros dv a b n d Ek Et Ed (Ta & ma & Ka & Ma & ta & Xa & Qa) (Tb & mb & Kb & Mb & tb & Xb & Qb).
    unfold parse_unit.
    unfold mbind at 1, lift at 1, get_str_attribute. rewrite Hid.
    unfold mbind at 1, char_has. rewrite Hk. rewrite Ek.
    unfold mbind at 1, ret at 1. unfold mbind at 1, lift at 1, tag_contains. rewrite Et.
    replace (contains (u "measure") (xbrli "divide")) with false by (vm_compute; reflexivity).
    unfold mbind at 1, lift at 1.
    replace (contains (u "divide") (xbrli "divide")) with true by (vm_compute; reflexivity).
    rewrite Ed. cbn [length Nat.eqb negb]. unfold mbind at 1, ret at 1.
    assert (Hd : parse_divide x id [a; b] [] [] s = Ok (Some ([n], [d]), s)).
    { cbn [parse_divide]. unfold mbind at 1, lift at 1, tag_contains. rewrite Ta.
      replace (contains (u "unitNumerator") (xbrli "unitNumerator")) with true by (vm_compute; reflexivity).
      unfold mbind at 1, lift at 1.
      replace (contains (u "unitDenominator") (xbrli "unitNumerator")) with false by (vm_compute; reflexivity).
      cbn [negb andb]. unfold mbind at 1, ret at 1. rewrite Ka.
      unfold mbind at 1, parse_measure. rewrite Xa. unfold mbind at 1, lift. rewrite Qa. unfold ret at 1.
      unfold mbind at 1, tag_contains. rewrite Tb.
      replace (contains (u "unitNumerator") (xbrli "unitDenominator")) with false by (vm_compute; reflexivity).
      unfold mbind at 1.
      replace (contains (u "unitDenominator") (xbrli "unitDenominator")) with true by (vm_compute; reflexivity).
      cbn [negb andb]. unfold mbind at 1, ret at 1. rewrite Kb.
      unfold mbind at 1. rewrite Xb. unfold mbind at 1. rewrite Qb. reflexivity. }
    unfold mbind at 1. rewrite Hd. rewrite Ta, Tb.
    replace (opt_eqb str_eqb (Some (xbrli "unitNumerator")) (Some (xbrli "unitDenominator"))) with false
      by (vm_compute; reflexivity).
    reflexivity.
Qed.

(** A unit that is accepted without an error has one measure, or a numerator and a denominator. *)
Theorem C41_unreported_form parse_date rep nillable docs s x c s' :
  parsed parse_date rep nillable docs s -> parse_unit x s = Ok (Some c, s') ->
  s_errors s' = s_errors s -> unit_form x.
Proof.
  intros H E Es.
  destruct (parse_facts_sem parse_date rep nillable docs _ _ (inv_empty parse_date rep docs) H) as (Hi & _).
  destruct (parse_unit_form parse_date rep docs x _ _ _ Hi E) as (_ & _ & es & Ees & Hf).
  apply Hf; [discriminate|]. rewrite Es in Ees.
  rewrite <- (app_nil_r (s_errors s)) in Ees at 1. apply app_inv_head in Ees. congruence.
Qed.

Definition unit_doc (kids : list xml) : list xml :=
  [s_instance [c1; s_unit "u1" kids; s_fact (s_ref "c1" [(u "id", u "f1"); (u "unitRef", u "u1")]) "7"]].
Definition q_iso (l : string) : qname := QName (u "urn:iso") (u "iso") (u l).

Example C41_example :
  s_chars_of a_unit (unit_doc [s_measure "iso:EUR"]) = Ok [Some (ChUnit (u "u1") [q_iso "EUR"] [])] /\
  s_chars_of a_unit (unit_doc [s_elem "divide" [] None
     [s_elem "unitNumerator" [] None [s_measure "iso:EUR"];
      s_elem "unitDenominator" [] None [s_measure "iso:shares"]]])
  = Ok [Some (ChUnit (u "u1") [q_iso "EUR"] [q_iso "shares"])].
Proof. split; vm_compute; reflexivity. Qed.

(** A product of measures loses its measures; in a numerator all but the first are lost without an
    error; a malformed unit is kept; the child of a divide without measures, two numerators and a
    comment stop the parser. *)
Theorem C41_refuted :
  s_chars_of a_unit (unit_doc [s_measure "iso:EUR"; s_measure "iso:m"]) = Ok [Some (ChUnit (u "u1") [] [])] /\
  is_ok (do! r <- s_rows (unit_doc [s_elem "divide" [] None
     [s_elem "unitNumerator" [] None [s_measure "iso:EUR"; s_measure "iso:m"];
      s_elem "unitDenominator" [] None [s_measure "iso:shares"]]]);
      if Nat.eqb (fst r) 0 then Ok tt else Raise ValueError) = true /\
  s_chars_of a_unit (unit_doc [s_elem "divide" [] None
     [s_elem "unitNumerator" [] None [s_measure "iso:EUR"; s_measure "iso:m"];
      s_elem "unitDenominator" [] None [s_measure "iso:shares"]]])
    = Ok [Some (ChUnit (u "u1") [q_iso "EUR"] [q_iso "shares"])] /\
  s_chars_of a_unit (unit_doc []) = Ok [Some (ChUnit (u "u1") [] [])] /\
  s_parse (unit_doc [s_elem "divide" [] None []]) = Raise IndexError /\
  s_parse (unit_doc [s_elem "divide" [] None
     [s_elem "unitNumerator" [] None [s_measure "iso:EUR"];
      s_elem "unitNumerator" [] None [s_measure "iso:shares"]]]) = Raise ValueError /\
  s_parse (unit_doc [Xml None [] s_scope (Some (u "a comment")) []]) = Raise TypeError.
Proof.
  repeat (split; [vm_compute; reflexivity|]). vm_compute. reflexivity.
Qed.

(** A unit id used in two instances: the second instance gets the unit of the first. *)
Theorem C41_shared_refuted :
  exists i j, s_chars_of a_unit [i; j] =
     Ok [Some (ChUnit (u "u1") [q_iso "EUR"] []); Some (ChUnit (u "u1") [q_iso "EUR"] [])] /\
  find_by_id (u "unit") (u "u1") j = Some (s_unit "u1" [s_measure "iso:USD"]).
Proof.
  exists (s_instance [c1; s_unit "u1" [s_measure "iso:EUR"];
                      s_fact (s_ref "c1" [(u "id", u "f1"); (u "unitRef", u "u1")]) "7"]),
         (s_instance [c1; s_unit "u1" [s_measure "iso:USD"];
                      s_fact (s_ref "c1" [(u "id", u "f2"); (u "unitRef", u "u1")]) "8"]).
  split; vm_compute; reflexivity.
Qed.

(** *** C48 *)

(** A fact that refers to a missing context or unit, or a segment with an element that is not a
    dimension, makes the whole filing fail instead of being dropped. *)
Theorem C48_refuted :
  s_parse [s_instance [c1; f1; s_fact (s_ref "nowhere" []) "8"]] = Raise ValueError /\
  s_parse [s_instance [c1; f1; s_fact (s_ref "c1" [(u "unitRef", u "nowhere")]) "8"]] = Raise ValueError /\
  s_parse [s_instance [s_context "c1" (s_instant "2020-12-31")
     (s_entity "E1" "urn:s1" [s_elem "other" [] None []]); f1]] = Raise ValueError.
Proof. split; [vm_compute; reflexivity|]. split; vm_compute; reflexivity. Qed.

(** An element of an unknown concept is dropped with an error. *)
Example C48_dropped :
  match s_rows [s_instance [c1; f1; Xml (Some (u "{urn:t}Other")) (s_ref "c1" []) s_scope None []]] with
  | Ok (errors, rows) => errors = 1 /\ length rows = 1
  | Raise _ => False
  end.
Proof. vm_compute. split; reflexivity. Qed.

Print Assumptions C38_refuted.
Print Assumptions C38_silent_refuted.
Print Assumptions C39_refuted.
Print Assumptions C40_reported.
Print Assumptions C40_equal_text.
Print Assumptions C41_well_formed.
Print Assumptions C41_unreported_form.
Print Assumptions C41_refuted.
Print Assumptions C41_shared_refuted.
Print Assumptions C48_refuted.
