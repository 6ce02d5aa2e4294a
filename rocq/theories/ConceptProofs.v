(** Facts about the report elements declared in schemas. *)
From Verif Require Import Base Regex PyNum QNameModel QNameSpec QNameProofs ErrBase ErrTable ErrModel
  CtxModel DtsModel DtsRefs DtsProofs ConceptModel ConceptSpec.

(** ** Data types *)

Lemma last_piece c (s : str) : ~ In c s \/ exists p l : str, s = p ++ c :: l /\ ~ In c l.
Proof.
  induction s as [|x s [IH|(p & l & -> & Hl)]].
  - left; intros [].
  - destruct (N.eq_dec x c) as [->|Hn].
    + right. exists [], s. auto.
    + left. intros [H|H]; auto.
  - right. exists (x :: p), l. auto.
Qed.

Lemma last_split_none c (l : str) : ~ In c l -> last (split_char c l) [] = l.
Proof. intros H. rewrite split_none by exact H. reflexivity. Qed.

Lemma last_split_app c (p l : str) : ~ In c l -> last (split_char c (p ++ c :: l)) [] = l.
Proof.
  intros H. destruct (split_app c p l) as (q & _ & ->).
  rewrite split_none by exact H. rewrite last_app_nonempty by discriminate. reflexivity.
Qed.

Lemma local_part_type s l : local_part s l -> local_type s = l.
Proof.
  intros (H & [->|(p & ->)]); unfold local_type.
  - apply last_split_none, H.
  - apply last_split_app, H.
Qed.

Lemma local_type_part s : local_part s (local_type s).
Proof.
  destruct (last_piece (ch ":") s) as [H|(p & l & -> & H)].
  - rewrite (local_part_type s s) by (split; auto). split; auto.
  - assert (Hp : local_part (p ++ ch ":" :: l) l) by (split; eauto).
    rewrite (local_part_type _ l) by exact Hp. exact Hp.
Qed.

Lemma in_list_In s l : in_list s l = true <-> In s l.
Proof. apply existsb_In. Qed.

(** ** Recording *)


Ltac record_it := eexists (Error _ _ _ _ _ _); split; [|vm_compute; reflexivity];
  split; [reflexivity|split; [reflexivity|split; [reflexivity|vm_compute; reflexivity]]].

Lemma period_inserts (es : repo xml) x n v : exists er, about x "200" er /\
  insert es "INVALID_CONCEPT_PERIOD_TYPE" (Some x) [(u "concept_name", n); (u "period_type", v)] = Ok (es ++ [er]).
Proof. record_it. Qed.
Lemma balance_inserts (es : repo xml) x n v : exists er, about x "201" er /\
  insert es "INVALID_CONCEPT_BALANCE_TYPE" (Some x) [(u "concept_name", n); (u "balance_type", v)] = Ok (es ++ [er]).
Proof. record_it. Qed.
Lemma nillable_inserts (es : repo xml) x n v : exists er, about x "202" er /\
  insert es "INVALID_CONCEPT_NILLABLE_VALUE" (Some x) [(u "concept_name", n); (u "nillable_value", v)] = Ok (es ++ [er]).
Proof. record_it. Qed.
Lemma type_inserts (es : repo xml) x n : exists er, about x "203" er /\
  insert es "MISSING_CONCEPT_DATA_TYPE" (Some x) [(u "concept_name", n)] = Ok (es ++ [er]).
Proof. record_it. Qed.
Lemma reference_inserts (es : repo xml) x i n : exists er, about x "100" er /\
  insert es "REFERENCED_SCHEMA_ELEMENT_NOT_FOUND" (Some x) [(u "ref_id", i); (u "ref_schema_name", n)] = Ok (es ++ [er]).
Proof. record_it. Qed.

(** ** Concepts *)

Lemma opt_eqb_spec (a b : option str) : reflect (a = b) (opt_eqb str_eqb a b).
Proof.
  destruct a as [a|], b as [b|]; cbn [opt_eqb]; try (constructor; congruence).
  destruct (str_eqb_spec a b); constructor; congruence.
Qed.

Lemma opt_in_spec o l : opt_in o l = true <-> In o l.
Proof.
  unfold opt_in. rewrite existsb_exists. split.
  - intros (y & Hy & E). destruct (opt_eqb_spec o y); [subst; auto|discriminate].
  - intros H. exists o. split; [exact H|]. destruct (opt_eqb_spec o o); congruence.
Qed.

Lemma opt_in_false o l : opt_in o l = false <-> ~ In o l.
Proof. rewrite <- opt_in_spec. destruct (opt_in o l); split; congruence. Qed.

(** The three outcomes of reading a concept. *)
Definition concept_outcome (x : xml) (id : option str) (q : qname) (es : repo xml)
  (out : res (option relement * repo xml)) : Prop :=
  (exists c, valid_concept x c /\ out = Ok (Some (RElement q id (BConcept c)), es)) \/
  (exists er code, out = Ok (None, es ++ [er]) /\ about x code er /\ (forall c, ~ valid_concept x c) /\
     ((bad_period x /\ code = "200"%string) \/
      (~ bad_period x /\ bad_balance x /\ code = "201"%string) \/
      (~ bad_period x /\ ~ bad_balance x /\ bad_nillable x /\ code = "202"%string) \/
      (~ bad_period x /\ ~ bad_balance x /\ ~ bad_nillable x /\ no_type x /\ code = "203"%string))).

Local Opaque u insert.

Lemma concept_from_xml_outcome x id q es : concept_outcome x id q es (concept_from_xml x id q es).
Proof.
  unfold concept_from_xml, concept_outcome.
  change (attr x (clark xbrli (u "periodType"))) with (instance_attr x "periodType").
  change (attr x (clark xbrli (u "balance"))) with (instance_attr x "balance").
  set (p := instance_attr x "periodType"). set (b := instance_attr x "balance").
  destruct (opt_in p _) eqn:Hp; cbn [negb].
  2:{ apply opt_in_false in Hp.
      destruct (period_inserts es x (q_local q) (str_opt p)) as (er & Her & ->). cbn [bind].
      assert (bad_period x) by (split; intros E; apply Hp; cbn; auto).
      right. exists er, "200"%string. split; [reflexivity|]. split; [exact Her|]. split; [|left; auto].
      intros c (E & [E1|E1] & _); apply Hp; cbn; unfold p; rewrite E, E1; auto. }
  rewrite opt_in_spec in Hp.
  assert (Np : ~ bad_period x) by (intros [H1 H2]; destruct Hp as [E|[E|[]]]; unfold p in E; congruence).
  destruct (opt_in b _) eqn:Hb; cbn [negb].
  2:{ apply opt_in_false in Hb.
      destruct (balance_inserts es x (q_local q) (str_opt b)) as (er & Her & ->). cbn [bind].
      assert (bad_balance x).
      { unfold bad_balance. fold b. destruct b as [v|]; [|exfalso; apply Hb; cbn; auto].
        exists v. split; [reflexivity|]. split; intros ->; apply Hb; cbn; auto. }
      right. exists er, "201"%string. split; [reflexivity|]. split; [exact Her|]. split; [|right; left; auto].
      intros c (_ & _ & E & [E1|[E1|E1]] & _); apply Hb; unfold b; rewrite E, E1; cbn; auto. }
  rewrite opt_in_spec in Hb.
  assert (Nb : ~ bad_balance x).
  { intros (v & E & H1 & H2). fold b in E. rewrite E in Hb. destruct Hb as [E1|[E1|[E1|[]]]]; congruence. }
  set (n := attr x (u "nillable")).
  destruct (opt_in n _) eqn:Hn; cbn [negb].
  2:{ apply opt_in_false in Hn.
      destruct (nillable_inserts es x (q_local q) (str_opt n)) as (er & Her & ->). cbn [bind].
      assert (bad_nillable x).
      { unfold bad_nillable. fold n. destruct n as [v|]; [|exfalso; apply Hn; cbn; auto].
        exists v. split; [reflexivity|]. split; intros ->; apply Hn; cbn; auto. }
      right. exists er, "202"%string. split; [reflexivity|]. split; [exact Her|].
      split; [|right; right; left; auto].
      intros c (_ & _ & _ & _ & E & _). apply Hn. unfold n. cbn.
      destruct (c_nillable c); [rewrite E; auto|]. destruct E as [E|E]; rewrite E; auto. }
  rewrite opt_in_spec in Hn.
  assert (Nn : ~ bad_nillable x).
  { intros (v & E & H1 & H2). fold n in E. rewrite E in Hn. destruct Hn as [E1|[E1|[E1|[]]]]; congruence. }
  destruct (attr x (u "type")) as [ty|] eqn:Ht.
  - left. eexists. split; [|reflexivity]. unfold valid_concept. cbn [c_period c_balance c_nillable c_type].
    fold p b n.
    assert (Ep : exists v, p = Some v /\ (v = u "instant" \/ v = u "duration")).
    { destruct Hp as [E|[E|[]]]; rewrite <- E; eauto. }
    destruct Ep as (v & Ep & Ev). rewrite Ep. cbn [str_opt].
    split; [reflexivity|]. split; [exact Ev|]. split; [reflexivity|].
    split. { destruct Hb as [E|[E|[E|[]]]]; rewrite <- E; auto. }
    split; [|exact Ht].
    destruct (opt_eqb_spec n (Some (u "true"))) as [E|E]; [exact E|].
    destruct Hn as [E1|[E1|[E1|[]]]]; auto; congruence.
  - destruct (type_inserts es x (q_local q)) as (er & Her & ->). cbn [bind].
    right. exists er, "203"%string. split; [reflexivity|]. split; [exact Her|].
    split; [|right; right; right; auto].
    intros c (_ & _ & _ & _ & _ & E). congruence.
Qed.

(** ** Kinds *)

Lemma contains_or x name d text : contains text d = false ->
  contains text (attr_or x name d) = true <-> mentions_text (attr x name) text.
Proof.
  intros Hd. unfold attr_or, mentions_text. rewrite contains_spec. split.
  - intros (a & b & E). destruct (attr x name) as [v|]; [eauto|].
    exfalso. assert (contains text d = true) by (apply contains_spec; eauto). congruence.
  - intros (v & a & b & E & ->). rewrite E. eauto.
Qed.

Lemma abstract_spec x : str_eqb (attr_or x (u "abstract") (u "false")) (u "true") = true <-> is_abstract_decl x.
Proof.
  unfold attr_or, is_abstract_decl. rewrite str_eqb_eq. destruct (attr x (u "abstract")) as [v|].
  - split; congruence.
  - split; [intros E; vm_compute in E; discriminate E|discriminate].
Qed.

(** A declaration that is not a concept makes an element at once. *)
Definition plain_body (k : ekind) : body :=
  match k with
  | KConcept => BAbstract | KAbstract => BAbstract | KLineItems => BLineItems | KHypercube => BHypercube
  | KDimension => BDimension None | KMember => BMember
  end.

Lemma bool_iff (b : bool) (P : Prop) : (b = true <-> P) -> (b = true /\ P) \/ (b = false /\ ~ P).
Proof. destruct b; intros [H1 H2]; [left; auto|right]. split; [reflexivity|]. intros H. apply H2 in H; discriminate. Qed.

Lemma create_cases x q es :
  (exists k, k <> KConcept /\ declares x k /\
     create_element x q es = Ok (Some (RElement q (attr x (u "id")) (plain_body k)), es)) \/
  (declares x KConcept /\ concept_outcome x (attr x (u "id")) q es (create_element x q es)) \/
  ((forall k, ~ declares x k) /\ create_element x q es = Ok (None, es)).
Proof.
  unfold create_element.
  assert (Hc : forall (text name : str), contains text [] = false ->
            contains text (attr_or x name []) = true <-> mentions_text (attr x name) text)
    by (intros; apply contains_or; auto).
  destruct (bool_iff _ _ (Hc (u "domainItemType") (u "type") eq_refl)) as [[-> Hd]|[-> Hd]].
  { left. exists KMember. split; [discriminate|]. split; [constructor; exact Hd|reflexivity]. }
  destruct (bool_iff _ _ (abstract_spec x)) as [[-> Ha]|[-> Ha]]; cbn [negb andb].
  - destruct (bool_iff _ _ (Hc (u "hypercubeItem") (u "substitutionGroup") eq_refl)) as [[-> Hh]|[-> Hh]].
    { left. exists KHypercube. split; [discriminate|]. split; [constructor; assumption|reflexivity]. }
    destruct (bool_iff _ _ (Hc (u "dimensionItem") (u "substitutionGroup") eq_refl)) as [[-> Hi]|[-> Hi]].
    { left. exists KDimension. split; [discriminate|]. split; [constructor; assumption|reflexivity]. }
    destruct (bool_iff _ _ (Hc (u "LineItems") (u "name") eq_refl)) as [[-> Hl]|[-> Hl]].
    { left. exists KLineItems. split; [discriminate|]. split; [constructor; assumption|reflexivity]. }
    left. exists KAbstract. split; [discriminate|]. split; [constructor; assumption|reflexivity].
  - destruct (bool_iff _ _ (Hc (u "item") (u "substitutionGroup") eq_refl)) as [[-> Hi]|[-> Hi]].
    { right; left. split; [constructor; assumption|]. apply concept_from_xml_outcome. }
    right; right. split; [|reflexivity]. intros k H. destruct H; contradiction.
Qed.

Lemma declares_one x k k' : declares x k -> declares x k' -> k = k'.
Proof. intros [] []; congruence || contradiction. Qed.
