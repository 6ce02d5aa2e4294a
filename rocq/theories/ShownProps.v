(** What dates and characteristics mean apart from the functions of the model: when a date is earlier than
    another (C40), and which texts characteristics are shown with (C26). *)
From Verif Require Import Base PyNum QNameModel CtxModel CtxSpec CtxProofs CtxParseProofs CtxExactProofs CtxProps.
Local Open Scope nat_scope.

(** A date before another *)
Definition earlier (a b : date) : Prop :=
  (d_year a < d_year b \/ d_year a = d_year b /\ (d_month a < d_month b \/ d_month a = d_month b /\ d_day a < d_day b))%Z.
Theorem C40_earlier a b : date_ltb a b = true <-> earlier a b.
Proof.
  unfold date_ltb, earlier. rewrite !orb_true_iff, !andb_true_iff, !orb_true_iff, !andb_true_iff, !Z.ltb_lt, !Z.eqb_eq. tauto.
Qed.
Lemma not_earlier a b : date_ltb a b = false <-> ~ earlier a b.
Proof. rewrite <- C40_earlier. destruct (date_ltb a b); split; congruence. Qed.
(** The order is total, so a duration that is kept starts on the day it ends or before it. *)
Lemma earlier_total a b : earlier a b \/ a = b \/ earlier b a.
Proof.
  destruct a as [y m d], b as [y' m' d']. unfold earlier. cbn [d_year d_month d_day].
  destruct (Z.lt_trichotomy y y') as [H|[->|H]]; [auto| |auto]. destruct (Z.lt_trichotomy m m') as [H|[->|H]]; [left; right; auto| |right; right; right; auto].
  destruct (Z.lt_trichotomy d d') as [H|[->|H]]; [left; right; auto|right; left; reflexivity|right; right; right; auto].
Qed.
Theorem C40_begins_first parse_date rep nillable docs s f : parsed parse_date rep nillable docs s ->
  In f (facts_get_all (s_facts s)) \/ In f (fr_without_id (s_facts s)) ->
  forall a b, get_characteristic (f_context f) a_period = Some (ChPeriod (Duration a b)) -> a = b \/ earlier a b.
Proof.
  intros H Hf a b G. pose proof (C40_ordered _ _ _ _ _ _ H Hf a b G) as K. apply not_earlier in K. destruct (earlier_total a b) as [E|[E|E]]; [right; exact E|left; exact E|contradiction].
Qed.
(** PeriodCharacteristic.duration: two dates make a period unless the second is earlier; one of a single day is made. *)
Theorem C40_single_day parse_date s e ds de : s <> [] -> e <> [] -> parse_date s = Ok ds -> parse_date e = Ok de ->
  ((exists p, make_duration parse_date s e = Ok p) <-> ds = de \/ earlier ds de) /\ forall p, make_duration parse_date s e = Ok p -> p = Duration ds de.
Proof.
  intros Hs He Ps Pe. rewrite (make_duration_bad parse_date s e ds de Ps Pe Hs He). destruct (date_ltb de ds) eqn:E.
  - apply C40_earlier in E. split; [|intros p H; discriminate H]. split; [intros (p & H); discriminate H|]. unfold earlier in *. intros [->|K]; exfalso; lia.
  - split; [|intros p [= <-]; reflexivity]. split; [|eauto]. intros _. apply not_earlier in E. destruct (earlier_total ds de) as [K|[K|K]]; [right; exact K|left; exact K|contradiction].
Qed.
Example C40_example_day : make_duration iso_date (u "2020-12-31") (u "2020-12-31") = Ok (Duration (Date 2020 12 31) (Date 2020 12 31)) /\
  make_duration iso_date (u "2020-12-31") (u "2020-12-30") = Raise ValueError /\ earlier (Date 2020 12 30) (Date 2020 12 31).
Proof. split; [vm_compute; reflexivity|]. split; [vm_compute; reflexivity|]. unfold earlier. cbn [d_year d_month d_day]. lia. Qed.

(** ** Texts *)

(** Four digits of the year, two of the month and two of the day *)
Definition writes_date (d : date) (t : str) : Prop :=
  exists y m dd, t = y ++ u "-" ++ m ++ u "-" ++ dd /\ length y = 4 /\ length m = 2 /\ length dd = 2 /\
    py_int y = Some (d_year d) /\ py_int m = Some (d_month d) /\ py_int dd = Some (d_day d).
Inductive shown_text : characteristic -> str -> Prop :=
| sh_concept e : shown_text (ChConcept e) (q_prefix (e_name e) ++ u ":" ++ q_local (e_name e))
| sh_entity id scheme : shown_text (ChEntity id scheme) (u "{" ++ scheme ++ u "}" ++ id)
| sh_instant d t : writes_date d t -> shown_text (ChPeriod (Instant d)) t
| sh_duration s e t t' : writes_date s t -> writes_date e t' -> shown_text (ChPeriod (Duration s e)) (t ++ u "/" ++ t')
| sh_unit n nums dens : shown_text (ChUnit n nums dens) n
| sh_member d m a : shown_text (ChExplicit d m a) (q_prefix (e_name m) ++ u ":" ++ q_local (e_name m))
| sh_typed d v a : shown_text (ChTyped d v a) v.
Definition real_dates (x : characteristic) : Prop := forall p, x = ChPeriod p -> python_period p.

Lemma date_written d : python_date d -> writes_date d (date_str d).
Proof.
  intros (Hy & Hm & Hd). destruct (year_str_ok (d_year d)) as [A A']; [lia|]. destruct (small_str_ok (d_month d)) as [B B']; [lia|]. destruct (small_str_ok (d_day d)) as [C C']; [lia|].
  exists (zero_pad 4 (z_to_str (d_year d))), (zero_pad 2 (z_to_str (d_month d))), (zero_pad 2 (z_to_str (d_day d))). split; [reflexivity|]. auto 10.
Qed.
Lemma value_shown x : real_dates x -> shown_text x (value_str x).
Proof.
  intros H. destruct x as [e|id sc|[d|s e]|n nu de|d m a|d v a]; cbn [value_str period_str]; try constructor.
  - apply date_written. exact (H _ eq_refl).
  - apply date_written. exact (proj1 (H _ eq_refl)).
  - apply date_written. exact (proj2 (H _ eq_refl)).
Qed.
(** In the row of a fact, each aspect but those named "id" and "value" has the text of its characteristic:
    the name of a concept or member, the dates of a period, the name of a unit, the value of a typed member. *)
Theorem C26_texts id xs v i x :
  first_with (fun y => aspect_of y = aspect_of x) xs x -> real_dates x ->
  aspect_of x <> u "value" -> aspect_of x <> u "id" ->
  exists t, dict_get str_eqb (fact_to_dict (Fact (fold_left add_characteristic xs (new_context id)) v i)) (aspect_of x) = Some t /\ shown_text x t.
Proof.
  intros Hf Hd H1 H2. exists (value_str x). split; [|apply value_shown, Hd].
  rewrite (C26_entries id xs v i (aspect_of x)). destruct (str_eqb_spec (aspect_of x) (u "value")) as [K|_]; [contradiction|].
  destruct (str_eqb_spec (aspect_of x) (u "id")) as [K|_]; [contradiction|]. rewrite fold_get by apply new_ok.
  apply (find_first_with (fun y => str_eqb (aspect_of y) (aspect_of x))) in Hf.
  - rewrite Hf. reflexivity.
  - intros y. destruct (str_eqb_spec (aspect_of y) (aspect_of x)) as [K|K]; split; intros Q; try exact K; try reflexivity; [discriminate Q|contradiction].
Qed.
Example C26_example_texts : exists t,
  dict_get str_eqb (fact_to_dict (Fact (fold_left add_characteristic [ChConcept e_cash; ChTyped e_cash (u "12") (u "t:Cash"); ChPeriod (Duration (Date 2020 1 1) (Date 2020 12 31))] (new_context (u "c1"))) (u "7") (Some (u "f1")))) (u "t:Cash") = Some t /\
  shown_text (ChTyped e_cash (u "12") (u "t:Cash")) t /\ shown_text (ChPeriod (Duration (Date 2020 1 1) (Date 2020 12 31))) (u "2020-01-01/2020-12-31").
Proof.
  exists (u "12"). split; [vm_compute; reflexivity|]. split; [constructor|].
  change (u "2020-01-01/2020-12-31") with (u "2020-01-01" ++ u "/" ++ u "2020-12-31").
  apply (sh_duration (Date 2020 1 1) (Date 2020 12 31)); [exists (u "2020"), (u "01"), (u "01")|exists (u "2020"), (u "12"), (u "31")]; vm_compute; auto 10.
Qed.

Print Assumptions C40_earlier.
Print Assumptions C40_begins_first.
Print Assumptions C40_single_day.
Print Assumptions C26_texts.
