(** What was reported before does not change what reading inline documents does. *)
From Verif Require Import Base QNameModel ErrBase ErrTable ErrModel NumModel DateModel CtxModel InlineModel.
Local Opaque insert create u.

(** The state with more errors before *)
Definition after (es : repo xml) (s : state) : state := State (es ++ s_errors s) (s_chars s) (s_aspects s) (s_facts s).
Definition framed {A} (m : M A) : Prop :=
  forall es s, m (after es s) = match m s with Ok (a, s') => Ok (a, after es s') | Raise e => Raise e end.

Lemma fr_ret {A} (a : A) : framed (ret a).
Proof. intros es s. reflexivity. Qed.
Lemma fr_fail {A} e : framed (@fail A e).
Proof. intros es s. reflexivity. Qed.
Lemma fr_lift {A} (r : res A) : framed (lift r).
Proof. intros es s. destruct r; reflexivity. Qed.
Lemma fr_bind {A B} (m : M A) (f : A -> M B) : framed m -> (forall a, framed (f a)) -> framed (mbind m f).
Proof. intros H H' es s. unfold mbind. rewrite H. destruct (m s) as [[a s']|]; [apply H'|reflexivity]. Qed.
Lemma insert_after {A} (es es' : repo A) code x kw :
  insert (es ++ es') code x kw = match insert es' code x kw with Ok l => Ok (es ++ l) | Raise e => Raise e end.
Proof.
  Local Transparent insert. unfold insert. destruct (create code x kw); cbn; unfold insert_premade; [rewrite <- ?app_assoc|]; reflexivity. Local Opaque insert.
Qed.
Lemma fr_report code x kw : framed (report code x kw).
Proof. intros es s. unfold report. cbn [after s_errors]. rewrite insert_after. destruct (insert _ _ _ _); reflexivity. Qed.
Lemma fr_report_plain code : framed (report_plain code).
Proof. intros es s. unfold report_plain. cbn [after s_errors]. rewrite insert_after. destruct (insert _ _ _ _); reflexivity. Qed.
Lemma fr_char_has i k : framed (char_has i k).
Proof. intros es s. reflexivity. Qed.
Lemma fr_char_get i k : framed (char_get i k).
Proof. intros es s. unfold char_get. cbn [after s_chars]. destruct (dict_get _ _ _) as [c|]; [|reflexivity]. destruct (cls_eqb _ _); reflexivity. Qed.
Lemma fr_char_upsert i c : framed (char_upsert i c).
Proof. intros es s. reflexivity. Qed.
Lemma fr_aspect_has i : framed (aspect_has i).
Proof. intros es s. reflexivity. Qed.
Lemma fr_aspect_get i : framed (aspect_get i).
Proof. intros es s. unfold aspect_get. cbn [after s_aspects]. destruct (dict_get _ _ _); reflexivity. Qed.
Lemma fr_aspect_upsert i : framed (aspect_upsert i).
Proof. intros es s. reflexivity. Qed.
#[local] Hint Resolve fr_ret fr_fail fr_lift fr_report fr_report_plain fr_char_has fr_char_get fr_char_upsert fr_aspect_has fr_aspect_get fr_aspect_upsert : framed.
Ltac fr := repeat first
  [ solve [auto with framed]
  | apply fr_bind; [|intros ?]
  | match goal with |- framed (match ?x with _ => _ end) => destruct x end
  | match goal with |- framed (let '(_, _) := ?x in _) => destruct x end
  | progress cbv zeta ].
Lemma fr_when b m : framed m -> framed (when b m).
Proof. intros H. unfold when. fr. Qed.
#[local] Hint Resolve fr_when : framed.
Lemma fr_for_each {A} (f : A -> M unit) l : (forall x, framed (f x)) -> framed (for_each f l).
Proof. intros H. induction l as [|x l IH]; cbn [for_each]; fr. Qed.
#[local] Hint Resolve fr_for_each : framed.

Lemma fr_entity x : framed (parse_entity x).
Proof. unfold parse_entity. fr. Qed.
Lemma fr_explicit rep x : framed (parse_explicit rep x).
Proof. unfold parse_explicit. fr. Qed.
Lemma fr_typed rep x : framed (parse_typed rep x).
Proof. unfold parse_typed. fr. Qed.
Lemma fr_date pd x : framed (get_context_date pd x).
Proof. unfold get_context_date. fr. Qed.
#[local] Hint Resolve fr_entity fr_explicit fr_typed fr_date : framed.
Lemma fr_period pd x : framed (parse_period pd x).
Proof. unfold parse_period, parse_instant_period, parse_duration_period. fr. Qed.
Lemma fr_measure x : framed (parse_measure x).
Proof. unfold parse_measure. fr. Qed.
#[local] Hint Resolve fr_period fr_measure : framed.
Lemma fr_divide x i l : forall a b, framed (parse_divide x i l a b).
Proof. induction l as [|y l IH]; intros a b; cbn [parse_divide]; fr. Qed.
#[local] Hint Resolve fr_divide : framed.
Lemma fr_unit x : framed (parse_unit x).
Proof. unfold parse_unit. fr. Qed.
Lemma fr_dimensions rep l : forall c, framed (parse_dimensions rep l c).
Proof. induction l as [|x l IH]; intros c; cbn [parse_dimensions]; fr. Qed.
#[local] Hint Resolve fr_unit fr_dimensions : framed.
Lemma fr_context pd rep x l : framed (parse_context pd rep x l).
Proof. unfold parse_context. fr. Qed.
#[local] Hint Resolve fr_context : framed.

Lemma fr_header_children h l : forall c, framed (header_children h l c).
Proof. induction l as [|x l IH]; intros c; cbn [header_children]; fr. Qed.
#[local] Hint Resolve fr_header_children : framed.
Lemma fr_header h : framed (parse_header h).
Proof. unfold parse_header. fr. Qed.
#[local] Hint Resolve fr_header : framed.
Lemma fr_collect {A} (f : A -> M collected) l : (forall x, framed (f x)) -> forall c, framed (collect f l c).
Proof. intros H. induction l as [|x l IH]; intros c; cbn [collect]; fr. Qed.
#[local] Hint Resolve fr_collect : framed.
Lemma fr_check_head x : framed (check_head x).
Proof. unfold check_head. fr. Qed.
#[local] Hint Resolve fr_check_head : framed.
Lemma fr_head x : framed (check_no_header_element_in_head x).
Proof. unfold check_no_header_element_in_head. fr. Qed.
#[local] Hint Resolve fr_head : framed.
Lemma fr_headers l : framed (parse_headers l).
Proof. unfold parse_headers. apply fr_bind; [apply fr_collect; intros x; fr|intros c; fr]. Qed.
Lemma fr_taken x t i : framed (check_taken x t i).
Proof. unfold check_taken. fr. Qed.
#[local] Hint Resolve fr_taken fr_headers : framed.
Lemma fr_reference k : framed (check_reference k).
Proof. unfold check_reference. fr. Qed.
#[local] Hint Resolve fr_reference : framed.
Lemma fr_references l : forall t, framed (parse_references l t).
Proof. induction l as [|x l IH]; intros t; cbn [parse_references]; fr. Qed.
Lemma fr_resource x l : forall c, framed (parse_resource x l c).
Proof. induction l as [|k l IH]; intros c; cbn [parse_resource]; fr. Qed.
#[local] Hint Resolve fr_references fr_resource : framed.
Lemma fr_resources l : forall c, framed (parse_resources l c).
Proof. induction l as [|k l IH]; intros c; cbn [parse_resources]; fr. Qed.
Lemma fr_check_hidden x k : framed (check_hidden x k).
Proof. unfold check_hidden. fr. Qed.
#[local] Hint Resolve fr_resources fr_check_hidden : framed.
Lemma fr_hidden l : framed (validate_hidden l).
Proof. unfold validate_hidden. apply fr_for_each. intros x. fr. Qed.
Lemma fr_contexts pd rep l : forall t cs, framed (parse_contexts pd rep l t cs).
Proof. induction l as [|x l IH]; intros t cs; cbn [parse_contexts]; fr. Qed.
Lemma fr_units l : forall t, framed (parse_units l t).
Proof. induction l as [|x l IH]; intros t; cbn [parse_units]; fr. Qed.
Lemma fr_report_all x v l : framed (report_all x v l).
Proof. unfold report_all. fr. Qed.
Lemma fr_parent x p : framed (check_parent x p).
Proof. unfold check_parent. fr. Qed.
Lemma fr_number x n c : framed (number_attribute x n c).
Proof. unfold number_attribute. fr. Qed.
#[local] Hint Resolve fr_hidden fr_contexts fr_units fr_report_all fr_parent fr_number : framed.
Lemma fr_non_fraction pf n c t : framed (parse_non_fraction pf n c t).
Proof. unfold parse_non_fraction. fr. Qed.
Lemma fr_non_numeric ev n c t : framed (parse_non_numeric ev n c t).
Proof. unfold parse_non_numeric. fr. Qed.
Lemma fr_find_units x tag : framed (find_units x tag).
Proof.
  unfold find_units. destruct (attr x (u "unitRef")) as [[|c i]|]; [fr| |fr]. intros es s. rewrite fr_char_get.
  destruct (char_get (c :: i) ClsUnit s) as [[ch s']|[]]; try reflexivity. revert es s. fr.
Qed.
#[local] Hint Resolve fr_non_fraction fr_non_numeric fr_find_units : framed.
Lemma fr_fact_context rep cs x tag : framed (fact_context rep cs x tag).
Proof. unfold fact_context. fr. Qed.
#[local] Hint Resolve fr_fact_context : framed.
Lemma fr_facts rep pf ev cs l : forall last t fr, framed (parse_facts rep pf ev cs l last t fr).
Proof. induction l as [|n l IH]; intros last t r; cbn [parse_facts]; fr. Qed.
Lemma fr_continuations k t : framed (check_continuations k t).
Proof. unfold check_continuations. fr. Qed.
#[local] Hint Resolve fr_facts fr_continuations : framed.

Theorem fr_inline pd rep pf ev k docs : framed (parse_inline pd rep pf ev k docs).
Proof. unfold parse_inline. fr. Qed.
