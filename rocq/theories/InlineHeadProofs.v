(** Proofs about what is reported about the contexts and units of inline documents. *)
From Verif Require Import Base PyNum QNameModel ErrModel NumModel CtxModel CtxSpec CtxProofs CtxParseProofs CtxReportSpec CtxReportProofs InlineModel InlineHeadSpec.
From Verif Require InlineSpec InlineProofs.
Local Opaque u create insert.

Section Heads.
Variable parse_date : str -> res date.
Variable rep : repository.
Variable docs : list xml.
Notation J := (inv parse_date rep docs).

Lemma same_keeps (I : state -> Prop) code x kw : (forall s es, I s -> I (State es (s_chars s) (s_aspects s) (s_facts s))) -> CtxReportProofs.keeps I (report code x kw).
Proof. intros H s a s' Hi. unfold report. destruct (insert _ _ _ _); [|discriminate]. intros [= <- <-]. apply H, Hi. Qed.
Lemma J_report code x kw : CtxReportProofs.keeps J (report code x kw).
Proof. apply same_keeps. intros s es H. exact H. Qed.
Lemma J_ret {A} (a : A) : CtxReportProofs.keeps J (ret a).
Proof. intros s b s' Hi [= <- <-]. exact Hi. Qed.
Lemma J_when b m : CtxReportProofs.keeps J m -> CtxReportProofs.keeps J (when b m).
Proof. intros H. destruct b; [exact H|apply J_ret]. Qed.

Lemma says_taken I x ids : attr x (u "id") = Some (id_of x) -> says I (check_taken x ids (id_of x)) (fun _ rs => rs = used_again ids x).
Proof.
  intros E. unfold check_taken, used_again, when, mem. destruct (existsb (str_eqb (id_of x)) ids); cbn [negb report_unless]; [apply says_report|apply says_ret]; reflexivity.
Qed.

Lemma says_contexts l : no_period_word parse_date -> (forall x, In x l -> occurs docs x) ->
  (forall x, In x l -> forall xp, find_kid (u "period") x = Some xp -> plain_period xp) -> forall taken seen cs,
  (forall i, existsb (str_eqb i) seen = dict_mem str_eqb cs i) ->
  says J (parse_contexts parse_date rep l taken cs) (fun _ rs => rs = contexts_reports parse_date rep taken seen l).
Proof.
  intros Hw Hl Hp. induction l as [|x l IH]; intros taken seen cs Hs; cbn [parse_contexts contexts_reports].
  { apply says_ret. reflexivity. }
  specialize (IH (fun y H => Hl y (or_intror H)) (fun y H => Hp y (or_intror H))).
  destruct (attr x (u "id")) as [id|] eqn:Eid.
  2:{ intros s a s' _. cbn [is_some negb when]. unfold mbind. destruct (report _ _ _ s) as [[[] s1]|]; [|discriminate].
      destruct (check_taken _ _ _ s1) as [[[] s2]|]; [|discriminate]. unfold parse_context, mbind, lift, get_str_attribute. rewrite Eid. discriminate. }
  assert (Ei : id_of x = id) by (unfold id_of; rewrite Eid; reflexivity).
  cbn [is_some negb when str_opt]. eapply says_bind; [apply J_ret|apply (says_ret _ _ (fun _ rs => rs = [])); reflexivity|]. intros [] rs ->. cbn [app].
  rewrite <- Ei in Eid |- *. eapply says_bind; [|apply says_taken, Eid|].
  { unfold check_taken. apply J_when, J_report. }
  intros [] rs ->.
  eapply says_bind with (P := fun r rs => (given r = context_readable x /\ rs = context_reports parse_date rep x) /\ match r with Some c => c_id c = id_of x | None => True end).
  { intros s a s' Hi E. apply (parse_context_spec parse_date rep docs x [] (Hl x (or_introl eq_refl)) s a s' Hi E). }
  { intros s a s' Hi E. destruct (says_context parse_date rep docs x [] Hw (Hp x (or_introl eq_refl)) s a s' Hi E) as (K & rs & es & H1 & H2 & H3).
    split; [exact K|]. exists rs, es. split; [exact H1|]. split; [exact H2|]. split; [exact H3|].
    destruct (InlineProofs.parse_context_step parse_date rep docs x (Hl x (or_introl eq_refl)) s a s' Hi E) as (_ & es' & _ & _ & Hc).
    destruct a as [c|]; [|exact Logic.I]. eapply InlineProofs.context_as_id; eassumption. }
  intros [c|] rs [[Hr ->] Hc]; cbn [given] in Hr; rewrite <- Hr.
  - unfold insert_context. rewrite Hc, <- Hs. unfold used_again. destruct (existsb (str_eqb (id_of x)) seen) eqn:Em; cbn [negb when report_unless].
    + eapply says_bind; [apply J_report|apply (says_report _ _ _ _ (fun _ rs => rs = [Report "IXBRL_DUPLICATE_ELEMENT_ID" x [(u "id", id_of x)]])); reflexivity|].
      intros [] rs ->. eapply says_conseq; [apply (IH _ (id_of x :: seen)); intros i; cbn [existsb]; rewrite <- Hs; destruct (str_eqb_spec i (id_of x)) as [->|_]; [rewrite Em|]; reflexivity|].
      cbv beta. intros _ rs ->. reflexivity.
    + eapply says_bind; [apply J_ret|apply (says_ret _ _ (fun _ rs => rs = [])); reflexivity|].
      intros [] rs ->. eapply says_conseq; [apply (IH _ (id_of x :: seen)); intros i; cbn [existsb]; rewrite (dict_mem_set _ str_eqb_spec), <- Hs, orb_comm; first [reflexivity|f_equal; apply str_eqb_sym|rewrite (str_eqb_sym i), orb_comm; reflexivity]|].
      cbv beta. intros _ rs ->. reflexivity.
  - eapply says_conseq; [apply IH, Hs|]. cbv beta. intros _ rs ->. reflexivity.
Qed.

(** Units *)
Lemma unit_made x s c s' : parse_unit x s = Ok (Some c, s') -> exists ns ds, c = ChUnit (id_of x) ns ds.
Proof.
  unfold parse_unit, id_of. unfold mbind at 1. unfold lift at 1, get_str_attribute. destruct (attr x (u "id")) as [id|]; [|discriminate]. cbn [str_opt].
  unfold mbind at 1, char_has. unfold mbind at 1. match goal with |- match ?m with _ => _ end = _ -> _ => destruct m as [[[] s1]|]; [|discriminate] end.
  assert (R : forall code kw s1, (let! _ := report code x kw in ret (Some (ChUnit id [] []))) s1 = Ok (Some c, s') -> exists ns ds, c = ChUnit id ns ds).
  { intros code kw s2. unfold mbind. destruct (report code x kw s2) as [[[] s3]|]; [|discriminate]. intros [= <- _]. eauto. }
  destruct (x_kids x) as [|k [|k' r]]; [apply R| |apply R].
  unfold mbind at 1, lift at 1. destruct (tag_contains (u "measure") k) as [[|]|]; [| |discriminate].
  { unfold mbind. destruct (parse_measure k s1) as [[[q|] s2]|]; [|discriminate|discriminate]. intros [= <- _]. eauto. }
  unfold mbind at 1, lift at 1. destruct (tag_contains (u "divide") k) as [[|]|]; [|apply R|discriminate].
  unfold mbind at 1. match goal with |- match ?m with _ => _ end = _ -> _ => destruct m as [[[] s2]|]; [|discriminate] end.
  unfold mbind at 1. match goal with |- match ?m with _ => _ end = _ -> _ => destruct m as [[[[ns ds]|] s3]|]; [|discriminate|discriminate] end.
  destruct (x_kids k) as [|c1 [|c2 l]]; [discriminate|discriminate|].
  unfold mbind. match goal with |- match ?m with _ => _ end = _ -> _ => destruct m as [[[] s4]|]; [|discriminate] end. intros [= <- _]. eauto.
Qed.
Definition knows_just (seen : list str) (s : state) : Prop := forall i, known s i = existsb (str_eqb i) seen.
Lemma unit_says x s c s' seen : attr x (u "id") = Some (id_of x) -> knows_just seen s -> parse_unit x s = Ok (c, s') ->
  same s s' /\ given c = unit_readable x /\ exists es, s_errors s' = s_errors s ++ es /\ Forall2 made (used_again seen x ++ unit_reports x (id_of x)) es.
Proof.
  intros Hid Hk. unfold used_again. rewrite <- Hk. destruct (known s (id_of x)) eqn:Ek; cbn [negb report_unless app].
  - assert (E0 : parse_unit x s = (let! _ := report "IXBRL_DUPLICATE_ELEMENT_ID" x [(u "id", id_of x)] in unit_body x (id_of x)) s).
    { unfold parse_unit. unfold mbind at 1. unfold lift, get_str_attribute. rewrite Hid.
      unfold mbind at 1. unfold char_has at 1. change (dict_mem char_key_eqb (s_chars s) (id_of x, ClsUnit)) with (known s (id_of x)). rewrite Ek. reflexivity. }
    rewrite E0. intros E.
    assert (G : says (fun _ => True) (let! _ := report "IXBRL_DUPLICATE_ELEMENT_ID" x [(u "id", id_of x)] in unit_body x (id_of x))
      (fun r rs => given r = unit_readable x /\ rs = Report "IXBRL_DUPLICATE_ELEMENT_ID" x [(u "id", id_of x)] :: unit_reports x (id_of x))).
    { eapply says_bind; [apply keeps_true|apply (says_report _ _ _ _ (fun _ rs => rs = [Report "IXBRL_DUPLICATE_ELEMENT_ID" x [(u "id", id_of x)]])); reflexivity|].
      intros [] rs ->. eapply says_conseq; [apply says_unit_body|]. cbv beta. intros r rs [Hr ->]. split; [exact Hr|reflexivity]. }
    destruct (G s c s' Logic.I E) as (K & rs & es & H1 & H2 & H3 & ->). eauto.
  - intros E. destruct (says_unit x (id_of x) Hid s c s' Ek E) as (K & rs & es & H1 & H2 & H3 & ->). eauto.
Qed.
Lemma units_say l : forall taken seen s t s', knows_just seen s -> parse_units l taken s = Ok (t, s') ->
  exists es, s_errors s' = s_errors s ++ es /\ Forall2 made (units_reports taken seen l) es.
Proof.
  induction l as [|x l IH]; intros taken seen s t s' Hk; cbn [parse_units units_reports].
  { intros [= _ <-]. exists []. rewrite app_nil_r. split; [reflexivity|constructor]. }
  destruct (attr x (u "id")) as [id|] eqn:Eid.
  2:{ unfold mbind. destruct (when _ _ s) as [[[] s1]|]; [|discriminate]. unfold ret at 1. unfold parse_unit, mbind, lift, get_str_attribute. rewrite Eid. discriminate. }
  assert (Ei : id = id_of x) by (unfold id_of; rewrite Eid; reflexivity). subst id. cbn [is_some negb when str_opt].
  unfold mbind at 1. unfold ret at 1. unfold mbind at 1. destruct (check_taken x taken (id_of x) s) as [[[] s1]|] eqn:E1; [|discriminate].
  destruct (says_taken (fun _ => True) x taken Eid s tt s1 Logic.I E1) as (K1 & rs1 & es1 & A1 & B1 & ->).
  assert (Hk1 : knows_just seen s1) by (intros i; rewrite (proj1 K1); apply Hk).
  unfold mbind at 1. destruct (parse_unit x s1) as [[c s2]|] eqn:E2; [|discriminate].
  destruct (unit_says x s1 c s2 seen Eid Hk1 E2) as (K2 & Hr & es2 & A2 & B2).
  assert (Hk2 : knows_just seen s2) by (intros i; rewrite (proj1 K2); apply Hk1).
  assert (A : forall es', (s_errors s2 ++ es') = s_errors s ++ es1 ++ es2 ++ es') by (intros es'; rewrite A2, A1, <- !app_assoc; reflexivity).
  assert (D : forall s3 k3, s_errors s3 = s_errors s2 -> knows_just k3 s3 -> parse_units l (id_of x :: taken) s3 = Ok (t, s') ->
    exists es, s_errors s' = s_errors s ++ es /\ Forall2 made (used_again taken x ++ used_again seen x ++ unit_reports x (id_of x) ++ units_reports (id_of x :: taken) k3 l) es).
  { intros s3 k3 E3 H3 E. destruct (IH _ _ _ _ _ H3 E) as (es3 & A3 & B3). exists (es1 ++ es2 ++ es3). split; [rewrite A3, E3; apply A|].
    apply Forall2_app; [exact B1|]. rewrite app_assoc. apply Forall2_app; [exact B2|exact B3]. }
  rewrite <- Hr. destruct c as [c|]; cbn [given].
  - destruct (unit_made _ _ _ _ E2) as (ns & ds & ->). cbn [value_str]. unfold mbind, char_upsert. apply D; [reflexivity|].
    intros i. unfold known. cbn [s_chars class_of]. rewrite (dict_mem_set _ char_key_eqb_spec). cbn [existsb].
    change (dict_mem char_key_eqb (s_chars s2) (i, ClsUnit)) with (known s2 i). rewrite (Hk2 i). f_equal. unfold char_key_eqb. cbn [fst snd cls_eqb].
    rewrite andb_true_r. first [reflexivity|apply str_eqb_sym].
  - unfold mbind, ret. apply D; [reflexivity|exact Hk2].
Qed.
End Heads.
