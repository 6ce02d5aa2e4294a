(** Property C104: what is reported about the contexts and units of inline documents. *)
From Verif Require Import Base PyNum NumModel DateModel QNameModel ErrBase ErrTable ErrModel
  CtxModel CtxSpec CtxProofs CtxProps CtxReportSpec InlineModel InlineSpec InlineProofs InlineHeadSpec InlineDocProofs InlineProps.

Local Opaque u create.

Ltac put3 := match goal with |- exists _ _ _, ?p ++ ?q ++ ?r ++ (?a ++ ?y :: ?b ++ ?z :: ?c) = _ => exists (p ++ q ++ r ++ a), b, c; rewrite <- !app_assoc; reflexivity end.
Ltac put2 := match goal with |- exists _ _, ?p ++ ?q ++ ?r ++ (?a ++ ?y :: ?z :: ?c) = _ => exists (p ++ q ++ r ++ a), c; rewrite <- !app_assoc; reflexivity end.

Section Filing.
Variable parse_date : str -> res date.
Variable rep : repository.
Variable py_float : str -> option bool.
Variable era_valid : list (part * str) -> res bool.
Variable kont : list str -> option (list (string * xml * list (str * str)) * list str).
Notation opened := (opened parse_date rep py_float era_valid kont).

(** Whatever the other elements are, the reports about contexts and units are those that are due, in order,
    contexts first. *)
Theorem C104_reports_partial docs cs fr errors : opened docs cs fr errors -> no_period_word parse_date ->
  (forall x xp, In x (doc_contexts docs) -> find_kid (u "period") x = Some xp -> plain_period xp) ->
  exists before ec eu after, errors = before ++ ec ++ eu ++ after /\
    Forall2 CtxReportSpec.made (contexts_reports parse_date rep (rev (ids_of (doc_references docs))) [] (doc_contexts docs)) ec /\
    Forall2 CtxReportSpec.made (units_reports (rev (ids_of (doc_references docs ++ doc_contexts docs))) [] (doc_units docs)) eu.
Proof.
  intros (tk0 & s & H & ->) Hw Hp.
  apply parse_all in H as (osc & osu & osf & tu & tk & e1 & e2 & e3 & e6 & e7 & R).
  destruct R as [_ _ _ _ _ _ _ _ _ _ (rest & E) [Hc (tc & Hcf & Hu)]]. specialize (Hc Hw Hp).
  destruct (contexts_dup parse_date rep py_float kont _ _ _ _ _ Hcf) as [Etc _]. rewrite takes_ids, app_nil_r in Etc, Hc. rewrite Etc in Hu.
  exists (e1 ++ e2 ++ e3), (concat (map snd osc)), (concat (map snd osu)), (e6 ++ e7 ++ rest).
  split; [rewrite E, <- !app_assoc; reflexivity|]. split; [exact Hc|]. rewrite ids_app, rev_app_distr. exact Hu.
Qed.

(** Nothing is reported only if every context says when and about whom, with dates that are dates and in order. *)
Theorem C104_clean docs cs fr : opened docs cs fr [] -> no_period_word parse_date ->
  (forall x xp, In x (doc_contexts docs) -> find_kid (u "period") x = Some xp -> plain_period xp) ->
  (forall x, In x (doc_contexts docs) -> exists xp xe xi scheme,
     find_kid (u "period") x = Some xp /\ find_kid (u "entity") x = Some xe /\
     find_kid (u "identifier") xe = Some xi /\ attr xi (u "scheme") = Some scheme /\
     match find_kid (u "instant") xp with
     | Some i => exists d, date_of parse_date i = Some d
     | None => exists s e ds de, find_kid (u "startDate") xp = Some s /\ find_kid (u "endDate") xp = Some e /\
         date_of parse_date s = Some ds /\ date_of parse_date e = Some de /\ date_ltb de ds = false
     end) /\
  (forall x, In x (doc_units docs) -> unit_reports x (id_of x) = []).
Proof.
  intros H Hw Hp. destruct (C104_reports_partial docs cs fr [] H Hw Hp) as (b & ec & eu & a & E & H1 & H2).
  symmetry in E. apply app_eq_nil in E as [_ E]. apply app_eq_nil in E as [-> E]. apply app_eq_nil in E as [-> _].
  inversion H1 as [E1|]. inversion H2 as [E2|]. symmetry in E1, E2. clear H1 H2 H. split.
  - clear E2. revert E1. generalize (rev (ids_of (doc_references docs))). generalize (@nil str). clear Hp.
    induction (doc_contexts docs) as [|y l IH]; intros seen taken E1 x; [intros []|]. cbn [contexts_reports] in E1.
    apply app_eq_nil in E1 as [_ E1]. apply app_eq_nil in E1 as [K E1]. apply app_eq_nil in E1 as [_ E1].
    intros [->|Hx]; [|eapply IH; eassumption]. clear IH E1. unfold context_reports in K.
    destruct (find_kid (u "period") x) as [xp|]; [|discriminate K]. destruct (find_kid (u "entity") x) as [xe|]; [|discriminate K].
    apply app_eq_nil in K as [K1 K]. apply app_eq_nil in K as [K2 _]. unfold entity_reports in K2.
    destruct (find_kid (u "identifier") xe) as [xi|] eqn:Ei; [|discriminate K2]. destruct (attr xi (u "scheme")) as [sc|] eqn:Esc; [|discriminate K2]. clear K2.
    exists xp, xe, xi, sc. do 4 (split; [assumption || reflexivity|]). unfold period_reports in K1.
    assert (D : forall i, date_reports parse_date i = [] -> exists d, date_of parse_date i = Some d).
    { intros i Ki. unfold date_reports in Ki. destruct (date_of parse_date i) as [d|]; [eauto|discriminate Ki]. }
    destruct (find_kid (u "instant") xp) as [i|]; [apply D, K1|].
    destruct (find_kid (u "startDate") xp) as [s|]; [|discriminate K1]. destruct (find_kid (u "endDate") xp) as [e|]; [|discriminate K1].
    apply app_eq_nil in K1 as [K1 K]. apply app_eq_nil in K as [K2 K3]. apply D in K1 as [ds K1]. apply D in K2 as [de K2].
    unfold order_reports in K3. rewrite K1, K2 in K3. exists s, e, ds, de. do 4 (split; [assumption || reflexivity|]).
    destruct (date_ltb de ds); [discriminate K3|reflexivity].
  - clear E1. revert E2. generalize (rev (ids_of (doc_references docs ++ doc_contexts docs))). generalize (@nil str).
    induction (doc_units docs) as [|y l IH]; intros seen taken E2 x; [intros []|]. cbn [units_reports] in E2.
    apply app_eq_nil in E2 as [_ E2]. apply app_eq_nil in E2 as [_ E2]. apply app_eq_nil in E2 as [K E2].
    intros [->|Hx]; [exact K|eapply IH; eassumption].
Qed.

(** An identifier used by two contexts, or by two units, is reported twice about the second. *)
Theorem C104_twice_refuted :
  (forall taken seen l1 x l2 y l3, id_of x = id_of y -> context_readable x = true -> context_readable y = true ->
     exists a b c, contexts_reports parse_date rep taken seen (l1 ++ x :: l2 ++ y :: l3) =
       a ++ Report "IXBRL_DUPLICATE_ELEMENT_ID" y [(u "id", id_of y)] :: b ++ Report "IXBRL_DUPLICATE_ELEMENT_ID" y [(u "id", id_of y)] :: c) /\
  (forall taken seen l1 x l2 y l3, id_of x = id_of y -> unit_readable x = true ->
     exists a c, units_reports taken seen (l1 ++ x :: l2 ++ y :: l3) =
       a ++ Report "IXBRL_DUPLICATE_ELEMENT_ID" y [(u "id", id_of y)] :: Report "IXBRL_DUPLICATE_ELEMENT_ID" y [(u "id", id_of y)] :: c).
Proof.
  assert (U : forall ids x, In (id_of x) ids -> used_again ids x = [Report "IXBRL_DUPLICATE_ELEMENT_ID" x [(u "id", id_of x)]]).
  { intros ids x H. unfold used_again. replace (existsb (str_eqb (id_of x)) ids) with true; [reflexivity|].
    symmetry. apply existsb_exists. exists (id_of x). split; [exact H|apply str_eqb_refl]. }
  split.
  - intros taken seen l1 x l2 y l3 Hi Rx Ry.
    assert (S : forall l2 taken seen, In (id_of y) taken -> In (id_of y) seen -> exists a b c, contexts_reports parse_date rep taken seen (l2 ++ y :: l3) =
       a ++ Report "IXBRL_DUPLICATE_ELEMENT_ID" y [(u "id", id_of y)] :: b ++ Report "IXBRL_DUPLICATE_ELEMENT_ID" y [(u "id", id_of y)] :: c).
    { clear l1 l2 taken seen. induction l2 as [|z l2 IH]; intros taken seen H1 H2; cbn [app contexts_reports].
      - rewrite Ry, (U _ _ H1), (U _ _ H2). exists [], (context_reports parse_date rep y). eexists. reflexivity.
      - destruct (IH (id_of z :: taken) (if context_readable z then id_of z :: seen else seen)) as (a & b & c & ->); [right; exact H1|destruct (context_readable z); [right|]; exact H2|].
        put3. }
    revert taken seen. induction l1 as [|z l1 IH]; intros taken seen; cbn [app contexts_reports].
    + rewrite Rx. destruct (S l2 (id_of x :: taken) (id_of x :: seen)) as (a & b & c & ->); [left; exact Hi|left; exact Hi|].
      put3.
    + destruct (IH (id_of z :: taken) (if context_readable z then id_of z :: seen else seen)) as (a & b & c & ->). put3.
  - intros taken seen l1 x l2 y l3 Hi Rx.
    assert (S : forall l2 taken seen, In (id_of y) taken -> In (id_of y) seen -> exists a c, units_reports taken seen (l2 ++ y :: l3) =
       a ++ Report "IXBRL_DUPLICATE_ELEMENT_ID" y [(u "id", id_of y)] :: Report "IXBRL_DUPLICATE_ELEMENT_ID" y [(u "id", id_of y)] :: c).
    { clear l1 l2 taken seen. induction l2 as [|z l2 IH]; intros taken seen H1 H2; cbn [app units_reports].
      - rewrite (U _ _ H1), (U _ _ H2). exists []. eexists. reflexivity.
      - destruct (IH (id_of z :: taken) (if unit_readable z then id_of z :: seen else seen)) as (a & c & ->); [right; exact H1|destruct (unit_readable z); [right|]; exact H2|].
        put2. }
    revert taken seen. induction l1 as [|z l1 IH]; intros taken seen; cbn [app units_reports].
    + rewrite Rx. destruct (S l2 (id_of x :: taken) (id_of x :: seen)) as (a & c & ->); [left; exact Hi|left; exact Hi|].
      put2.
    + destruct (IH (id_of z :: taken) (if unit_readable z then id_of z :: seen else seen)) as (a & c & ->). put2.
Qed.
End Filing.

(** ** Samples *)

Local Transparent u create.
Definition h_context (id : string) (kids : list xml) : xml := i_elem (xbrli "context") [("id"%string, id)] None kids.
Definition h_period (a b : string) : xml :=
  i_elem (xbrli "period") [] None [i_elem (xbrli "startDate") [] (Some a) []; i_elem (xbrli "endDate") [] (Some b) []].
Definition h_entity (kids : list xml) : xml := i_elem (xbrli "entity") [] None kids.
Definition h_unit (id : string) (kids : list xml) : xml := i_elem (xbrli "unit") [("id"%string, id)] None kids.
Definition h_measure (t : option string) : xml := i_elem (xbrli "measure") [] t [].
Definition h_doc : document := i_doc
  [i_header [i_references "r" [i_schema];
     i_resources [i_context "c1"; h_context "r" [i_entity]; h_context "c3" [h_entity []; h_period "2020-12-31" "2020-01-01"];
                  i_context "c1"; h_context "c4" [i_entity; h_period "x" "2020-01-01"];
                  h_unit "c1" [h_measure None]; i_unit "usd"; h_unit "usd" []]]] [].
Definition h_codes : list string :=
  ["IXBRL_DUPLICATE_ELEMENT_ID"; "MISSING_CONTEXT_PERIOD"; "DURATION_PERIOD_START_AFTER_END"; "ENTITY_MISSING_IDENTIFIER_ELEMENT";
   "IXBRL_DUPLICATE_ELEMENT_ID"; "IXBRL_DUPLICATE_ELEMENT_ID"; "INVALID_CONTEXT_PERIOD_DATE";
   "IXBRL_DUPLICATE_ELEMENT_ID"; "XML_MISSING_UNIT_MEASURE"; "IXBRL_DUPLICATE_ELEMENT_ID"; "IXBRL_DUPLICATE_ELEMENT_ID";
   "XML_UNIT_ELEMENT_WITHOUT_ONE_CHILD"]%string.

Lemma i_opened docs n : match i_parse docs with Ok (_, s) => length (s_errors s) = n | Raise _ => False end ->
  exists cs fr es, opened iso_date s_rep (fun _ => Some false) (fun _ => Ok true) (fun t => Some ([], t)) docs cs fr es /\ length es = n.
Proof.
  destruct (i_parse docs) as [[[[t cs] fr] s]|] eqn:E; [|intros []]. intros L. exists cs, fr, (s_errors s). split; [|exact L].
  exists t, s. split; [exact E|reflexivity].
Qed.

(** All of it is reported. *)
Example C104_example :
  map (fun n => p_code n) (contexts_reports iso_date s_rep (rev (ids_of (doc_references [h_doc]))) [] (doc_contexts [h_doc]) ++
    units_reports (rev (ids_of (doc_references [h_doc] ++ doc_contexts [h_doc]))) [] (doc_units [h_doc])) = h_codes /\
  (exists cs fr es, opened iso_date s_rep (fun _ => Some false) (fun _ => Ok true) (fun t => Some ([], t)) [h_doc] cs fr es /\ length es = 12) /\
  no_period_word iso_date /\
  forall x xp, In x (doc_contexts [h_doc]) -> find_kid (u "period") x = Some xp -> plain_period xp.
Proof.
  split; [vm_compute; reflexivity|]. split; [|split; [exact sample_no_period_word|]].
  - apply i_opened. vm_compute. reflexivity.
  - intros x xp H. vm_compute in H.
    repeat (destruct H as [<-|H]; [intros E; vm_compute in E; first [discriminate E|injection E as <-; intros n i t Hn; vm_compute in Hn;
      repeat (destruct Hn as [<-|Hn]; [intros E1 E2; vm_compute in E1; first [discriminate E1|injection E1 as <-; vm_compute in E2; injection E2 as <-; vm_compute; intuition discriminate]|]); destruct Hn]|]).
    destruct H.
Qed.
(** Nothing is reported about the contexts and units of the other samples. *)
Example C104_clean_example :
  exists cs fr, opened iso_date s_rep (fun _ => Some false) (fun _ => Ok true) (fun t => Some ([], t)) [i_doc i_good []] cs fr [] /\
    length (doc_contexts [i_doc i_good []]) = 2 /\ length (doc_units [i_doc i_good []]) = 1.
Proof.
  destruct (i_opened [i_doc i_good []] 0) as (cs & fr & [|] & H & L); [vm_compute; reflexivity| |discriminate L].
  exists cs, fr. split; [exact H|]. vm_compute. auto.
Qed.
(** Two contexts and two units that share identifiers. *)
Example C104_twice_example :
  id_of (nth 0 (doc_contexts [h_doc]) i_comment) = id_of (nth 3 (doc_contexts [h_doc]) i_comment) /\
  context_readable (nth 0 (doc_contexts [h_doc]) i_comment) = true /\ context_readable (nth 3 (doc_contexts [h_doc]) i_comment) = true /\
  id_of (nth 1 (doc_units [h_doc]) i_comment) = id_of (nth 2 (doc_units [h_doc]) i_comment) /\
  unit_readable (nth 1 (doc_units [h_doc]) i_comment) = true.
Proof. vm_compute. auto. Qed.

Print Assumptions C104_reports_partial.
Print Assumptions C104_clean.
Print Assumptions C104_twice_refuted.
