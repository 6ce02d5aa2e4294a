(** Proofs about what is reported about the fact elements of inline documents (C79). *)
From Verif Require Import Base Regex Registry PyNum NumModel DateModel QNameModel QNameProofs ErrBase ErrTable ErrModel
  CtxModel CtxSpec CtxProofs CtxParseProofs InlineModel InlineSpec InlineProofs InlineStepProofs InlineReportSpec.

(** ** The errors that can be recorded *)

Lemma mk_decimals x t : exists e, create (elem := xml) "INVALID_DECIMALS_ATTRIBUTE_VALUE" x [(u "decimals", t)] = Ok e. Proof. recordable. Qed.
Lemma mk_precision x t : exists e, create (elem := xml) "INVALID_PRECISION_ATTRIBUTE_VALUE" x [(u "precision", t)] = Ok e. Proof. recordable. Qed.
Lemma mk_exclusive x t : exists e, create (elem := xml) "IXBRL_MUTUALLY_EXCLUSIVE_ATTRIBUTES_IN_NON_FRACTION" x [(u "id", t)] = Ok e. Proof. recordable. Qed.
Lemma mk_both x : exists e, create (elem := xml) "IXBRL_BOTH_TEXT_AND_CHILDREN_IN_NON_FRACTION" x [] = Ok e. Proof. recordable. Qed.
Lemma mk_nil_inside x : exists e, create (elem := xml) "IXBRL_TEXT_OR_CHILDREN_WITH_NIL" x [] = Ok e. Proof. recordable. Qed.
Lemma mk_nothing x : exists e, create (elem := xml) "IXBRL_NO_TEXT_OR_CHILDREN_WITH_ABSENT_NIL_ATTRIBUTE" x [] = Ok e. Proof. recordable. Qed.
Lemma mk_nil_child x : exists e, create (elem := xml) "IXBRL_NIL_ATTRIBUTE_IN_NON_FRACTION_CHILD" x [] = Ok e. Proof. recordable. Qed.
Lemma mk_multiple x : exists e, create (elem := xml) "IXBRL_MULTIPLE_NON_FRACTION_CHILDREN" x [] = Ok e. Proof. recordable. Qed.
Lemma mk_number_child x t : exists e, create (elem := xml) "IXBRL_INVALID_NON_FRACTION_CHILD" x [(u "child_tag", t)] = Ok e. Proof. recordable. Qed.
Lemma mk_escape x t : exists e, create (elem := xml) "IXBRL_INVALID_NON_NUMERIC_FACT_ESCAPE_ATTRIBUTE_VALUE" x [(u "value", t)] = Ok e. Proof. recordable. Qed.
Lemma no_differing x a b c d e f : exists ex, create (elem := xml) "IXBRL_DIFFERING_FORMAT_SCALE_OR_UNIT_FOR_NON_FRACTION_CHILD" x
  [(u "this_" ++ u "format", a); (u "this_" ++ u "scale", b); (u "this_unit", c);
   (u "parent_" ++ u "format", d); (u "parent_" ++ u "scale", e); (u "parent_unit", f)] = Raise ex.
Proof. recordable. Qed.

Definition value_codes : list string :=
  ["IXBRL_INVALID_SIGN_ATTRIBUTE_VALUE"; "IXBRL_NON_NUMERICAL_NON_FRACTION_FACT_VALUE";
   "IXBRL_NEGATIVE_NON_FRACTION_FACT_VALUE"; "UNSUPPORTED_NON_FRACTION_FACT_FORMAT";
   "NUMBER_DOES_NOT_MATCH_EXPECTED_FORMAT"; "INVALID_SCALE_ATTRIBUTE_VALUE";
   "UNSUPPORTED_DATE_FORMAT"; "DATE_DOES_NOT_MATCH_EXPECTED_FORMAT"; "YEAR_PRESENT_IN_RECURRING_DATE";
   "MONTH_OR_DAY_NOT_PRESENT_IN_RECURRING_DATE"; "YEAR_OR_MONTH_NOT_PRESENT_IN_NON_RECURRING_DATE";
   "DAY_NOT_PRESENT_IN_FULL_DATE"; "INVALID_GREGORIAN_DATE"; "INVALID_JAPANESE_IMPERIAL_DATE";
   "UNSUPPORTED_LITERAL_FACT_FORMAT"; "UNSUPPORTED_NON_NUMERIC_FACT_FORMAT"]%string.
Lemma mk_value x v code : In code value_codes -> exists e, create code (Some x) (details x v) = Ok e.
Proof.
  unfold details. generalize (str_opt (attr x (u "format"))) as a, (str_opt (attr x (u "scale"))) as b,
    (str_opt (attr x (u "sign"))) as c. intros a b c H.
  repeat (destruct H as [<-|H]; [eexists; vm_compute; reflexivity|]). destruct H.
Qed.

Local Opaque u create.

Lemma does_report_all x v codes : (forall c, In c codes -> In c value_codes) ->
  does (report_all x v codes) tt (map (of_element x) codes).
Proof.
  intros H. unfold report_all. eapply does_eq.
  - apply does_for with (p := fun c => [of_element x c]). intros c Hc. apply does_report, mk_value, H, Hc.
  - reflexivity.
  - clear. induction codes as [|c r IH]; cbn; [reflexivity|]. rewrite IH. reflexivity.
Qed.

Ltac listed := cbn; tauto.

Lemma number_codes v fmt sc : forall c, In c (snd (parse_numerical_fact_value v fmt sc)) -> In c value_codes.
Proof.
  unfold parse_numerical_fact_value, match_regex_numerical_fact_value, process_numerical_fact_value.
  destruct (str_eqb fmt _); [intros c []|].
  destruct (dict_get str_eqb number_format_to_regex _) as [[r k]|]; [|intros c [<-|[]]; listed].
  destruct (re_match r (strip v)) as [cp|]; [|intros c [<-|[]]; listed].
  destruct (py_int sc) as [z|].
  - destruct (apply_scale _ _ _). intros c [].
  - destruct (apply_scale _ _ _). intros c [<-|[]]; listed.
Qed.

Section Value.
Variable py_float : str -> option bool.
Let process (x : xml) := process_non_fraction_value py_float (x_text x) (attr x (u "format")) (attr x (u "scale")) (attr x (u "sign")).

Lemma truthy_written x a : NumModel.truthy (attr x (u a)) = filled x a.
Proof. unfold NumModel.truthy, filled. destruct (attr x (u a)) as [[|]|]; reflexivity. Qed.

Lemma py_int_zero : py_int [48%N] = Some 0%Z.
Proof. vm_compute. reflexivity. Qed.

Lemma format_codes x f :
  map (of_element x) (snd (parse_numerical_fact_value (match x_text x with Some t => t | None => [] end) f
    (match NumModel.truthy (attr x (u "scale")) with Some s => s | None => [48%N] end))) = format_problems x f.
Proof.
  unfold parse_numerical_fact_value, match_regex_numerical_fact_value, process_numerical_fact_value, format_problems.
  rewrite truthy_written. destruct (str_eqb f _); [reflexivity|].
  destruct (dict_get str_eqb number_format_to_regex _) as [[r k]|]; [|reflexivity].
  destruct (re_match r _) as [cp|]; [|reflexivity]. cbn [given].
  destruct (filled x "scale") as [s|].
  - destruct (py_int s) as [z|]; cbn [given negb problem_if]; destruct (apply_scale _ _ _); reflexivity.
  - rewrite py_int_zero. destruct (apply_scale _ _ _); reflexivity.
Qed.

Lemma value_codes_eq x : map (of_element x) (snd (process x)) = value_problems py_float x.
Proof.
  unfold process, process_non_fraction_value, value_problems. rewrite !(truthy_written x "format"), !(truthy_written x "sign").
  assert (F := format_codes x).
  set (vv := match x_text x with Some t => t | None => [] end) in *.
  set (sc := match NumModel.truthy _ with Some s => s | None => _ end) in *.
  assert (G : forall sg e0 pre, map (of_element x) e0 = pre ->
    map (of_element x) (snd (match filled x "format" with
      | Some f => let '(v, e) := parse_numerical_fact_value vv f sc in
          (match sg with Some s => if str_eqb s (u "-") then 45%N :: v else v | None => v end, e0 ++ e)
      | None => match py_float vv with
          | None => ([], e0 ++ ["IXBRL_NON_NUMERICAL_NON_FRACTION_FACT_VALUE"%string])
          | Some true => ([], e0 ++ ["IXBRL_NEGATIVE_NON_FRACTION_FACT_VALUE"%string])
          | Some false => let '(v, e) := parse_numerical_fact_value vv (u "ixt:num-dot-decimal") sc in
              (match sg with Some s => if str_eqb s (u "-") then 45%N :: v else v | None => v end, e0 ++ e)
          end
      end)) = pre ++
    match filled x "format" with
    | Some f => format_problems x f
    | None => match py_float vv with
        | None => [of_element x "IXBRL_NON_NUMERICAL_NON_FRACTION_FACT_VALUE"]
        | Some true => [of_element x "IXBRL_NEGATIVE_NON_FRACTION_FACT_VALUE"]
        | Some false => format_problems x (u "ixt:num-dot-decimal")
        end
    end).
  { intros sg e0 pre <-. destruct (filled x "format") as [f|].
    - specialize (F f). destruct (parse_numerical_fact_value vv f sc) as [v e]. cbn [snd] in *.
      rewrite map_app, F. reflexivity.
    - destruct (py_float vv) as [[|]|]; cbn [snd]; try (rewrite map_app; reflexivity).
      specialize (F (u "ixt:num-dot-decimal")). destruct (parse_numerical_fact_value vv _ sc) as [v e]. cbn [snd] in *.
      rewrite map_app, F. reflexivity. }
  destruct (filled x "sign") as [s|]; [destruct (str_eqb s (u "-"))|].
  - exact (G (Some s) [] [] eq_refl).
  - exact (G None ["IXBRL_INVALID_SIGN_ATTRIBUTE_VALUE"%string] _ eq_refl).
  - exact (G (attr x (u "sign")) [] [] eq_refl).
Qed.

Lemma value_codes_in x c : In c (snd (process x)) -> In c value_codes.
Proof.
  unfold process, process_non_fraction_value.
  set (vv := match x_text x with Some t => t | None => [] end).
  set (sc := match NumModel.truthy (attr x (u "scale")) with Some s => s | None => _ end).
  assert (G : forall sg e0, (forall c, In c e0 -> In c value_codes) ->
    forall fm, In c (snd (match fm with
      | Some f => let '(v, e) := parse_numerical_fact_value vv f sc in
          (match sg with Some s => if str_eqb s (u "-") then 45%N :: v else v | None => v end, e0 ++ e)
      | None => match py_float vv with
          | None => ([], e0 ++ ["IXBRL_NON_NUMERICAL_NON_FRACTION_FACT_VALUE"%string])
          | Some true => ([], e0 ++ ["IXBRL_NEGATIVE_NON_FRACTION_FACT_VALUE"%string])
          | Some false => let '(v, e) := parse_numerical_fact_value vv (u "ixt:num-dot-decimal") sc in
              (match sg with Some s => if str_eqb s (u "-") then 45%N :: v else v | None => v end, e0 ++ e)
          end
      end)) -> In c value_codes).
  { intros sg e0 H0 fm. destruct fm as [f|].
    - assert (N := number_codes vv f sc c). destruct (parse_numerical_fact_value vv f sc) as [v e]. cbn [snd] in *.
      rewrite in_app_iff. intros [H|H]; auto.
    - destruct (py_float vv) as [[|]|]; cbn [snd].
      + rewrite in_app_iff. intros [H|[<-|[]]]; [auto|listed].
      + assert (N := number_codes vv (u "ixt:num-dot-decimal") sc c).
        destruct (parse_numerical_fact_value vv _ sc) as [v e]. cbn [snd] in *. rewrite in_app_iff. intros [H|H]; auto.
      + rewrite in_app_iff. intros [H|[<-|[]]]; [auto|listed]. }
  destruct (NumModel.truthy (attr x (u "sign"))) as [s|]; [destruct (str_eqb s (u "-"))|].
  - apply (G (Some s) []). intros c' [].
  - apply (G None ["IXBRL_INVALID_SIGN_ATTRIBUTE_VALUE"%string]). intros c' [<-|[]]; listed.
  - apply (G (attr x (u "sign")) []). intros c' [].
Qed.

(** ** Numbers *)

Lemma number_attribute_does x a code : (forall t, exists e, create code (Some x) [(u a, t)] = Ok e) ->
  does (number_attribute x (u a) code) (decimals_of x a) (problem_if (bad_accuracy x a) (of_element x code)).
Proof.
  intros H. unfold number_attribute, decimals_of, bad_accuracy, is_accuracy, parse_decimals_or_precision.
  destruct (attr x (u a)) as [s|]; [|apply does_ret].
  destruct (py_int s) as [z|]; cbn [given orb negb problem_if]; [apply does_ret|].
  destruct (str_eqb s (u "INF")); cbn [negb problem_if]; [apply does_ret|].
  eapply does_eq; [eapply does_bind; [apply does_report, H|apply does_ret]|reflexivity|reflexivity].
Qed.
Lemma decimals_given x a : is_some (decimals_of x a) = good_accuracy x a.
Proof.
  unfold decimals_of, good_accuracy, is_accuracy, parse_decimals_or_precision.
  destruct (attr x (u a)) as [s|]; [|reflexivity]. destruct (py_int s); [reflexivity|].
  destruct (str_eqb s (u "INF")); reflexivity.
Qed.
Lemma is_some_given {A} (o : option A) : is_some o = given o.
Proof. destruct o; reflexivity. Qed.

Lemma attr_nil x : attr_prefixed x (u "xsi:nil") = Ok (nil_of x).
Proof. unfold nil_of. destruct (attr_prefixed_total x (u "xsi:nil")) as [v ->]. reflexivity. Qed.
Lemma says_nil_eq x : opt_str_eqb (nil_of x) (Some (u "true")) = says_nil x.
Proof. unfold opt_str_eqb, says_nil. destruct (nil_of x); reflexivity. Qed.
Lemma denies_nil_eq x : negb (is_some (NumModel.truthy (nil_of x))) || opt_str_eqb (nil_of x) (Some (u "false")) = denies_nil x.
Proof. unfold opt_str_eqb, denies_nil, NumModel.truthy. destruct (nil_of x) as [[|c t]|]; reflexivity. Qed.
Lemma says_denies x : says_nil x = true -> denies_nil x = false.
Proof.
  unfold says_nil, denies_nil. destruct (nil_of x) as [v|]; [|discriminate].
  destruct (str_eqb_spec v (u "true")) as [->|]; [intros _; vm_compute; reflexivity|discriminate].
Qed.

Lemma is_comment_dec x : is_comment x \/ ~ is_comment x.
Proof. unfold is_comment. destruct (x_tag x); [right; discriminate|left; reflexivity]. Qed.

Lemma differs_spec x p : existsb (fun a => negb (opt_str_eqb (attr x a) (attr p a))) [u "format"; u "scale"; u "unitRef"] = true
  <-> differs x p.
Proof.
  assert (G : forall a, negb (opt_str_eqb (attr x a) (attr p a)) = true <-> attr x a <> attr p a).
  { intros a. rewrite negb_true_iff. assert (H := opt_str_eqb_true (attr x a) (attr p a)).
    destruct (opt_str_eqb _ _); [split; [discriminate|]; intros N; destruct N; apply H; reflexivity|].
    split; [intros _ E; apply H in E; discriminate|reflexivity]. }
  unfold differs. cbn [existsb]. rewrite !orb_true_iff, !G. split.
  - intros [H|[H|[H|H]]]; [exists "format"%string|exists "scale"%string|exists "unitRef"%string|discriminate];
      (split; [cbn; tauto|exact H]).
  - intros (a & [<-|[<-|[<-|[]]]] & H); tauto.
Qed.

Definition parent_fatal (n : node) : Prop :=
  exists p, n_parent n = Some p /\
    (is_comment p \/ is_named (u "ix:nonFraction") p = true /\ differs (n_el n) p).
Lemma check_parent_cases n :
  parent_fatal n /\ raises (check_parent (n_el n) (n_parent n)) \/
  ~ parent_fatal n /\ does (check_parent (n_el n) (n_parent n)) tt (nested_problems n).
Proof.
  unfold parent_fatal, nested_problems, check_parent. destruct (n_parent n) as [p|].
  2:{ right. split; [intros (p & [=] & _)|]. apply does_ret. }
  destruct (tag_name_cases p) as [[Hc E]|[Hc [t E]]].
  { left. split; [exists p; auto|]. rewrite E. apply raises_lift. }
  assert (L := is_named_ok p t (u "ix:nonFraction") E). rewrite L.
  destruct (str_eqb t (u "ix:nonFraction")) eqn:Et; cbn [negb andb].
  2:{ right. split.
      - intros (p' & [= <-] & [H|[H _]]); [exact (Hc H)|congruence].
      - eapply does_lift; [exact E|]. rewrite Et. apply does_ret. }
  destruct (existsb (fun a => negb (opt_str_eqb (attr (n_el n) a) (attr p a))) [u "format"; u "scale"; u "unitRef"]) eqn:Ed.
  - left. split.
    { exists p. split; [reflexivity|]. right. split; [exact L|]. apply differs_spec, Ed. }
    eapply raises_lift_ok; [exact E|]. rewrite Et. cbn [negb].
    eapply raises_lift_ok; [apply attr_nil|]. eapply raises_right.
    + apply does_when, does_report, mk_nil_child.
    + apply raises_report. apply no_differing.
  - right. split.
    { intros (p' & [= <-] & [H|[_ H]]); [exact (Hc H)|]. apply differs_spec in H. congruence. }
    eapply does_lift; [exact E|]. rewrite Et. cbn [negb].
    eapply does_lift; [apply attr_nil|]. eapply does_eq.
    + eapply does_bind; [apply does_when, does_report, mk_nil_child|]. cbn [when]. apply does_ret.
    + reflexivity.
    + rewrite app_nil_r, says_nil_eq. reflexivity.
Qed.

Definition number_text (n : node) : str :=
  if says_nil (n_el n) || denies_nil (n_el n) && negb (shows_text n) && negb (has_inside n) then []
  else if shows_text n then fst (process (n_el n)) else n_markup n.
Definition number_made (n : node) (c : context) : ifact :=
  IFact (Fact c (number_text n) (attr (n_el n) (u "id"))) (decimals_of (n_el n) "decimals") (decimals_of (n_el n) "precision").

Definition content_fatal (n : node) : Prop :=
  says_nil (n_el n) = false /\ shows_text n = false /\
  (denies_nil (n_el n) = false /\ x_kids (n_el n) = [] \/
   exists k r, x_kids (n_el n) = k :: r /\ is_comment k).
Lemma number_fatal_iff n : number_fatal n <-> parent_fatal n \/ content_fatal n.
Proof.
  split.
  - intros [p H1 H2|p H1 H2 H3|k r H1 H2 H3 H4|H1 H2 H3 H4].
    + left. exists p. auto.
    + left. exists p. auto.
    + right. repeat split; auto. right. eauto.
    + right. repeat split; auto.
  - intros [(p & H1 & [H2|[H2 H3]])|(H1 & H2 & [[H3 H4]|(k & r & H3 & H4)])].
    + eapply nf_inside_comment; eauto.
    + eapply nf_differs; eauto.
    + eapply nf_nothing; eauto.
    + eapply nf_comment; eauto.
Qed.

Definition id_problems (taken : list str) (x : xml) : list problem :=
  problem_if (existsb (fun i => existsb (str_eqb i) taken) (ids_of [x])) (of_element x "IXBRL_DUPLICATE_ELEMENT_ID").
Lemma check_id_does x taken :
  does (match attr x (u "id") with Some i => check_taken x taken i | None => ret tt end) tt (id_problems taken x).
Proof.
  unfold id_problems, ids_of. cbn [flat_map]. destruct (attr x (u "id")) as [i|]; cbn; [|apply does_ret].
  rewrite orb_false_r. unfold check_taken. apply (does_when (mem i taken)), does_report, mk_dup.
Qed.

Definition content_step (n : node) : M str :=
  let x := n_el n in
  if says_nil x || denies_nil x && negb (shows_text n) && negb (has_inside n) then ret []
  else if shows_text n then
    let '(v, codes) := process_non_fraction_value py_float (x_text x)
                         (attr x (u "format")) (attr x (u "scale")) (attr x (u "sign")) in
    let! _ := report_all x (match x_text x with Some t => t | None => [] end) codes in
    ret v
  else
    let! _ := when (Nat.ltb 1 (length (x_kids x)))
                (report "IXBRL_MULTIPLE_NON_FRACTION_CHILDREN" x []) in
    match x_kids x with
    | [] => fail IndexError
    | k :: _ =>
        let! tag := lift (tag_name k) in
        let! _ := when (negb (str_eqb tag (u "ix:nonFraction")))
                    (report "IXBRL_INVALID_NON_FRACTION_CHILD" x [(u "child_tag", tag)]) in
        ret (n_markup n)
    end.

Lemma content_cases n :
  content_fatal n /\ raises (content_step n) \/
  ~ content_fatal n /\ does (content_step n) (number_text n)
    (if says_nil (n_el n) then [] else content_problems py_float n).
Proof.
  unfold content_fatal, content_step, number_text, content_problems.
  destruct (says_nil (n_el n)) eqn:Es; cbn [orb].
  { right. split; [intros (H & _); discriminate|apply does_ret]. }
  destruct (shows_text n) eqn:Et; cbn [negb].
  { right. split; [intros (_ & H & _); discriminate|]. rewrite andb_false_r. cbn [andb].
    assert (V := value_codes_eq (n_el n)). assert (I := value_codes_in (n_el n)). unfold process in *.
    destruct (process_non_fraction_value _ _ _ _ _) as [v codes]. cbn [fst snd] in *. rewrite <- V.
    eapply does_eq; [eapply does_bind; [apply does_report_all, I|apply does_ret]|reflexivity|apply app_nil_r]. }
  unfold has_inside. destruct (x_kids (n_el n)) as [|k r] eqn:Ek; cbn [length negb].
  { destruct (denies_nil (n_el n)) eqn:Ed; cbn [andb].
    - right. split; [|apply does_ret]. intros (_ & _ & [[H _]|(k & r & H & _)]); discriminate.
    - left. split; [auto|]. cbn [Nat.ltb Nat.leb when]. intros s. exists IndexError. reflexivity. }
  rewrite !andb_false_r.
  assert (W : does (when (Nat.ltb 1 (S (length r))) (report "IXBRL_MULTIPLE_NON_FRACTION_CHILDREN" (n_el n) [])) tt
    (problem_if (given (nth_error r 0)) (of_element (n_el n) "IXBRL_MULTIPLE_NON_FRACTION_CHILDREN"))).
  { replace (given (nth_error r 0)) with (Nat.ltb 1 (S (length r))) by (destruct r; reflexivity).
    apply does_when, does_report, mk_multiple. }
  destruct (tag_name_cases k) as [[Hc E]|[Hc [t E]]].
  - left. split; [repeat split; auto; right; eauto|]. eapply raises_right; [exact W|]. rewrite E. apply raises_lift.
  - right. split.
    { intros (_ & _ & [[_ H]|(k' & r' & [= <- <-] & H)]); [discriminate|exact (Hc H)]. }
    rewrite (is_named_ok k t (u "ix:nonFraction") E).
    eapply does_bind; [exact W|]. eapply does_lift; [exact E|].
    eapply does_eq; [eapply does_bind; [apply does_when, does_report, mk_number_child|apply does_ret]|reflexivity|apply app_nil_r].
Qed.

Theorem number_cases n c taken :
  number_fatal n /\ raises (parse_non_fraction py_float n c taken) \/
  ~ number_fatal n /\ does (parse_non_fraction py_float n c taken) (number_made n c, take (n_el n) taken)
    (id_problems taken (n_el n) ++ number_problems py_float n).
Proof.
  rewrite number_fatal_iff. unfold parse_non_fraction. rewrite has_text_eq, has_children_eq.
  assert (D0 := check_id_does (n_el n) taken).
  assert (D1 := number_attribute_does (n_el n) "decimals" _ (mk_decimals (Some (n_el n)))).
  assert (D2 := number_attribute_does (n_el n) "precision" _ (mk_precision (Some (n_el n)))).
  assert (D3 : does (when (is_some (decimals_of (n_el n) "decimals") && is_some (decimals_of (n_el n) "precision") ||
      is_some (decimals_of (n_el n) "precision") && is_some (nil_of (n_el n)) ||
      is_some (decimals_of (n_el n) "decimals") && is_some (nil_of (n_el n)))
    (report "IXBRL_MUTUALLY_EXCLUSIVE_ATTRIBUTES_IN_NON_FRACTION" (n_el n) [(u "id", str_opt (attr (n_el n) (u "id")))])) tt
    (problem_if (Nat.leb 2 (how_many [good_accuracy (n_el n) "decimals"; good_accuracy (n_el n) "precision"; given (nil_of (n_el n))]))
      (of_element (n_el n) "IXBRL_MUTUALLY_EXCLUSIVE_ATTRIBUTES_IN_NON_FRACTION"))).
  { eapply does_eq; [apply does_when, does_report, mk_exclusive|reflexivity|]. rewrite !decimals_given, is_some_given.
    destruct (good_accuracy (n_el n) "decimals"), (good_accuracy (n_el n) "precision"), (given (nil_of (n_el n))); reflexivity. }
  assert (D4 : does (when (shows_text n && has_inside n) (report "IXBRL_BOTH_TEXT_AND_CHILDREN_IN_NON_FRACTION" (n_el n) [])) tt
    (problem_if (shows_text n && has_inside n) (of_element (n_el n) "IXBRL_BOTH_TEXT_AND_CHILDREN_IN_NON_FRACTION")))
    by apply does_when, does_report, mk_both.
  assert (D5 : does (when (says_nil (n_el n) && (shows_text n || has_inside n)) (report "IXBRL_TEXT_OR_CHILDREN_WITH_NIL" (n_el n) [])) tt
    (problem_if (says_nil (n_el n) && (shows_text n || has_inside n)) (of_element (n_el n) "IXBRL_TEXT_OR_CHILDREN_WITH_NIL")))
    by apply does_when, does_report, mk_nil_inside.
  assert (D6 : does (when (denies_nil (n_el n) && negb (shows_text n) && negb (has_inside n))
      (report "IXBRL_NO_TEXT_OR_CHILDREN_WITH_ABSENT_NIL_ATTRIBUTE" (n_el n) [])) tt
    (problem_if (denies_nil (n_el n) && negb (shows_text n || has_inside n))
      (of_element (n_el n) "IXBRL_NO_TEXT_OR_CHILDREN_WITH_ABSENT_NIL_ATTRIBUTE"))).
  { rewrite negb_orb, andb_assoc. apply does_when, does_report, mk_nothing. }
  assert (P := check_parent_cases n). assert (C := content_cases n). unfold content_step in C.
  rewrite <- (says_nil_eq (n_el n)), <- (denies_nil_eq (n_el n)) in *.
  destruct P as [[Pf Pr]|[Pn Pd]].
  { left. split; [auto|].
    eapply raises_right; [exact D0|]. eapply raises_right; [exact D1|]. eapply raises_right; [exact D2|].
    eapply raises_lift_ok; [apply attr_nil|].
    eapply raises_right; [exact D3|]. eapply raises_right; [exact D4|]. eapply raises_right; [exact D5|].
    eapply raises_right; [exact D6|]. apply raises_left, Pr. }
  destruct C as [[Cf Cr]|[Cn Cd]].
  { left. split; [auto|].
    eapply raises_right; [exact D0|]. eapply raises_right; [exact D1|]. eapply raises_right; [exact D2|].
    eapply raises_lift_ok; [apply attr_nil|].
    eapply raises_right; [exact D3|]. eapply raises_right; [exact D4|]. eapply raises_right; [exact D5|].
    eapply raises_right; [exact D6|]. eapply raises_right; [exact Pd|]. apply raises_left, Cr. }
  right. split; [tauto|]. eapply does_eq.
  - eapply does_bind; [exact D0|]. eapply does_bind; [exact D1|]. eapply does_bind; [exact D2|].
    eapply does_lift; [apply attr_nil|].
    eapply does_bind; [exact D3|]. eapply does_bind; [exact D4|]. eapply does_bind; [exact D5|].
    eapply does_bind; [exact D6|]. eapply does_bind; [exact Pd|]. eapply does_bind; [exact Cd|]. apply does_ret.
  - unfold number_made, take. reflexivity.
  - unfold number_problems. rewrite <- (says_nil_eq (n_el n)), <- (denies_nil_eq (n_el n)), app_nil_r. reflexivity.
Qed.
End Value.

(** ** Texts *)

Section Text.
Variable era_valid : list (part * str) -> res bool.

Ltac one H :=
  match type of H with In _ (if ?b then _ else _) => destruct b end;
  [> first [destruct H as [<-|[]]; listed | destruct H] ..].
Lemma date_codes v f w codes : parse_date_fact_value era_valid v f = Ok (w, codes) -> forall c, In c codes -> In c value_codes.
Proof.
  unfold parse_date_fact_value, match_regex_date_fact_value.
  set (full := contains (u "day") f && contains (u "year") f). set (rec := contains (u "day") f && negb _).
  destruct (dict_get str_eqb _ f) as [[r k]|]; [|intros [= _ <-] c [<-|[]]; listed].
  destruct (re_match r (strip v)) as [cp|]; [|intros [= _ <-] c [<-|[]]; listed].
  destruct (read_groups _ _ _ _ _) as [raw|]; [|discriminate]. cbn [bind].
  destruct (normalize_date_parts raw f) as [ps|]; [|discriminate]. cbn [bind].
  destruct (validate_date_fact_value era_valid ps rec full) as [errs|] eqn:E; [|discriminate]. cbn [bind].
  intros H. assert (codes = errs) as ->.
  { destruct full; [|destruct rec]; cbn [bind] in H;
      repeat match type of H with context [get_part ps ?p] => destruct (get_part ps p); cbn [bind] in H; try discriminate end;
      injection H as _ <-; reflexivity. }
  clear H. revert E. unfold validate_date_fact_value.
  match goal with |- context [bind ?m _] => destruct m as [y|]; cbn [bind]; [|discriminate] end.
  destruct (get_part ps Month) as [m|]; cbn [bind]; [|discriminate].
  match goal with |- context [bind ?m _] => destruct m as [d|]; cbn [bind]; [|discriminate] end.
  match goal with |- context [bind ?m _] => destruct m as [e4|] eqn:E4; cbn [bind]; [|discriminate] end.
  intros [= <-] c. rewrite !in_app_iff. intros [H|[H|[H|H]]].
  - destruct rec; [rewrite in_app_iff in H; destruct H as [H|H]|]; one H.
  - one H.
  - one H.
  - destruct (dict_mem part_eqb ps Era); [|injection E4 as <-; destruct H].
    destruct (era_valid ps) as [[|]|]; cbn [bind] in E4; [| |discriminate]; injection E4 as <-; [destruct H|].
    destruct H as [<-|[]]; listed.
Qed.
Lemma text_codes v f w codes : parse_non_numerical_fact_value era_valid v f = Ok (w, codes) ->
  forall c, In c codes -> In c value_codes.
Proof.
  unfold parse_non_numerical_fact_value. destruct (NumModel.truthy f) as [g|]; [|intros [= _ <-] c []].
  set (h := current_format g). destruct (_ || _); [intros [= _ <-] c [<-|[]]; listed|].
  destruct (starts_with _ h).
  - destruct (str_eqb h _); [|apply date_codes].
    destruct (parse_date_fact_value era_valid v (u "ixt:date-day-month-year")) as [[v1 e1]|] eqn:E1; cbn [bind]; [|discriminate].
    destruct (parse_date_fact_value era_valid v (u "ixt:date-day-monthname-year-hi")) as [[v2 e2]|] eqn:E2; cbn [bind]; [|discriminate].
    intros [= _ <-] c. rewrite in_app_iff. intros [H|H]; [exact (date_codes _ _ _ _ E1 c H)|exact (date_codes _ _ _ _ E2 c H)].
  - intros H c Hc. assert (E0 : parse_literal_fact_value v h = (w, codes)) by congruence.
    assert (E : codes = snd (parse_literal_fact_value v h)) by (rewrite E0; reflexivity). clear H E0. subst codes.
    revert Hc. unfold parse_literal_fact_value.
    repeat (destruct (str_eqb h _); [intros []|]). intros [<-|[]]; listed.
Qed.

Definition text_fatal (n : node) : Prop :=
  forall content, n_content n (escapes (n_el n)) = Ok content ->
    exists e, parse_non_numerical_fact_value era_valid content (attr (n_el n) (u "format")) = Raise e.

Lemma text_cases n c taken :
  text_fatal n /\ raises (parse_non_numeric era_valid n c taken) \/
  ~ text_fatal n /\ exists r, does (parse_non_numeric era_valid n c taken) (r, take (n_el n) taken)
    (id_problems taken (n_el n) ++ text_problems era_valid n).
Proof.
  unfold parse_non_numeric, text_problems, text_fatal.
  assert (D0 := check_id_does (n_el n) taken).
  match goal with |- context [let! escape := ?m in _] => assert (D1 : does m (escapes (n_el n))
    (match filled (n_el n) "escape" with
     | Some e => problem_if (negb (str_eqb e (u "true")) && negb (str_eqb e (u "false")))
                   (of_element (n_el n) "IXBRL_INVALID_NON_NUMERIC_FACT_ESCAPE_ATTRIBUTE_VALUE")
     | None => []
     end)) end.
  { unfold escapes, filled. destruct (attr (n_el n) (u "escape")) as [[|c0 e]|]; [apply does_ret| |apply does_ret].
    unfold mem. cbn [existsb]. rewrite orb_false_r.
    destruct (str_eqb_spec (c0 :: e) (u "true")) as [E|Ht]; cbn [orb negb andb problem_if].
    { rewrite E. destruct (str_eqb_spec (u "true") (u "false")); [discriminate|]. apply does_ret. }
    destruct (str_eqb_spec (c0 :: e) (u "false")) as [E|Hf]; cbn [negb problem_if]; [apply does_ret|].
    eapply does_eq; [eapply does_bind; [apply does_report, mk_escape|apply does_ret]|reflexivity|reflexivity]. }
  destruct (n_content n (escapes (n_el n))) as [content|e] eqn:Ec.
  2:{ left. split; [discriminate|]. eapply raises_right; [exact D0|]. eapply raises_right; [exact D1|].
      rewrite Ec. apply raises_lift. }
  destruct (parse_non_numerical_fact_value era_valid content (attr (n_el n) (u "format"))) as [[v codes]|e] eqn:Ev.
  - right. split.
    { intros H. destruct (H content eq_refl) as [e E]. congruence. }
    eexists. rewrite <- (app_nil_r (map _ codes)).
    eapply does_bind; [exact D0|]. eapply does_bind; [exact D1|]. eapply does_lift; [exact Ec|]. cbv iota. rewrite Ev.
    eapply does_bind; [apply does_report_all; eapply text_codes, Ev|]. apply does_ret.
  - left. split; [intros c' [= <-]; eauto|].
    eapply raises_right; [exact D0|]. eapply raises_right; [exact D1|]. eapply raises_lift_ok; [exact Ec|].
    rewrite Ev. intros s. exists e. reflexivity.
Qed.
End Text.

(** ** All elements *)

Lemma does_step (J : state -> Prop) {A} (m : M A) a ps : (forall s es, J s -> J (State es (s_chars s) (s_aspects s) (s_facts s))) ->
  does m a ps -> step J m (fun r es => r = a /\ Forall2 made ps es).
Proof.
  intros JE D s r s' Hj E. destruct (D s) as (es & E' & Hm). rewrite E' in E. injection E as <- <-.
  split; [apply JE, Hj|]. exists es. auto.
Qed.
Lemma raises_step (J : state -> Prop) {A} (m : M A) Q : raises m -> step J m Q.
Proof. intros H s r s' _ E. destruct (H s) as [e E']. congruence. Qed.

Section Elements.
Variable rep : repository.
Variable py_float : str -> option bool.
Variable era_valid : list (part * str) -> res bool.
Variable units_at : str -> option characteristic.
Hypothesis units_class : forall i c, units_at i = Some c -> class_of c = ClsUnit.
Variable cs : contexts.
Let J (s : state) : Prop := forall i, dict_get char_key_eqb (s_chars s) (i, ClsUnit) = units_at i.
Let JE : forall s es, J s -> J (State es (s_chars s) (s_aspects s) (s_facts s)).
Proof. intros s es H. exact H. Qed.
Let ku (i : str) : bool := given (units_at i).
Let kc (i : str) : bool := given (dict_get str_eqb cs i).

Lemma made_report code x kw : step J (report code x kw) (fun _ es => Forall2 made [of_element x code] es).
Proof. apply step_report; [exact JE|]. intros e E. constructor; [|constructor]. exists kw. exact E. Qed.

Lemma find_units_made x tag : tag_name x = Ok tag ->
  step J (find_units x tag) (fun _ es => Forall2 made (unit_problems ku x) es).
Proof.
  intros Ht. unfold find_units, unit_problems, filled.
  assert (Hnone : step J (let! _ := when (str_eqb tag (u "ix:nonFraction"))
                  (report "IXBRL_NON_FRACTION_WITHOUT_UNIT" x [(u "fact_id", str_opt (attr x (u "id")))]) in ret (@nil characteristic))
      (fun _ es => Forall2 made (problem_if (is_named (u "ix:nonFraction") x) (of_element x "IXBRL_NON_FRACTION_WITHOUT_UNIT")) es)).
  { rewrite (is_named_ok x tag _ Ht). unfold when. destruct (str_eqb tag (u "ix:nonFraction")); cbn [problem_if].
    - eapply step_bind; [apply made_report|]. intros ? es H. cbn beta in H. apply step_ret. rewrite app_nil_r. exact H.
    - apply step_bind with (P := fun _ es => es = []); [apply step_ret; reflexivity|].
      intros _ es ->. apply step_ret. constructor. }
  destruct (attr x (u "unitRef")) as [[|c0 id]|]; [exact Hnone| |exact Hnone]. clear Hnone.
  set (uid := c0 :: id). unfold ku.
  intros s a s' Hj. unfold char_get. rewrite (Hj uid).
  destruct (units_at uid) as [c|] eqn:E.
  - rewrite (units_class _ _ E). cbn. intros [= <- <-]. split; [exact Hj|]. exists [].
    rewrite app_nil_r. split; [reflexivity|constructor].
  - cbn [given negb problem_if]. unfold mbind, ret. intros H.
    destruct (report _ _ _ s) as [[[] s1]|] eqn:Er; [|discriminate]. injection H as <- <-.
    exact (made_report _ _ _ s tt s1 Hj Er).
Qed.

(** What is reported until the context of the fact is found. *)
Definition start_problems (x : xml) : list problem :=
  if negb (given (attr x (u "name"))) then [of_element x "IXBRL_FACT_WITHOUT_CONCEPT_NAME"]
  else if negb (names_concept rep x) then [of_element x "IXBRL_FACT_INVALID_CONCEPT"]
  else unit_problems ku x ++
    if negb (given (attr x (u "contextRef"))) then [of_element x "IXBRL_FACT_WITHOUT_CONTEXT"]
    else if negb (names_context kc x) then [of_element x "IXBRL_INVALID_FACT_CONTEXT_ID"] else [].
Lemma fact_context_made n tag : tag_name (n_el n) = Ok tag ->
  step J (fact_context rep cs (n_el n) tag)
    (fun r es => Forall2 made (start_problems (n_el n)) es /\ given r = becomes_fact rep kc n).
Proof.
  intros Ht. unfold fact_context, start_problems, becomes_fact, names_concept, names_context.
  destruct (attr (n_el n) (u "name")) as [name|]; cbn [given negb].
  2:{ eapply step_bind; [apply made_report|]. intros ? es H. cbn beta in H. apply step_ret. rewrite app_nil_r. auto. }
  apply step_lift_then. intros q ->.
  destruct (get_typed_by_qname is_concept rep q) as [e|]; cbn [negb andb].
  2:{ eapply step_bind; [apply made_report|]. intros ? es H. cbn beta in H. apply step_ret. rewrite app_nil_r. auto. }
  eapply step_bind; [apply (upsert_concept_step units_at name e (fun _ es => es = []) eq_refl)|].
  intros _ es0 ->. cbn [app].
  eapply step_bind; [apply find_units_made, Ht|]. intros us es Hus. cbn beta in Hus.
  destruct (attr (n_el n) (u "contextRef")) as [cid|]; cbn [given negb].
  2:{ eapply step_bind; [apply made_report|]. intros ? es' H. cbn beta in H. apply step_ret. rewrite app_nil_r.
      split; [apply Forall2_app; assumption|reflexivity]. }
  unfold kc. destruct (dict_get str_eqb cs cid) as [c|]; cbn [given negb].
  2:{ eapply step_bind; [apply made_report|]. intros ? es' H. cbn beta in H. apply step_ret. rewrite app_nil_r.
      split; [apply Forall2_app; assumption|reflexivity]. }
  apply step_ret. rewrite !app_nil_r. auto.
Qed.

Definition element_fatal (n : node) : Prop :=
  becomes_fact rep kc n = true /\
  (tag_name (n_el n) = Ok (u "ix:nonFraction") /\ number_fatal n \/
   tag_name (n_el n) = Ok (u "ix:nonNumeric") /\ text_fatal era_valid n).

Lemma element_start taken n : conventional n -> becomes_fact rep kc n = false ->
  element_problems rep py_float era_valid ku kc taken n = start_problems (n_el n).
Proof.
  intros _. unfold element_problems, start_problems, becomes_fact. destruct (given (attr (n_el n) (u "name"))) eqn:E1; cbn [negb]; [|reflexivity].
  destruct (names_concept rep (n_el n)); cbn [negb andb]; [|reflexivity].
  intros E. rewrite E. cbn [negb]. destruct (given (attr (n_el n) (u "contextRef"))); reflexivity.
Qed.
Lemma element_rest taken n : becomes_fact rep kc n = true ->
  element_problems rep py_float era_valid ku kc taken n =
  start_problems (n_el n) ++ id_problems taken (n_el n) ++
  (if is_named (u "ix:nonFraction") (n_el n) then number_problems py_float n else text_problems era_valid n).
Proof.
  unfold element_problems, start_problems, becomes_fact. intros E. apply andb_true_iff in E as [E1 E2]. rewrite E1, E2.
  assert (given (attr (n_el n) (u "name")) = true) as ->.
  { unfold names_concept in E1. destruct (attr (n_el n) (u "name")); [reflexivity|discriminate]. }
  assert (given (attr (n_el n) (u "contextRef")) = true) as ->.
  { unfold names_context in E2. destruct (attr (n_el n) (u "contextRef")); [reflexivity|discriminate]. }
  cbn [negb]. rewrite app_nil_r. reflexivity.
Qed.
Lemma take_of x taken : take x taken = ids_of [x] ++ taken.
Proof. unfold take, ids_of. cbn. destruct (attr x (u "id")); reflexivity. Qed.

Lemma parse_facts_made l : (forall n, In n l -> conventional n) -> forall last taken fr,
  step J (parse_facts rep py_float era_valid cs l last taken fr)
    (fun r es => Forall2 made (elements_problems rep py_float era_valid ku kc taken l) es /\
       forall n, In n l -> ~ element_fatal n).
Proof.
  intros Hl. induction l as [|n l IH]; intros last taken fr; cbn [parse_facts elements_problems].
  { apply step_ret. split; [constructor|intros n []]. }
  assert (IH' := IH (fun m H => Hl m (or_intror H))). clear IH.
  assert (Hn := Hl n (or_introl eq_refl)).
  apply step_lift_then. intros tag Ht. assert (Ht0 := Ht).
  eapply step_bind; [apply fact_context_made, Ht0|]. intros [c|] es1 [Hc Hb]; cbn [given] in Hb; symmetry in Hb; rewrite Hb.
  2:{ eapply step_conseq; [apply IH'|]. cbn. intros r es [Hos Hf]. split.
      - apply Forall2_app; [|exact Hos]. rewrite element_start; assumption.
      - intros m [<-|Hm]; [intros [H _]; congruence|apply Hf, Hm]. }
  rewrite <- take_of, element_rest by exact Hb.
  eapply step_bind with (P := fun r es => exists f, r = Some (f, take (n_el n) taken) /\ ~ element_fatal n /\
    Forall2 made (id_problems taken (n_el n) ++
      (if is_named (u "ix:nonFraction") (n_el n) then number_problems py_float n else text_problems era_valid n)) es).
  { rewrite (is_named_ok (n_el n) tag _ Ht).
    destruct Hn as [E|E]; rewrite E in Ht; injection Ht as <-.
    - rewrite str_eqb_refl.
      destruct (str_eqb_spec (u "ix:nonNumeric") (u "ix:nonFraction")) as [D|_]; [discriminate D|].
      destruct (text_cases era_valid n c taken) as [[_ R]|[Hf (f & D)]]; [apply raises_step, raises_left, R|].
      eapply step_bind; [eapply does_step; [exact JE|exact D]|]. intros r es [-> Hm]. apply step_ret.
      rewrite app_nil_r. exists f. split; [reflexivity|]. split; [|exact Hm].
      intros (_ & [[H _]|[_ H]]); [rewrite E in H; discriminate|exact (Hf H)].
    - destruct (str_eqb_spec (u "ix:nonFraction") (u "ix:nonNumeric")) as [D|_]; [discriminate D|].
      rewrite str_eqb_refl.
      destruct (number_cases py_float n c taken) as [[_ R]|[Hf D]]; [apply raises_step, raises_left, R|].
      eapply step_bind; [eapply does_step; [exact JE|exact D]|]. intros r es [-> Hm]. apply step_ret.
      rewrite app_nil_r. eexists. split; [reflexivity|]. split; [|exact Hm].
      intros (_ & [[_ H]|[H _]]); [exact (Hf H)|rewrite E in H; discriminate]. }
  intros r es2 (f & -> & Hf & Hm). cbv iota.
  eapply step_conseq; [apply IH'|]. cbn. intros r' es [Hos Hfs]. split.
  - rewrite <- app_assoc. apply Forall2_app; [exact Hc|]. apply Forall2_app; [exact Hm|exact Hos].
  - intros m [<-|Hmm]; [exact Hf|apply Hfs, Hmm].
Qed.
End Elements.
