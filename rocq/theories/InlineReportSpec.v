(** What should be reported about the fact elements of inline documents (C79). *)
From Verif Require Import Base Regex Registry PyNum NumModel DateModel QNameModel ErrModel CtxModel InlineModel InlineSpec.

(** A problem of an element. *)
Definition of_element (x : xml) (code : string) : problem := (code, Some x).

Definition given {A} (o : option A) : bool := match o with Some _ => true | None => false end.
(** An attribute that is missing or empty counts as not written. *)
Definition filled (x : xml) (a : string) : option str :=
  match attr x (u a) with Some [] => None | v => v end.

(** An integer or "INF". *)
Definition is_accuracy (s : str) : bool := given (py_int s) || str_eqb s (u "INF").
Definition bad_accuracy (x : xml) (a : string) : bool :=
  match attr x (u a) with Some s => negb (is_accuracy s) | None => false end.
Definition good_accuracy (x : xml) (a : string) : bool :=
  match attr x (u a) with Some s => is_accuracy s | None => false end.

Definition says_nil (x : xml) : bool :=
  match nil_of x with Some v => str_eqb v (u "true") | None => false end.
Definition denies_nil (x : xml) : bool :=
  match nil_of x with None | Some [] => true | Some v => str_eqb v (u "false") end.
Definition is_true (b : bool) : bool := b.
Definition how_many (l : list bool) : nat := length (filter is_true l).

(** Numbers inside numbers: no nil, and the same format, scale and unit. *)
Definition nested_problems (n : node) : list problem :=
  match n_parent n with
  | Some p => problem_if (is_named (u "ix:nonFraction") p && says_nil (n_el n))
                (of_element (n_el n) "IXBRL_NIL_ATTRIBUTE_IN_NON_FRACTION_CHILD")
  | None => []
  end.
Definition differs (x p : xml) : Prop :=
  exists a, In a ["format"; "scale"; "unitRef"]%string /\ attr x (u a) <> attr p (u a).

(** The text of a number. *)
Section Value.
Variable py_float : str -> option bool.

Definition format_problems (x : xml) (fmt : str) : list problem :=
  if str_eqb fmt (u "ixt:fixed-zero") then []
  else match dict_get str_eqb number_format_to_regex (current_format fmt) with
       | None => [of_element x "UNSUPPORTED_NON_FRACTION_FACT_FORMAT"]
       | Some (r, _) =>
           if given (re_match r (strip (match x_text x with Some t => t | None => [] end)))
           then match filled x "scale" with
                | Some s => problem_if (negb (given (py_int s))) (of_element x "INVALID_SCALE_ATTRIBUTE_VALUE")
                | None => []
                end
           else [of_element x "NUMBER_DOES_NOT_MATCH_EXPECTED_FORMAT"]
       end.
Definition value_problems (x : xml) : list problem :=
  match filled x "sign" with
  | Some s => problem_if (negb (str_eqb s (u "-"))) (of_element x "IXBRL_INVALID_SIGN_ATTRIBUTE_VALUE")
  | None => []
  end ++
  match filled x "format" with
  | Some f => format_problems x f
  | None =>
      match py_float (match x_text x with Some t => t | None => [] end) with
      | None => [of_element x "IXBRL_NON_NUMERICAL_NON_FRACTION_FACT_VALUE"]
      | Some true => [of_element x "IXBRL_NEGATIVE_NON_FRACTION_FACT_VALUE"]
      | Some false => format_problems x (u "ixt:num-dot-decimal")
      end
  end.

(** What is inside a number that is not nil. *)
Definition content_problems (n : node) : list problem :=
  if shows_text n then value_problems (n_el n)
  else match x_kids (n_el n) with
       | [] => []
       | k :: r =>
           problem_if (given (nth_error r 0)) (of_element (n_el n) "IXBRL_MULTIPLE_NON_FRACTION_CHILDREN") ++
           problem_if (negb (is_named (u "ix:nonFraction") k))
             (of_element (n_el n) "IXBRL_INVALID_NON_FRACTION_CHILD")
       end.

Definition number_problems (n : node) : list problem :=
  let x := n_el n in
  let inside := shows_text n || has_inside n in
  problem_if (bad_accuracy x "decimals") (of_element x "INVALID_DECIMALS_ATTRIBUTE_VALUE") ++
  problem_if (bad_accuracy x "precision") (of_element x "INVALID_PRECISION_ATTRIBUTE_VALUE") ++
  problem_if (Nat.leb 2 (how_many [good_accuracy x "decimals"; good_accuracy x "precision"; given (nil_of x)]))
    (of_element x "IXBRL_MUTUALLY_EXCLUSIVE_ATTRIBUTES_IN_NON_FRACTION") ++
  problem_if (shows_text n && has_inside n) (of_element x "IXBRL_BOTH_TEXT_AND_CHILDREN_IN_NON_FRACTION") ++
  problem_if (says_nil x && inside) (of_element x "IXBRL_TEXT_OR_CHILDREN_WITH_NIL") ++
  problem_if (denies_nil x && negb inside) (of_element x "IXBRL_NO_TEXT_OR_CHILDREN_WITH_ABSENT_NIL_ATTRIBUTE") ++
  nested_problems n ++
  (if says_nil x then [] else content_problems n).
End Value.

(** The faults of a number that end the reading of all documents. *)
Inductive number_fatal (n : node) : Prop :=
| nf_inside_comment p : n_parent n = Some p -> is_comment p -> number_fatal n
| nf_differs p : n_parent n = Some p -> is_named (u "ix:nonFraction") p = true -> differs (n_el n) p -> number_fatal n
| nf_comment k r : says_nil (n_el n) = false -> shows_text n = false -> x_kids (n_el n) = k :: r -> is_comment k ->
    number_fatal n
| nf_nothing : says_nil (n_el n) = false -> denies_nil (n_el n) = false -> shows_text n = false ->
    x_kids (n_el n) = [] -> number_fatal n.

(** Texts: the escape attribute, then what the transformation reports. *)
Section Text.
Variable era_valid : list (part * str) -> res bool.
Definition text_problems (n : node) : list problem :=
  let x := n_el n in
  match filled x "escape" with
  | Some e => problem_if (negb (str_eqb e (u "true")) && negb (str_eqb e (u "false")))
                (of_element x "IXBRL_INVALID_NON_NUMERIC_FACT_ESCAPE_ATTRIBUTE_VALUE")
  | None => []
  end ++
  match n_content n (escapes x) with
  | Ok content =>
      match parse_non_numerical_fact_value era_valid content (attr x (u "format")) with
      | Ok (_, codes) => map (of_element x) codes
      | Raise _ => []
      end
  | Raise _ => []
  end.
End Text.

(** All elements, each with the identifiers that are taken by then. *)
Section Elements.
Variable rep : repository.
Variable py_float : str -> option bool.
Variable era_valid : list (part * str) -> res bool.
Variables known_unit known_context : str -> bool.

Definition names_concept (x : xml) : bool :=
  match attr x (u "name") with
  | Some name =>
      match qname_from_str name (x_scope x) with
      | Ok q => match get_typed_by_qname is_concept rep q with Ok _ => true | Raise _ => false end
      | Raise _ => false
      end
  | None => false
  end.
Definition names_context (x : xml) : bool :=
  match attr x (u "contextRef") with Some cid => known_context cid | None => false end.
Definition becomes_fact (n : node) : bool := names_concept (n_el n) && names_context (n_el n).

Definition unit_problems (x : xml) : list problem :=
  match filled x "unitRef" with
  | Some i => problem_if (negb (known_unit i)) (of_element x "IXBRL_INVALID_FACT_UNIT_ID")
  | None => problem_if (is_named (u "ix:nonFraction") x) (of_element x "IXBRL_NON_FRACTION_WITHOUT_UNIT")
  end.
Definition element_problems (taken : list str) (n : node) : list problem :=
  let x := n_el n in
  if negb (given (attr x (u "name"))) then [of_element x "IXBRL_FACT_WITHOUT_CONCEPT_NAME"]
  else if negb (names_concept x) then [of_element x "IXBRL_FACT_INVALID_CONCEPT"]
  else unit_problems x ++
    if negb (given (attr x (u "contextRef"))) then [of_element x "IXBRL_FACT_WITHOUT_CONTEXT"]
    else if negb (names_context x) then [of_element x "IXBRL_INVALID_FACT_CONTEXT_ID"]
    else problem_if (existsb (fun i => existsb (str_eqb i) taken) (ids_of [x]))
           (of_element x "IXBRL_DUPLICATE_ELEMENT_ID") ++
         (if is_named (u "ix:nonFraction") x then number_problems py_float n else text_problems era_valid n).
Fixpoint elements_problems (taken : list str) (l : list node) : list problem :=
  match l with
  | [] => []
  | n :: r =>
      element_problems taken n ++
      elements_problems (if becomes_fact n then ids_of [n_el n] ++ taken else taken) r
  end.
End Elements.
