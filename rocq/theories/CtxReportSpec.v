(** What should be reported about the fact elements of XML instances (C97), and which of them have a
    fact. *)
From Verif Require Import Base PyNum QNameModel ErrModel CtxModel CtxSpec.

(** A report: its kind, the element it is about and what it tells. *)
Record notice := Report { p_code : string; p_about : xml; p_tells : list (str * str) }.
Definition made (r : notice) (e : error xml) : Prop := create (p_code r) (Some (p_about r)) (p_tells r) = Ok e.

Definition report_unless (b : bool) (r : notice) : list notice := if b then [] else [r].
Definition tag_says (text : string) (x : xml) : bool :=
  match x_tag x with Some t => contains (u text) t | None => false end.
Definition given {A} (o : option A) : bool := match o with Some _ => true | None => false end.
Definition count_str (l : list xml) : str := z_to_str (Z.of_nat (length l)).

Section Reports.
Variable parse_date : str -> res date.
Variable rep : repository.
Variable nillable : element -> bool.

(** The report element of a kind that a text stands for. *)
Definition meant (is_kind : element -> bool) (scope : QNameModel.scope) (t : str) : option element :=
  match qname_from_str t scope with
  | Ok q => match get_typed_by_qname is_kind rep q with Ok e => Some e | Raise _ => None end
  | Raise _ => None
  end.
Definition local_of (scope : QNameModel.scope) (t : str) : str :=
  match qname_from_str t scope with Ok q => q_local q | Raise _ => [] end.

(** ** Periods *)

Definition date_of (x : xml) : option date :=
  match x_text x with
  | None | Some [] => None
  | Some t => match parse_date t with Ok d => Some d | Raise _ => None end
  end.
Definition date_reports (x : xml) : list notice :=
  report_unless (given (date_of x)) (Report "INVALID_CONTEXT_PERIOD_DATE" x [(u "date", str_opt (x_text x))]).
Definition order_reports (s e : xml) : list notice :=
  match date_of s, date_of e with
  | Some ds, Some de =>
      report_unless (negb (date_ltb de ds))
        (Report "DURATION_PERIOD_START_AFTER_END" s
           [(u "start_date", str_opt (x_text s)); (u "end_date", str_opt (x_text e))])
  | _, _ => []
  end.
Definition period_reports (x : xml) : list notice :=
  match find_kid (u "instant") x, find_kid (u "startDate") x, find_kid (u "endDate") x with
  | Some i, _, _ => date_reports i
  | None, None, _ => [Report "DURATION_PERIOD_MISSING_START_DATE" x []]
  | None, Some _, None => [Report "DURATION_PERIOD_MISSING_END_DATE" x []]
  | None, Some s, Some e => date_reports s ++ date_reports e ++ order_reports s e
  end.

(** ** Entities: an identifier without text is not reported *)

Definition entity_reports (x : xml) : list notice :=
  match find_kid (u "identifier") x with
  | None => [Report "ENTITY_MISSING_IDENTIFIER_ELEMENT" x []]
  | Some i => report_unless (given (attr i (u "scheme"))) (Report "ENTITY_IDENTIFIER_MISSING_SCHEME" x [])
  end.

(** ** Dimensions *)

Definition explicit_reports (x : xml) (dimension : str) : list notice :=
  let name := local_of (x_scope x) dimension in
  if given (meant is_dimension (x_scope x) dimension) then
    match x_text x with
    | None | Some [] => [Report "MISSING_EXPLICIT_DIMENSION_MEMBER" x [(u "dimension", name)]]
    | Some member =>
        report_unless (given (meant is_member (x_scope x) member))
          (Report "INVALID_EXPLICIT_DIMENSION_MEMBER" x [(u "member", member); (u "dimension", dimension)])
    end
  else [Report "INVALID_EXPLICIT_DIMENSION_VALUE" x [(u "dimension", name)]].
Definition typed_reports (x : xml) (dimension : str) : list notice :=
  match x_kids x with
  | [] => [Report "NO_TYPED_DIMENSION_ELEMENT_CHILDREN" x [(u "dimension", dimension)]]
  | k :: r =>
      report_unless (match r with [] => true | _ => false end)
        (Report "MULTIPLE_TYPED_DIMENSION_ELEMENT_CHILDREN" x [(u "dimension", dimension)]) ++
      report_unless (given (x_text k)) (Report "MISSING_TYPED_DIMENSION_VALUE" x [(u "dimension", dimension)])
  end.
Definition dimension_reports (x : xml) : list notice :=
  let dimension := match attr x (u "dimension") with Some t => t | None => [] end in
  if tag_says "explicitMember" x then explicit_reports x dimension
  else if tag_says "typedMember" x then typed_reports x dimension
  else [Report "INVALID_DIMENSION_TYPE" x []].

(** ** Units *)

(** The first child of a numerator or denominator has a text. *)
Definition part_readable (nd : xml) : bool :=
  match x_kids nd with m :: _ => given (x_text m) | [] => false end.
Fixpoint parts_reports (x : xml) (id : str) (l : list xml) : list notice :=
  match l with
  | [] => []
  | nd :: rest =>
      report_unless (tag_says "unitNumerator" nd || tag_says "unitDenominator" nd)
        (Report "XML_INVALID_DIVIDE_ELEMENT_CHILDREN" x [(u "id", id); (u "child_tag", str_opt (x_tag nd))]) ++
      match x_kids nd with
      | m :: _ => if given (x_text m) then parts_reports x id rest else [Report "XML_MISSING_UNIT_MEASURE" m []]
      | [] => []
      end
  end.
Definition divide_reports (x : xml) (id : str) (l : list xml) : list notice :=
  report_unless (Nat.eqb (length l) 2)
    (Report "XML_DIVIDE_ELEMENT_WITHOUT_TWO_CHILDREN" x [(u "id", id); (u "child_count", count_str l)]) ++
  parts_reports x id l ++
  match l with
  | a :: b :: _ =>
      report_unless (negb (forallb part_readable l && opt_eqb str_eqb (x_tag a) (x_tag b)))
        (Report "XML_DUPLICATE_DIVIDE_ELEMENT_CHILDREN" x [(u "id", id); (u "tag", str_opt (x_tag a))])
  | _ => []
  end.
Definition unit_reports (x : xml) (id : str) : list notice :=
  match x_kids x with
  | [k] =>
      if tag_says "measure" k then report_unless (given (x_text k)) (Report "XML_MISSING_UNIT_MEASURE" k [])
      else if tag_says "divide" k then divide_reports x id (x_kids k)
      else [Report "XML_INVALID_UNIT_ELEMENT_CHILDREN" x [(u "id", id); (u "child_tag", str_opt (x_tag k))]]
  | l => [Report "XML_UNIT_ELEMENT_WITHOUT_ONE_CHILD" x [(u "id", id); (u "child_count", count_str l)]]
  end.
(** No measure lacks its text. *)
Definition unit_readable (x : xml) : bool :=
  match x_kids x with
  | [k] => if tag_says "measure" k then given (x_text k)
           else if tag_says "divide" k then forallb part_readable (x_kids k) else true
  | _ => true
  end.

(** ** Contexts *)

Definition context_readable (x : xml) : bool := given (find_kid (u "period") x) && given (find_kid (u "entity") x).
Definition context_reports (x : xml) : list notice :=
  match find_kid (u "period") x, find_kid (u "entity") x with
  | None, _ => [Report "MISSING_CONTEXT_PERIOD" x []]
  | Some _, None => [Report "MISSING_CONTEXT_ENTITY" x []]
  | Some p, Some e =>
      period_reports p ++ entity_reports e ++
      match find_kid (u "segment") e with Some seg => flat_map dimension_reports (x_kids seg) | None => [] end
  end.

(** ** Fact elements *)

Definition fact_tag (x : xml) : str := str_opt (x_tag x).
Definition fact_concept (x : xml) : option element := meant is_concept (x_scope x) (fact_tag x).

(** The unit that a fact element refers to. *)
Inductive unit_of := UNone | UUnknown (id : str) | UElement (id : str) (xu : xml).
Definition unit_ref (i x : xml) : unit_of :=
  match attr x (u "unitRef") with
  | None | Some [] => UNone
  | Some id => match find_by_id (u "unit") id i with None => UUnknown id | Some xu => UElement id xu end
  end.

Definition value_reports (x : xml) (e : element) : list notice :=
  report_unless (given (x_text x) || nillable e) (Report "MISSING_FACT_VALUE" x [(u "concept", fact_tag x)]) ++
  report_unless (str_eqb (fact_tag x) (clark_notation (e_name e)))
    (Report "FACT_CONCEPT_MISMATCH" x
       [(u "fact_concept", fact_tag x); (u "context_concept", clark_notation (e_name e))]).

(** The context and the value of a fact element with concept [e]. *)
Definition body_reports (i x : xml) (e : element) : list notice :=
  let cid := match attr x (u "contextRef") with Some c => c | None => [] end in
  match find_by_id (u "context") cid i with
  | None => [Report "XML_INVALID_FACT_CONTEXT_ID" x [(u "context_id", cid)]]
  | Some xc => context_reports xc ++ (if context_readable xc then value_reports x e else [])
  end.

(** What is reported about a fact element, if the units [known] are read before: a unit is reported
    about again and again until it can be read. *)
Definition fact_reports (known : list str) (i x : xml) : list notice :=
  match fact_concept x with
  | None => [Report "XML_FACT_INVALID_CONCEPT" x [(u "concept_name", fact_tag x)]]
  | Some e =>
      match unit_ref i x with
      | UNone => body_reports i x e
      | UUnknown id => [Report "XML_INVALID_FACT_UNIT_ID" x [(u "unit_id", id)]]
      | UElement id xu =>
          (if existsb (str_eqb id) known then [] else unit_reports xu id) ++
          (if unit_readable xu then body_reports i x e else [])
      end
  end.
(** The unit that a fact element makes known. *)
Definition makes_known (i x : xml) : list str :=
  match fact_concept x, unit_ref i x with
  | Some _, UElement id xu => if unit_readable xu then [id] else []
  | _, _ => []
  end.
Fixpoint facts_reports (known : list str) (l : list (xml * xml)) : list notice :=
  match l with
  | [] => []
  | (i, x) :: rest => fact_reports known i x ++ facts_reports (known ++ makes_known i x) rest
  end.

(** A fact element has a fact if its concept, its unit and its context can be read. *)
Definition has_fact (i x : xml) : bool :=
  given (fact_concept x) &&
  match unit_ref i x with UNone => true | UUnknown _ => false | UElement _ xu => unit_readable xu end &&
  match attr x (u "contextRef") with
  | Some cid => match find_by_id (u "context") cid i with Some xc => context_readable xc | None => false end
  | None => false
  end.
End Reports.

(** ** When documents can be read to their end *)

Section Opens.
Variable parse_date : str -> res date.
Variable rep : repository.

(** A date that cannot be read is reported, unless reading it fails for another reason. *)
Definition date_ok (x : xml) : bool :=
  match x_text x with
  | None | Some [] => true
  | Some t => match parse_date t with Ok _ | Raise ValueError => true | Raise _ => false end
  end.
Definition period_ok (x : xml) : bool :=
  match find_kid (u "instant") x, find_kid (u "startDate") x, find_kid (u "endDate") x with
  | Some i, _, _ => date_ok i
  | None, Some s, Some e => date_ok s && date_ok e
  | None, _, _ => true
  end.

(** An explicit member names its dimension. *)
Definition explicit_ok (x : xml) : bool := given (attr x (u "dimension")).
(** The dimension of a typed member must be known. *)
Definition typed_ok (x : xml) : bool :=
  match attr x (u "dimension") with
  | None => false
  | Some d => given (meant rep is_dimension (x_scope x) d)
  end.
Definition dimension_ok (x : xml) : bool :=
  if tag_says "explicitMember" x then explicit_ok x
  else if tag_says "typedMember" x then typed_ok x
  else false.

(** Each part of a division has a measure; reading ends with the first that has no text. *)
Fixpoint parts_ok (l : list xml) : bool :=
  match l with
  | [] => true
  | nd :: rest =>
      given (x_tag nd) &&
      match x_kids nd with
      | [] => false
      | m :: _ => if given (x_text m) then parts_ok rest else true
      end
  end.
Definition unit_ok (x : xml) : bool :=
  match x_kids x with
  | [k] =>
      given (x_tag k) &&
      (if tag_says "measure" k then true
       else if tag_says "divide" k then
         parts_ok (x_kids k) &&
         (if forallb part_readable (x_kids k) then
            match x_kids k with
            | a :: b :: _ => negb (opt_eqb str_eqb (x_tag a) (x_tag b))
            | _ => false
            end
          else true)
       else true)
  | _ => true
  end.

Definition context_ok (x : xml) : bool :=
  match find_kid (u "period") x, find_kid (u "entity") x with
  | Some p, Some e =>
      period_ok p && match find_kid (u "segment") e with Some seg => forallb dimension_ok (x_kids seg) | None => true end
  | _, _ => true
  end.

(** The context of a fact element must be there. *)
Definition body_ok (i x : xml) : bool :=
  match attr x (u "contextRef") with
  | None => false
  | Some cid => match find_by_id (u "context") cid i with Some xc => context_ok xc | None => false end
  end.
(** Its unit as well. *)
Definition fact_ok (i x : xml) : bool :=
  match fact_concept rep x with
  | None => true
  | Some _ =>
      match unit_ref i x with
      | UNone => body_ok i x
      | UUnknown _ => false
      | UElement _ xu => unit_ok xu && (if unit_readable xu then body_ok i x else true)
      end
  end.
End Opens.
