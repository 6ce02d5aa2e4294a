(** What the facts of inline documents should be (C64-C67). *)
From Verif Require Import Base NumModel DateModel QNameModel ErrModel CtxModel CtxSpec InlineModel.

(** ** Elements by name *)

(** The element is written with this prefix and local name. *)
Definition is_named (t : str) (x : xml) : bool :=
  match tag_name x with Ok t' => str_eqb t' t | Raise _ => false end.
(** The children of some elements that have this name. *)
Definition kids_named (t : string) (l : list xml) : list xml :=
  filter (is_named (u t)) (flat_map x_kids l).

Definition is_comment (x : xml) : Prop := x_tag x = None.

(** The documents that are neither schemas nor linkbases. *)
Definition instances (docs : list document) : list document :=
  filter (fun d => is_instance (d_root d)) docs.
Definition all_headers (roots : list xml) : list xml := flat_map headers_of roots.
Definition doc_headers (docs : list document) : list xml := all_headers (map d_root (instances docs)).
Definition doc_references (docs : list document) : list xml := kids_named "ix:references" (doc_headers docs).
Definition doc_hidden (docs : list document) : list xml := kids_named "ix:hidden" (doc_headers docs).
Definition doc_resources (docs : list document) : list xml := kids_named "ix:resources" (doc_headers docs).
Definition doc_contexts (docs : list document) : list xml := kids_named "xbrli:context" (doc_resources docs).
Definition doc_units (docs : list document) : list xml := kids_named "xbrli:unit" (doc_resources docs).
Definition doc_facts (docs : list document) : list node := flat_map fact_nodes (instances docs).

(** ** Errors *)

Definition reported (code : string) (x : xml) (es : list (error xml)) : Prop :=
  exists kw e, In e es /\ create code (Some x) kw = Ok e.

(** ** Units *)

(** A unit element is read as the unit it describes, or not at all and something is reported. *)
Definition unit_outcome (x : xml) (o : option characteristic * list (error xml)) : Prop :=
  match fst o with
  | Some c => exists id ns ds, attr x (u "id") = Some id /\ reads_unit x ns ds /\ c = ChUnit id ns ds
  | None => snd o <> []
  end.
Definition unit_named (id : str) (c : characteristic) : Prop := class_of c = ClsUnit /\ value_str c = id.

(** ** Contexts *)

(** A document with just the given elements in its body. *)
Definition holding (l : list xml) : xml := Xml None [] [] None [Xml None [] [] None l].

(** A context element that can be used: it has this identifier, a period and an entity. *)
Definition usable (cid : str) (x : xml) : Prop :=
  attr x (u "id") = Some cid /\ find_kid (u "period") x <> None /\ find_kid (u "entity") x <> None.

(** ** Facts *)

(** Inline elements are written with the prefix "ix". *)
Definition conventional (n : node) : Prop :=
  tag_name (n_el n) = Ok (u "ix:nonNumeric") \/ tag_name (n_el n) = Ok (u "ix:nonFraction").

(** The element says that it has no value. *)
Definition nil_of (x : xml) : option str :=
  match attr_prefixed x (u "xsi:nil") with Ok v => v | Raise _ => None end.
Definition is_nil (x : xml) : Prop := nil_of x = Some (u "true").
(** There is text in the element or behind one of its children (not just an empty one). *)
Definition shows_text (n : node) : bool :=
  match x_text (n_el n) with
  | Some _ => true
  | None => existsb (fun t => match t with Some (_ :: _) => true | _ => false end) (n_tails n)
  end.
Definition has_inside (n : node) : bool := match x_kids (n_el n) with [] => false | _ :: _ => true end.
(** Neither text nor a statement about the value. *)
Definition has_nothing (n : node) : Prop :=
  shows_text n = false /\ has_inside n = false /\ In (nil_of (n_el n)) [None; Some []; Some (u "false")].

Section Inline.
Variable parse_date : str -> res date.
Variable rep : repository.
Variable py_float : str -> option bool.
Variable era_valid : list (part * str) -> res bool.

Definition number_value (n : node) : str :=
  fst (process_non_fraction_value py_float (x_text (n_el n)) (attr (n_el n) (u "format"))
         (attr (n_el n) (u "scale")) (attr (n_el n) (u "sign"))).

(** The value of a number: nothing, what its text shows, or the number inside as markup. *)
Inductive number_is (n : node) : str -> Prop :=
| num_nil : is_nil (n_el n) -> number_is n []
| num_none : has_nothing n -> number_is n []
| num_text : ~ is_nil (n_el n) -> shows_text n = true -> number_is n (number_value n)
| num_nested : ~ is_nil (n_el n) -> shows_text n = false -> has_inside n = true ->
    number_is n (n_markup n).

(** Whether the content of a text is escaped; values other than "true" and "false" are reported. *)
Definition escapes (x : xml) : bool :=
  match attr x (u "escape") with None | Some [] => false | Some e => negb (str_eqb e (u "false")) end.
(** The value of a text: its content, transformed by its format. *)
Definition text_is (n : node) (v : str) : Prop :=
  exists content codes, n_content n (escapes (n_el n)) = Ok content /\
    parse_non_numerical_fact_value era_valid content (attr (n_el n) (u "format")) = Ok (v, codes).

Definition decimals_of (x : xml) (name : string) : option decimals :=
  match parse_decimals_or_precision (attr x (u name)) with Ok d => d | Raise _ => None end.

Variables contexts : list xml.
Variable units : list characteristic.

(** The concept that the element names. *)
Definition fact_concept (x : xml) (e : element) : Prop :=
  exists name q, attr x (u "name") = Some name /\ qname_from_str name (x_scope x) = Ok q /\
    get_typed_by_qname is_concept rep q = Ok e.

(** The unit that the element refers to: the last one with that name.  An unknown unit, and a
    number without a unit, is reported. *)
Definition fact_units (n : node) (us : list characteristic) (es : list (error xml)) : Prop :=
  match attr (n_el n) (u "unitRef") with
  | None | Some [] =>
      us = [] /\ (tag_name (n_el n) = Ok (u "ix:nonFraction") ->
                  reported "IXBRL_NON_FRACTION_WITHOUT_UNIT" (n_el n) es)
  | Some id =>
      (exists c, us = [c] /\ last_with (unit_named id) units c) \/
      us = [] /\ (forall c, In c units -> ~ unit_named id c) /\
      reported "IXBRL_INVALID_FACT_UNIT_ID" (n_el n) es
  end.

Section Characteristics.
Variables entity_is period_is explicit_is typed_is : xml -> option characteristic -> Prop.

(** The fact [f] of the element, and the errors reported with it. *)
Definition inline_fact (n : node) (f : ifact) (es : list (error xml)) : Prop :=
  exists e us cid xc c,
    fact_concept (n_el n) e /\ fact_units n us es /\
    attr (n_el n) (u "contextRef") = Some cid /\ first_with (usable cid) contexts xc /\
    context_as entity_is period_is explicit_is typed_is xc [] c /\
    f_context (if_fact f) = fold_left add_characteristic (ChConcept e :: us) c /\
    f_id (if_fact f) = attr (n_el n) (u "id") /\
    (tag_name (n_el n) = Ok (u "ix:nonFraction") /\ number_is n (f_value (if_fact f)) /\
       if_decimals f = decimals_of (n_el n) "decimals" /\ if_precision f = decimals_of (n_el n) "precision" \/
     tag_name (n_el n) = Ok (u "ix:nonNumeric") /\ text_is n (f_value (if_fact f)) /\
       if_decimals f = None /\ if_precision f = None).
End Characteristics.

(** Why there is no fact for the element; the reason is reported. *)
Inductive dropped (n : node) (es : list (error xml)) : Prop :=
| no_name : attr (n_el n) (u "name") = None ->
    reported "IXBRL_FACT_WITHOUT_CONCEPT_NAME" (n_el n) es -> dropped n es
| no_concept name : attr (n_el n) (u "name") = Some name -> (forall e, ~ fact_concept (n_el n) e) ->
    reported "IXBRL_FACT_INVALID_CONCEPT" (n_el n) es -> dropped n es
| no_reference : attr (n_el n) (u "contextRef") = None ->
    reported "IXBRL_FACT_WITHOUT_CONTEXT" (n_el n) es -> dropped n es
| no_context cid : attr (n_el n) (u "contextRef") = Some cid ->
    (forall xc, In xc contexts -> ~ usable cid xc) ->
    reported "IXBRL_INVALID_FACT_CONTEXT_ID" (n_el n) es -> dropped n es.

Section Outcome.
Variables entity_is period_is explicit_is typed_is : xml -> option characteristic -> Prop.
Definition inline_outcome (n : node) (o : option ifact * list (error xml)) : Prop :=
  match fst o with
  | Some f => inline_fact entity_is period_is explicit_is typed_is n f (snd o)
  | None => dropped n (snd o)
  end.
End Outcome.
End Inline.

(** The stored facts: those without identifier in order, and of those with the same identifier the
    last. *)
Definition stored (fs : list ifact) (r : ifacts) : Prop :=
  without_id r = filter (fun f => negb (is_some (if_id f))) fs /\
  forall i f, dict_get str_eqb (by_id r) i = Some f <-> last_with (fun g => if_id g = Some i) fs f.

(** ** The structure of headers (C66) *)

(** A problem: the code of the error and the element it is reported for. *)
Definition problem := (string * option xml)%type.
Definition made (p : problem) (e : error xml) : Prop := exists kw, create (fst p) (snd p) kw = Ok e.

Definition named_one_of (ts : list string) (x : xml) : bool := existsb (fun t => is_named (u t) x) ts.
Definition repeat_problem {A} (p : problem) (l : list A) : list problem := map (fun _ => p) l.
Definition problem_if (b : bool) (p : problem) : list problem := if b then [p] else [].

Definition heads_of (root : xml) : list xml := filter (has_tag (u "head")) (descendants root).
Definition ix_of (x : xml) : option str := dict_get key_eqb (x_scope x) (Some (u "ix")).

(** A header element inside the head. *)
Definition head_problems (h : xml) : list problem :=
  match ix_of h with
  | None => []
  | Some uri =>
      match filter (has_tag (to_clark uri (u "header"))) (descendants h) with
      | [] => []
      | k :: _ => match x_kids k with
                  | [] => []
                  | _ :: _ => [("IXBRL_HEADER_ELEMENT_IN_HEAD"%string, Some h)]
                  end
      end
  end.
Definition header_kids := ["ix:hidden"; "ix:resources"; "ix:references"]%string.
Definition header_problems (h : xml) : list problem :=
  repeat_problem ("IXBRL_INVALID_HEADER_CHILD"%string, Some h)
    (filter (fun k => negb (named_one_of header_kids k)) (x_kids h)) ++
  problem_if (Nat.ltb 1 (length (kids_named "ix:hidden" [h])))
    ("IXBRL_MORE_THAN_ONE_HIDDEN_HEADER_CHILD"%string, Some h) ++
  problem_if (Nat.ltb 1 (length (kids_named "ix:resources" [h])))
    ("IXBRL_MORE_THAN_ONE_RESOURCES_HEADER_CHILD"%string, Some h).
Definition is_empty {A} (l : list A) : bool := match l with [] => true | _ => false end.
Definition headers_problems (roots : list xml) : list problem :=
  flat_map (fun r => flat_map head_problems (heads_of r) ++ flat_map header_problems (headers_of r)) roots ++
  problem_if (is_empty (all_headers roots)) ("IXBRL_NO_HEADER_ELEMENTS"%string, None) ++
  problem_if (is_empty (kids_named "ix:resources" (all_headers roots))) ("IXBRL_NO_RESOURCES_ELEMENTS"%string, None).

(** The identifiers of elements, as far as they have one. *)
Definition ids_of (l : list xml) : list str :=
  flat_map (fun x => match attr x (u "id") with Some i => [i] | None => [] end) l.
Definition reference_kids := ["link:schemaRef"; "link:linkbaseRef"]%string.
(** [before] are the identifiers of the elements before. *)
Fixpoint references_problems (before : list str) (l : list xml) : list problem :=
  match l with
  | [] => []
  | x :: r =>
      problem_if (existsb (fun i => existsb (str_eqb i) before) (ids_of [x]))
        ("IXBRL_DUPLICATE_ELEMENT_ID"%string, Some x) ++
      problem_if (is_empty (x_kids x)) ("IXBRL_REFERENCES_ELEMENT_WITHOUT_CHILDREN"%string, Some x) ++
      references_problems (ids_of [x] ++ before) r
  end.

Definition resource_kids :=
  ["ix:relationship"; "link:roleRef"; "link:arcroleRef"; "xbrli:context"; "xbrli:unit"]%string.
Definition resources_problems (l : list xml) : list problem :=
  flat_map (fun x => repeat_problem ("IXBRL_INVALID_RESOURCES_CHILD"%string, Some x)
                       (filter (fun k => negb (named_one_of resource_kids k)) (x_kids x))) l.

Definition hidden_kids := ["ix:footnote"; "ix:nonFraction"; "ix:nonNumeric"]%string.
Definition unsupported_kids := ["ix:fraction"; "ix:tuple"]%string.
Definition hidden_problems (l : list xml) : list problem :=
  flat_map (fun x => repeat_problem ("IXBRL_ELEMENT_NOT_SUPPORTED"%string, Some x)
                       (filter (named_one_of unsupported_kids) (x_kids x))) l.

(** What the parser does not survive. *)
Definition headers_fatal (roots : list xml) : Prop :=
  exists r, In r roots /\
    ((exists h, In h (heads_of r) /\ ix_of h = None) \/
     (exists h k, In h (headers_of r) /\ In k (x_kids h) /\ is_comment k)).
Definition references_fatal (l : list xml) : Prop :=
  exists x k, In x l /\ In k (x_kids x) /\ (is_comment k \/ named_one_of reference_kids k = false).
Definition resources_fatal (l : list xml) : Prop :=
  exists x k, In x l /\ In k (x_kids x) /\ is_comment k.
Definition hidden_fatal (l : list xml) : Prop :=
  exists x k, In x l /\ In k (x_kids x) /\
    (is_comment k \/ named_one_of (hidden_kids ++ unsupported_kids) k = false).

Definition with_errors (s : state) (es : list (error xml)) : state :=
  State (s_errors s ++ es) (s_chars s) (s_aspects s) (s_facts s).
