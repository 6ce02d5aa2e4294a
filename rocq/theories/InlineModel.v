(** Model of parsing the facts of inline documents:
    brel/parsers/XHMTL/xhtml_parse_facts.py (PF below) with elements/parse_header.py,
    parse_references.py, parse_resources.py, parse_hidden.py, parse_non_fraction.py (PNF) and
    parse_non_numeric.py (PNN), brel/data/context/in_memory_context_repository.py.

    Simplifications:
    - elements are those of [CtxModel.xml] (without tails); what the code sees outside an element is
      in [node]: its parent, the tails of its children, the serialised first child, and the content
      of the element with its continuation chain (modelled in [TextModel]);
    - the step that builds the continuation chains (modelled in [TextModel]) is given by the errors
      it records and the identifiers that are taken afterwards;
    - the value read from a number or a date is that of [NumModel] and [DateModel], which give the
      codes of the errors; the values of the placeholders in their messages are those of [details];
    - copies of contexts are values. *)
From Verif Require Import Base Regex PyNum NumModel DateModel QNameModel ErrBase ErrTable ErrModel CtxModel.

(** ** Elements *)

(** brel/parsers/utils/lxml_utils.py:90-97 get_prefix_localname_tag; the tag of a comment is a
    function, on which [re.match] raises. *)
Definition tag_name (x : xml) : res str :=
  match x_tag x with
  | None => Raise TypeError
  | Some t => do! q <- qname_from_str t (x_scope x) ; Ok (prefix_local_notation q)
  end.

(** lxml_utils.py:65-79 get_str_attribute_optional for a name with a prefix *)
Definition attr_prefixed (x : xml) (name : str) : res (option str) :=
  do! q <- qname_from_str name (x_scope x) ; Ok (attr x (clark_notation q)).

(** [error_repository.insert(code)] without an element *)
Definition report_plain (code : string) : M unit :=
  fun s => match insert (s_errors s) code None [] with
           | Ok es => Ok (tt, State es (s_chars s) (s_aspects s) (s_facts s))
           | Raise e => Raise e
           end.

Definition when (b : bool) (m : M unit) : M unit := if b then m else ret tt.

Definition dec_str (n : nat) : str := z_to_str (Z.of_nat n).

(** ** Headers *)

Definition ix_2013 : str := u "http://www.xbrl.org/2013/inlineXBRL".
Definition has_tag (t : str) (x : xml) : bool := opt_eqb str_eqb (x_tag x) (Some t).

(** parse_header.py:13-22.  [find_element] with a prefix that is not bound raises SyntaxError; an
    element without children is false. *)
Definition check_head (h : xml) : M unit :=
  match dict_get key_eqb (x_scope h) (Some (u "ix")) with
  | None => fail SyntaxError
  | Some uri =>
      match find (has_tag (to_clark uri (u "header"))) (descendants h) with
      | Some k => when (negb (Nat.eqb (length (x_kids k)) 0)) (report "IXBRL_HEADER_ELEMENT_IN_HEAD" h [])
      | None => ret tt
      end
  end.
Definition check_no_header_element_in_head (root : xml) : M unit :=
  for_each check_head (filter (has_tag (u "head")) (descendants root)).

(** What is collected from the headers: hidden, resources and references elements. *)
Record collected := Collected { h_hidden : list xml; h_resources : list xml; h_references : list xml }.
Definition nothing : collected := Collected [] [] [].
Definition plus (a b : collected) : collected :=
  Collected (h_hidden a ++ h_hidden b) (h_resources a ++ h_resources b) (h_references a ++ h_references b).

(** parse_header.py:29-42 *)
Fixpoint header_children (header : xml) (kids : list xml) (c : collected) : M collected :=
  match kids with
  | [] => ret c
  | k :: r =>
      let! tag := lift (tag_name k) in
      if str_eqb tag (u "ix:hidden") then header_children header r (plus c (Collected [k] [] []))
      else if str_eqb tag (u "ix:resources") then header_children header r (plus c (Collected [] [k] []))
      else if str_eqb tag (u "ix:references") then header_children header r (plus c (Collected [] [] [k]))
      else let! _ := report "IXBRL_INVALID_HEADER_CHILD" header [(u "child_tag", tag)] in
           header_children header r c
  end.
(** parse_header.py:24-58 *)
Definition parse_header (header : xml) : M collected :=
  let! c := header_children header (x_kids header) nothing in
  let! _ := when (Nat.ltb 1 (length (h_hidden c)))
              (report "IXBRL_MORE_THAN_ONE_HIDDEN_HEADER_CHILD" header
                 [(u "count", dec_str (length (h_hidden c)))]) in
  let! _ := when (Nat.ltb 1 (length (h_resources c)))
              (report "IXBRL_MORE_THAN_ONE_RESOURCES_HEADER_CHILD" header
                 [(u "count", dec_str (length (h_resources c)))]) in
  ret c.

Fixpoint collect {A} (f : A -> M collected) (l : list A) (c : collected) : M collected :=
  match l with
  | [] => ret c
  | x :: r => let! d := f x in collect f r (plus c d)
  end.

Definition headers_of (root : xml) : list xml :=
  filter (has_tag (to_clark ix_2013 (u "header"))) (descendants root).
(** PF 52-81 *)
Definition parse_headers (roots : list xml) : M collected :=
  let! c := collect (fun root =>
              let! _ := check_no_header_element_in_head root in
              collect parse_header (headers_of root) nothing) roots nothing in
  let! _ := when (Nat.eqb (length (flat_map headers_of roots)) 0) (report_plain "IXBRL_NO_HEADER_ELEMENTS") in
  let! _ := when (Nat.eqb (length (h_resources c)) 0) (report_plain "IXBRL_NO_RESOURCES_ELEMENTS") in
  ret c.

(** ** References *)

Definition mem (s : str) (l : list str) : bool := existsb (str_eqb s) l.

(** [if id in taken_ids: insert(IXBRL_DUPLICATE_ELEMENT_ID)] *)
Definition check_taken (x : xml) (taken : list str) (id : str) : M unit :=
  when (mem id taken) (report "IXBRL_DUPLICATE_ELEMENT_ID" x [(u "id", id)]).

(** parse_references.py:33-39 *)
Definition check_reference (k : xml) : M unit :=
  let! tag := lift (tag_name k) in
  when (negb (mem tag [u "link:schemaRef"; u "link:linkbaseRef"]))
    (report "IXBRL_INVALID_REFERENCES_CHILD" k [(u "child_tag", tag)]).
(** parse_references.py:13-39 *)
Fixpoint parse_references (l : list xml) (taken : list str) : M (list str) :=
  match l with
  | [] => ret taken
  | x :: r =>
      let! taken := (match attr x (u "id") with
                     | Some id => let! _ := check_taken x taken id in ret (id :: taken)
                     | None => ret taken
                     end) in
      let! _ := when (Nat.eqb (length (x_kids x)) 0)
                  (report "IXBRL_REFERENCES_ELEMENT_WITHOUT_CHILDREN" x []) in
      let! _ := for_each check_reference (x_kids x) in
      parse_references r taken
  end.

(** ** Resources *)

Record resources := Resources {
  r_relationships : list xml; r_roles : list xml; r_arcroles : list xml;
  r_contexts : list xml; r_units : list xml }.
Definition no_resources : resources := Resources [] [] [] [] [].
Definition add_resource (tag : str) (k : xml) (c : resources) : option resources :=
  if str_eqb tag (u "ix:relationship")
  then Some (Resources (r_relationships c ++ [k]) (r_roles c) (r_arcroles c) (r_contexts c) (r_units c))
  else if str_eqb tag (u "link:roleRef")
  then Some (Resources (r_relationships c) (r_roles c ++ [k]) (r_arcroles c) (r_contexts c) (r_units c))
  else if str_eqb tag (u "link:arcroleRef")
  then Some (Resources (r_relationships c) (r_roles c) (r_arcroles c ++ [k]) (r_contexts c) (r_units c))
  else if str_eqb tag (u "xbrli:context")
  then Some (Resources (r_relationships c) (r_roles c) (r_arcroles c) (r_contexts c ++ [k]) (r_units c))
  else if str_eqb tag (u "xbrli:unit")
  then Some (Resources (r_relationships c) (r_roles c) (r_arcroles c) (r_contexts c) (r_units c ++ [k]))
  else None.
(** parse_resources.py:20-37 *)
Fixpoint parse_resource (x : xml) (kids : list xml) (c : resources) : M resources :=
  match kids with
  | [] => ret c
  | k :: r =>
      let! tag := lift (tag_name k) in
      match add_resource tag k c with
      | Some c' => parse_resource x r c'
      | None => let! _ := report "IXBRL_INVALID_RESOURCES_CHILD" x [(u "child_tag", tag)] in
                parse_resource x r c
      end
  end.
Fixpoint parse_resources (l : list xml) (c : resources) : M resources :=
  match l with
  | [] => ret c
  | x :: r => let! c := parse_resource x (x_kids x) c in parse_resources r c
  end.

(** parse_hidden.py:8-26; the message of the last error has another placeholder. *)
Definition check_hidden (x k : xml) : M unit :=
  let! tag := lift (tag_name k) in
  if mem tag [u "ix:footnote"; u "ix:nonFraction"; u "ix:nonNumeric"] then ret tt
  else if mem tag [u "ix:fraction"; u "ix:tuple"]
  then report "IXBRL_ELEMENT_NOT_SUPPORTED" x [(u "tag", tag)]
  else report "IXBRL_INVALID_HIDDEN_ELEMENT" x [(u "tag", tag)].
Definition validate_hidden (l : list xml) : M unit :=
  for_each (fun x => for_each (check_hidden x) (x_kids x)) l.

Section Facts.
Variable parse_date : str -> res date.
Variable rep : repository.
(** Python's [float]: see [NumModel.process_non_fraction_value] *)
Variable py_float : str -> option bool.
(** [check_japanese_imperial_date_valid]: see [DateModel] *)
Variable era_valid : list (part * str) -> res bool.

(** ** Contexts and units *)

Definition contexts := list (str * context).
(** in_memory_context_repository.py:24-36 *)
Definition insert_context (cs : contexts) (c : context) : contexts * bool :=
  if dict_mem str_eqb cs (c_id c) then (cs, false) else (dict_set str_eqb cs (c_id c) c, true).

(** PF 84-112 *)
Fixpoint parse_contexts (l : list xml) (taken : list str) (cs : contexts) : M (list str * contexts) :=
  match l with
  | [] => ret (taken, cs)
  | x :: r =>
      let! _ := when (negb (is_some (attr x (u "id")))) (report "IXBRL_CONTEXT_WITHOUT_ID" x []) in
      let id := str_opt (attr x (u "id")) in
      let! _ := check_taken x taken id in
      let! c := parse_context parse_date rep x [] in
      match c with
      | None => parse_contexts r (id :: taken) cs
      | Some c =>
          let '(cs, added) := insert_context cs c in
          let! _ := when (negb added) (report "IXBRL_DUPLICATE_ELEMENT_ID" x [(u "id", id)]) in
          parse_contexts r (id :: taken) cs
      end
  end.

(** PF 115-137 *)
Fixpoint parse_units (l : list xml) (taken : list str) : M (list str) :=
  match l with
  | [] => ret taken
  | x :: r =>
      let! _ := when (negb (is_some (attr x (u "id")))) (report "IXBRL_UNIT_WITHOUT_ID" x []) in
      let! _ := (match attr x (u "id") with Some id => check_taken x taken id | None => ret tt end) in
      let! c := parse_unit x in
      let! _ := (match c with
                 | Some c => char_upsert (value_str c) c
                 | None => ret tt
                 end) in
      parse_units r (str_opt (attr x (u "id")) :: taken)
  end.

(** ** Facts *)

Record node := Node {
  n_el : xml;
  n_parent : option xml;
  n_tails : list (option str);
  n_markup : str;
  n_content : bool -> res str }.

(** brel/brel_fact.py:44-56 *)
Record ifact := IFact { if_fact : fact; if_decimals : option decimals; if_precision : option decimals }.
Definition if_id (f : ifact) : option str := f_id (if_fact f).

(** brel/data/fact/in_memory_fact_repository.py:17-46, as in [CtxModel] *)
Record ifacts := IFacts { by_id : list (str * ifact); without_id : list ifact }.
Definition no_facts : ifacts := IFacts [] [].
Definition ifacts_upsert (r : ifacts) (f : ifact) : ifacts :=
  match if_id f with
  | None => IFacts (by_id r) (without_id r ++ [f])
  | Some i => IFacts (dict_set str_eqb (by_id r) i f) (without_id r)
  end.

(** The placeholders of the messages about values. *)
Definition details (x : xml) (value : str) : list (str * str) :=
  [(u "format", str_opt (attr x (u "format"))); (u "scale", str_opt (attr x (u "scale")));
   (u "sign", str_opt (attr x (u "sign"))); (u "value", value); (u "number", value); (u "date", value)].
Definition report_all (x : xml) (value : str) (codes : log) : M unit :=
  for_each (fun code => report code x (details x value)) codes.

(** PNF 39-81; the message of the last error is malformed, so that recording it raises. *)
Definition check_parent (x : xml) (parent : option xml) : M unit :=
  match parent with
  | None => ret tt
  | Some p =>
      let! tag := lift (tag_name p) in
      if negb (str_eqb tag (u "ix:nonFraction")) then ret tt
      else
        let! nil := lift (attr_prefixed x (u "xsi:nil")) in
        let! _ := when (opt_str_eqb nil (Some (u "true")))
                    (report "IXBRL_NIL_ATTRIBUTE_IN_NON_FRACTION_CHILD" x []) in
        when (existsb (fun a => negb (opt_str_eqb (attr x a) (attr p a)))
                [u "format"; u "scale"; u "unitRef"])
          (report "IXBRL_DIFFERING_FORMAT_SCALE_OR_UNIT_FOR_NON_FRACTION_CHILD" p
             (map (fun a => (u "this_" ++ a, str_opt (attr x a))) [u "format"; u "scale"] ++
              [(u "this_unit", str_opt (attr x (u "unitRef")))] ++
              map (fun a => (u "parent_" ++ a, str_opt (attr p a))) [u "format"; u "scale"] ++
              [(u "parent_unit", str_opt (attr p (u "unitRef")))]))
  end.

(** PNF 157-178 *)
Definition number_attribute (x : xml) (name : str) (code : string) : M (option decimals) :=
  match parse_decimals_or_precision (attr x name) with
  | Ok d => ret d
  | Raise _ => let! _ := report code x [(name, str_opt (attr x name))] in ret None
  end.

(** Text or children of a number *)
Definition nf_has_text (n : node) : bool :=
  is_some (x_text (n_el n)) || existsb (fun t => is_some (NumModel.truthy t)) (n_tails n).
Definition nf_has_children (n : node) : bool := negb (Nat.eqb (length (x_kids (n_el n))) 0).

(** PNF 140-242 *)
Definition parse_non_fraction (n : node) (c : context) (taken : list str) : M (ifact * list str) :=
  let x := n_el n in
  let id := attr x (u "id") in
  let! _ := (match id with Some i => check_taken x taken i | None => ret tt end) in
  let taken := (match id with Some i => i :: taken | None => taken end) in
  let! dec := number_attribute x (u "decimals") "INVALID_DECIMALS_ATTRIBUTE_VALUE" in
  let! prec := number_attribute x (u "precision") "INVALID_PRECISION_ATTRIBUTE_VALUE" in
  let! nil := lift (attr_prefixed x (u "xsi:nil")) in
  let! _ := when (is_some dec && is_some prec || is_some prec && is_some nil || is_some dec && is_some nil)
              (report "IXBRL_MUTUALLY_EXCLUSIVE_ATTRIBUTES_IN_NON_FRACTION" x [(u "id", str_opt id)]) in
  let has_text := nf_has_text n in
  let has_children := nf_has_children n in
  let! _ := when (has_text && has_children) (report "IXBRL_BOTH_TEXT_AND_CHILDREN_IN_NON_FRACTION" x []) in
  let is_nil := opt_str_eqb nil (Some (u "true")) in
  let! _ := when (is_nil && (has_text || has_children)) (report "IXBRL_TEXT_OR_CHILDREN_WITH_NIL" x []) in
  let missing := (negb (is_some (NumModel.truthy nil)) || opt_str_eqb nil (Some (u "false")))
                 && negb has_text && negb has_children in
  let! _ := when missing (report "IXBRL_NO_TEXT_OR_CHILDREN_WITH_ABSENT_NIL_ATTRIBUTE" x []) in
  let! _ := check_parent x (n_parent n) in
  let! v := (if is_nil || missing then ret []
             else if has_text then
               let '(v, codes) := process_non_fraction_value py_float (x_text x)
                                    (attr x (u "format")) (attr x (u "scale")) (attr x (u "sign")) in
               let! _ := report_all x (match x_text x with Some t => t | None => [] end) codes in
               ret v
             else
               let! _ := when (Nat.ltb 1 (length (x_kids x)))
                           (report "IXBRL_MULTIPLE_NON_FRACTION_CHILDREN" x []) in
               match x_kids x with
               | [] => fail IndexError
               | k :: _ =>
                   let! tag := lift (tag_name k) in
                   let! _ := when (negb (str_eqb tag (u "ix:nonFraction")))
                               (report "IXBRL_INVALID_NON_FRACTION_CHILD" x [(u "child_tag", tag)]) in
                   ret (n_markup n)
               end) in
  ret (IFact (Fact c v id) dec prec, taken).

(** PNN 72-118 *)
Definition parse_non_numeric (n : node) (c : context) (taken : list str) : M (ifact * list str) :=
  let x := n_el n in
  let id := attr x (u "id") in
  let! _ := (match id with Some i => check_taken x taken i | None => ret tt end) in
  let taken := (match id with Some i => i :: taken | None => taken end) in
  let! escape := (match attr x (u "escape") with
                  | None | Some [] => ret false
                  | Some e =>
                      if mem e [u "true"; u "false"] then ret (str_eqb e (u "true"))
                      else let! _ := report "IXBRL_INVALID_NON_NUMERIC_FACT_ESCAPE_ATTRIBUTE_VALUE" x
                                       [(u "value", e)] in ret true
                  end) in
  let! content := lift (n_content n escape) in
  match parse_non_numerical_fact_value era_valid content (attr x (u "format")) with
  | Raise e => fail e
  | Ok (v, codes) =>
      let! _ := report_all x content codes in
      ret (IFact (Fact c v id) None None, taken)
  end.

(** PF 201-221 *)
Definition find_units (x : xml) (tag : str) : M (list characteristic) :=
  let fact_id := str_opt (attr x (u "id")) in
  match attr x (u "unitRef") with
  | None | Some [] =>
      let! _ := when (str_eqb tag (u "ix:nonFraction"))
                  (report "IXBRL_NON_FRACTION_WITHOUT_UNIT" x [(u "fact_id", fact_id)]) in
      ret []
  | Some unit_id =>
      fun s => match char_get unit_id ClsUnit s with
               | Ok (c, s) => Ok ([c], s)
               | Raise ValueError =>
                   (let! _ := report "IXBRL_INVALID_FACT_UNIT_ID" x
                                [(u "unit_id", unit_id); (u "fact_id", fact_id)] in ret []) s
               | Raise e => Raise e
               end
  end.

(** PF 170-199, 223-243: the characteristics of the fact and its context; [None] means
    [continue]. *)
Definition fact_context (cs : contexts) (x : xml) (tag : str) : M (option context) :=
  let fact_id := str_opt (attr x (u "id")) in
  match attr x (u "name") with
  | None => let! _ := report "IXBRL_FACT_WITHOUT_CONCEPT_NAME" x [(u "fact_id", fact_id)] in ret None
  | Some name =>
      let! q := lift (qname_from_str name (x_scope x)) in
      match get_typed_by_qname is_concept rep q with
      | Raise _ =>
          let! _ := report "IXBRL_FACT_INVALID_CONCEPT" x
                      [(u "concept_name", name); (u "fact_id", fact_id)] in ret None
      | Ok e =>
          let! _ := char_upsert name (ChConcept e) in
          let! units := find_units x tag in
          match attr x (u "contextRef") with
          | None => let! _ := report "IXBRL_FACT_WITHOUT_CONTEXT" x [(u "fact_id", fact_id)] in ret None
          | Some cid =>
              match dict_get str_eqb cs cid with
              | None => let! _ := report "IXBRL_INVALID_FACT_CONTEXT_ID" x [(u "context_id", cid)] in
                        ret None
              | Some c => ret (Some (fold_left add_characteristic (ChConcept e :: units) c))
              end
          end
      end
  end.

(** PF 168-256.  [last] is the variable [fact] of the loop, which keeps its value from one element
    to the next. *)
Fixpoint parse_facts (cs : contexts) (l : list node) (last : option ifact) (taken : list str) (fr : ifacts)
  : M (list str * ifacts) :=
  match l with
  | [] => ret (taken, fr)
  | n :: r =>
      let! tag := lift (tag_name (n_el n)) in
      let! c := fact_context cs (n_el n) tag in
      match c with
      | None => parse_facts cs r last taken fr
      | Some c =>
          let! new := (if str_eqb tag (u "ix:nonNumeric")
                       then let! p := parse_non_numeric n c taken in ret (Some p)
                       else if str_eqb tag (u "ix:nonFraction")
                       then let! p := parse_non_fraction n c taken in ret (Some p)
                       else ret None) in
          let '(fact, taken) := match new with
                                | Some (f, t) => (Some f, t)
                                | None => (last, taken)
                                end in
          match fact with
          | None => fail UnboundLocalError
          | Some f => parse_facts cs r (Some f) taken (ifacts_upsert fr f)
          end
      end
  end.

(** ** Documents *)

(** A document with all elements below the root, in document order. *)
Record document := Document { d_root : xml; d_nodes : list node }.

(** PF 145, [find_elements(root, ".//ix:nonNumeric | .//ix:nonFraction")]: without a binding of the
    prefix at the root evaluating the path fails and there are no elements. *)
Definition fact_nodes (d : document) : list node :=
  match dict_get key_eqb (x_scope (d_root d)) (Some (u "ix")) with
  | None => []
  | Some uri =>
      filter (fun n => has_tag (to_clark uri (u "nonNumeric")) (n_el n) ||
                       has_tag (to_clark uri (u "nonFraction")) (n_el n)) (d_nodes d)
  end.

(** PF 267-274 *)
Definition is_instance (x : xml) : bool :=
  match x_tag x with
  | Some t => negb (ends_with (u "schema") t) && negb (ends_with (u "linkbase") t)
  | None => true
  end.

(** What [create_continuation_chains] does, given the identifiers taken so far: the errors (code,
    element, placeholders) and the identifiers taken afterwards; [None] if it does not end. *)
Variable continuations : list str -> option (list (string * xml * list (str * str)) * list str).
Definition check_continuations (taken : list str) : M (list str) :=
  match continuations taken with
  | None => fail OutOfFuel
  | Some (errors, taken) =>
      let! _ := for_each (fun e => report (fst (fst e)) (snd (fst e)) (snd e)) errors in ret taken
  end.

(** PF 259-306: what the resources elements hold, and the identifiers, contexts and facts *)
Definition parse_inline (docs : list document) : M (resources * (list str * contexts * ifacts)) :=
  let docs := filter (fun d => is_instance (d_root d)) docs in
  let! h := parse_headers (map d_root docs) in
  let! taken := parse_references (h_references h) [] in
  let! r := parse_resources (h_resources h) no_resources in
  let! tc := parse_contexts (r_contexts r) taken [] in
  let! taken := parse_units (r_units r) (fst tc) in
  let! _ := validate_hidden (h_hidden h) in
  let! taken := check_continuations taken in
  let! tf := parse_facts (snd tc) (flat_map fact_nodes docs) None taken no_facts in
  ret (r, (fst tf, snd tc, snd tf)).
Definition parse_facts_xhtml (docs : list document) : M (list str * contexts * ifacts) :=
  let! p := parse_inline docs in ret (snd p).
End Facts.
