(** Model of the report elements declared in schemas: brel/reportelements/concept.py,
    brel/reportelements/dimension.py, brel/parsers/XML/xml_report_element_factory.py and
    brel/parsers/XML/xml_report_element_parser.py.

    Simplifications:
    - labels are left out: [parse_report_element] passes the empty list, labels are added later;
    - a dimension is inserted into the repository and then made typed; as nobody looks at the
      repository in between, the model inserts the typed dimension;
    - ids in [find(".//*[@id='...']")] are assumed not to contain an apostrophe. *)
From Verif Require Import Base Regex PyNum QNameModel ErrBase ErrTable ErrModel CtxModel DtsModel.

(** ** Data types *)

(** concept.py:26-63 *)
Definition textual_types : list str := map u [
  "domainItemType"; "escapedItemType"; "xmlNodesItemType"; "xmlItemType"; "textBlockItemType";
  "guidanceItemType"; "noLangTokenItemType"; "noLangStringItemType"; "prefixedContentItemType";
  "prefixedContentType"; "SQNameItemType"; "SQNameType"; "gYearListItemType"; "dateTimeItemType";
  "fractionItemType"; "stringItemType"; "booleanItemType"; "hexBinaryItemType";
  "base64BinaryItemType"; "anyURIItemType"; "QNameItemType"; "durationItemType";
  "dateTimeItemType"; "timeItemType"; "dateItemType"; "gYearMonthItemType"; "gYearItemType";
  "gMonthDayItemType"; "gDayItemType"; "gMonthItemType"; "normalizedStringItemType";
  "tokenItemType"; "languageItemType"; "NameItemType"; "NCNameItemType";
  "financialInstrumentGlobalIdentifierItemType" ]%string.

(** concept.py:65-122 *)
Definition numeric_types : list str := map u [
  "percentItemType"; "perShareItemType"; "areaItemType"; "volumeItemType"; "massItemType";
  "weightItemType"; "energyItemType"; "powerItemType"; "lengthItemType"; "memoryItemType";
  "noDecimalsMonetaryItemType"; "nonNegativeMonetaryItemType";
  "nonNegativeNoDecimalsMonetaryItemType"; "insolationItemType"; "temperatureItemType";
  "pressureItemType"; "frequencyItemType"; "irradianceItemType"; "speedItemType";
  "planeAngleItemType"; "voltageItemType"; "electricCurrentItemType"; "forceItemType";
  "electricChargeItemType"; "flowItemType"; "massFlowItemType"; "monetaryPerLengthItemType";
  "monetaryPerAreaItemType"; "monetaryPerVolumeItemType"; "monetaryPerDurationItemType";
  "monetaryPerEnergyItemType"; "monetaryPerMassItemType"; "ghgEmissionsItemType";
  "energyPerMonetaryItemType"; "ghgEmissionsPerMonetaryItemType"; "volumePerMonetaryItemType";
  "decimalItemType"; "floatItemType"; "doubleItemType"; "integerItemType";
  "nonPositiveIntegerItemType"; "negativeIntegerItemType"; "longItemType"; "intItemType";
  "shortItemType"; "byteItemType"; "nonNegativeIntegerItemType"; "unsignedLongItemType";
  "unsignedIntItemType"; "unsignedShortItemType"; "unsignedByteItemType";
  "positiveIntegerItemType"; "monetaryItemType"; "sharesItemType"; "pureItemType";
  "perUnitItemType" ]%string.

(** concept.py:124-140 *)
Definition integer_types : list str := map u [
  "noDecimalsMonetaryItemType"; "nonNegativeNoDecimalsMonetaryItemType"; "integerItemType";
  "nonPositiveIntegerItemType"; "negativeIntegerItemType"; "longItemType"; "intItemType";
  "shortItemType"; "byteItemType"; "nonNegativeIntegerItemType"; "unsignedLongItemType";
  "unsignedIntItemType"; "unsignedShortItemType"; "unsignedByteItemType";
  "positiveIntegerItemType" ]%string.

(** [data_type.split(":")[-1]] *)
Definition local_type (data_type : str) : str := last (split_char (ch ":") data_type) [].

(** [x in l] *)
Definition in_list (x : str) (l : list str) : bool := existsb (str_eqb x) l.

(** concept.py:226-252 *)
Definition is_textual (data_type : str) : bool := in_list (local_type data_type) textual_types.
Definition is_numeric (data_type : str) : bool := in_list (local_type data_type) numeric_types.
Definition is_integer (data_type : str) : bool := in_list (local_type data_type) integer_types.
Definition is_boolean (data_type : str) : bool := str_eqb (local_type data_type) (u "booleanItemType").

(** ** Report elements *)

(** concept.py:159-175 *)
Record concept := Concept {
  c_period : str;
  c_balance : option str;
  c_nillable : bool;
  c_type : str }.

(** The classes of brel/reportelements; a dimension has the type it was given, if any
    (dimension.py:32-36, 66-91). *)
Inductive body :=
| BConcept (c : concept)
| BAbstract | BLineItems | BHypercube
| BDimension (ty : option qname)
| BMember.

Record relement := RElement { r_name : qname; r_id : option str; r_body : body }.

Definition xbrli : str := u "http://www.xbrl.org/2003/instance".

(** [x in [a, b, None]] *)
Definition opt_in (x : option str) (l : list (option str)) : bool := existsb (opt_eqb str_eqb x) l.

(** concept.py:268-350 *)
Definition concept_from_xml (x : xml) (id : option str) (q : qname) (es : repo xml)
  : res (option relement * repo xml) :=
  let period_type := attr x (clark xbrli (u "periodType")) in
  if negb (opt_in period_type [Some (u "instant"); Some (u "duration")]) then
    do! es <- insert es "INVALID_CONCEPT_PERIOD_TYPE" (Some x)
                [(u "concept_name", q_local q); (u "period_type", str_opt period_type)];
    Ok (None, es)
  else
  let balance_type := attr x (clark xbrli (u "balance")) in
  if negb (opt_in balance_type [Some (u "credit"); Some (u "debit"); None]) then
    do! es <- insert es "INVALID_CONCEPT_BALANCE_TYPE" (Some x)
                [(u "concept_name", q_local q); (u "balance_type", str_opt balance_type)];
    Ok (None, es)
  else
  let xml_nillable := attr x (u "nillable") in
  if negb (opt_in xml_nillable [Some (u "true"); Some (u "false"); None]) then
    do! es <- insert es "INVALID_CONCEPT_NILLABLE_VALUE" (Some x)
                [(u "concept_name", q_local q); (u "nillable_value", str_opt xml_nillable)];
    Ok (None, es)
  else
  let nillable := opt_eqb str_eqb xml_nillable (Some (u "true")) in
  match attr x (u "type") with
  | None =>
      do! es <- insert es "MISSING_CONCEPT_DATA_TYPE" (Some x) [(u "concept_name", q_local q)];
      Ok (None, es)
  | Some data_type =>
      Ok (Some (RElement q id (BConcept (Concept (str_opt period_type) balance_type nillable data_type))),
          es)
  end.

(** [x.get(name, default)] *)
Definition attr_or (x : xml) (name default : str) : str :=
  match attr x name with Some v => v | None => default end.

(** xml_report_element_factory.py:25-73 *)
Definition create_element (x : xml) (q : qname) (es : repo xml) : res (option relement * repo xml) :=
  let is_abstract := str_eqb (attr_or x (u "abstract") (u "false")) (u "true") in
  let is_item := contains (u "item") (attr_or x (u "substitutionGroup") []) in
  let is_hypercube_item := contains (u "hypercubeItem") (attr_or x (u "substitutionGroup") []) in
  let is_dimension_item := contains (u "dimensionItem") (attr_or x (u "substitutionGroup") []) in
  let is_domain_item_type := contains (u "domainItemType") (attr_or x (u "type") []) in
  let is_line_items := contains (u "LineItems") (attr_or x (u "name") []) in
  let id := attr x (u "id") in
  if is_domain_item_type then Ok (Some (RElement q id BMember), es)
  else if negb is_abstract && is_item then concept_from_xml x id q es
  else if is_abstract && is_hypercube_item then Ok (Some (RElement q id BHypercube), es)
  else if is_abstract && is_dimension_item then Ok (Some (RElement q id (BDimension None)), es)
  else if is_abstract && is_line_items then Ok (Some (RElement q id BLineItems), es)
  else if is_abstract then Ok (Some (RElement q id BAbstract), es)
  else Ok (None, es).

(** ** The repository (data/report_element/in_memory_report_element_repository.py) *)

Record rrepo := RRepo { rr_by_qname : list (qname * relement); rr_by_id : list (str * relement) }.
Definition empty_rrepo : rrepo := RRepo [] [].

(** in_memory_report_element_repository.py:41-45 *)
Definition rr_upsert (r : rrepo) (e : relement) : rrepo :=
  RRepo (dict_set qname_eqb (rr_by_qname r) (r_name e) e)
        (match r_id e with
         | Some i => dict_set str_eqb (rr_by_id r) i e
         | None => rr_by_id r
         end).
(** in_memory_report_element_repository.py:21-39, 47-48 *)
Definition rr_has_qname (r : rrepo) (q : qname) : bool := dict_mem qname_eqb (rr_by_qname r) q.
Definition rr_get_by_qname (r : rrepo) (q : qname) : res relement :=
  match dict_get qname_eqb (rr_by_qname r) q with Some e => Ok e | None => Raise KeyError end.
Definition rr_has_id (r : rrepo) (i : str) : bool := dict_mem str_eqb (rr_by_id r) i.
Definition rr_get_by_id (r : rrepo) (i : str) : res relement :=
  match dict_get str_eqb (rr_by_id r) i with Some e => Ok e | None => Raise KeyError end.
Definition rr_get_all (r : rrepo) : list relement := dict_values (rr_by_qname r).

(** ** Parsing (xml_report_element_parser.py) *)

Definition xs : str := u "http://www.w3.org/2001/XMLSchema".

(** [find_elements(etree, ".//xs:element[@name]", ...)] *)
Definition declarations (root : xml) : list xml :=
  filter (fun k => has_tag (clark xs (u "element")) k &&
                   match attr k (u "name") with Some _ => true | None => false end)
         (descendants root).

(** [refschema.find(".//*[@id='...']")] *)
Definition find_id (root : xml) (id : str) : option xml :=
  find (fun k => opt_eqb str_eqb (attr k (u "id")) (Some id)) (descendants root).

(** xml_report_element_parser.py:84-109: the dimension after its domain was looked up *)
Definition resolve_domain (trees : list (str * xml)) (root x : xml) (e : relement) (es : repo xml)
  : res (relement * repo xml) :=
  do! name <- qname_from_str (u "xbrldt" ++ u ":" ++ u "typedDomainRef") (x_scope x);
  match attr x (clark_notation name) with
  | None => Ok (e, es)
  | Some ref_full =>
      match split_char (ch "#") ref_full with
      | [schema_name; ref_id] =>
          do! refschema <- (if negb (str_eqb schema_name []) && negb (str_eqb schema_name (u ".")) then
                              match dict_get str_eqb trees (normalize_uri schema_name) with
                              | Some t => Ok t
                              | None => Raise KeyError
                              end
                            else Ok root);
          match find_id refschema ref_id with
          | None =>
              do! es <- insert es "REFERENCED_SCHEMA_ELEMENT_NOT_FOUND" (Some x)
                          [(u "ref_id", ref_id); (u "ref_schema_name", schema_name)];
              Ok (e, es)
          | Some ref_xml =>
              do! ref_type <- get_str_attribute ref_xml (u "type");
              do! q <- qname_from_str ref_type (x_scope ref_xml);
              Ok (RElement (r_name e) (r_id e) (BDimension (Some q)), es)
          end
      | _ => Raise ValueError
      end
  end.

(** xml_report_element_parser.py:66-109 *)
Definition parse_declaration (trees : list (str * xml)) (root : xml) (tns : str) (x : xml)
  (st : rrepo * repo xml) : res (rrepo * repo xml) :=
  let '(r, es) := st in
  do! name <- get_str_attribute x (u "name");
  do! q <- qname_from_str (to_clark tns name) (x_scope x);
  do! made <- create_element x q es;
  let '(o, es) := made in
  match o with
  | None => Ok (r, es)
  | Some e =>
      if rr_has_qname r q then Ok (r, es)
      else match r_body e with
           | BDimension _ =>
               do! d <- resolve_domain trees root x e es;
               let '(e, es) := d in Ok (rr_upsert r e, es)
           | _ => Ok (rr_upsert r e, es)
           end
  end.

(** [for x in l: ...] *)
Fixpoint for_all {A S} (f : A -> S -> res S) (l : list A) (s : S) : res S :=
  match l with
  | [] => Ok s
  | x :: l' => do! s <- f x s; for_all f l' s
  end.

(** xml_report_element_parser.py:37-63 *)
Definition parse_report_elements (trees : list (str * xml)) (st : rrepo * repo xml)
  : res (rrepo * repo xml) :=
  for_all (fun t st =>
             match attr t (u "targetNamespace") with
             | None => Ok st
             | Some tns => for_all (parse_declaration trees t tns) (declarations t) st
             end)
          (dict_values trees) st.

(** ** Locators *)

(** parsers/XML/networks/xml_extended_link_parser.py:55-73: what a locator stands for.  The facts
    by id are [fact_by_id]. *)
Inductive target F := ToElement (e : relement) | ToFact (f : F).
Arguments ToElement {F}. Arguments ToFact {F}.
Definition locator_target {F} (r : rrepo) (fact_by_id : str -> option F) (loc : xml) (href : str)
  (es : repo xml) : res (option (target F) * repo xml) :=
  let elem_id := last (split_char (ch "#") href) [] in
  match rr_get_by_id r elem_id with
  | Ok e => Ok (Some (ToElement e), es)
  | Raise _ =>
      match fact_by_id elem_id with
      | Some f => Ok (Some (ToFact f), es)
      | None =>
          do! es <- insert es "XML_REFERENCED_LOCATOR_ELEMENT_NOT_FOUND" (Some loc)
                      [(u "elem_id", elem_id)];
          Ok (None, es)
      end
  end.
