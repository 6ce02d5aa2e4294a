(** Generated by tools/gen_errors.py from the text of /repo; do not edit.
    [error_codes]: brel/errors/error_code.py (members of the enum);
    [registry]: brel/errors/error_factory_registry.py (the dict literal, all entries);
    [sites]: every call in brel/ that passes a member of the enum, with file, line and the
    names of its keyword arguments. *)
From Verif Require Import Base ErrBase.
Local Open Scope string_scope.

Definition error_codes : list string := [
  "MISSING_CONTEXT_PERIOD";
  "MISSING_CONTEXT_ENTITY";
  "INVALID_CONTEXT_PERIOD_DATE";
  "DURATION_PERIOD_MISSING_START_DATE";
  "DURATION_PERIOD_MISSING_END_DATE";
  "DURATION_PERIOD_START_AFTER_END";
  "ENTITY_MISSING_IDENTIFIER_ELEMENT";
  "ENTITY_IDENTIFIER_MISSING_SCHEME";
  "ENTITY_IDENTIFIER_MISSING_VALUE";
  "INVALID_EXPLICIT_DIMENSION_VALUE";
  "INVALID_EXPLICIT_DIMENSION_MEMBER";
  "MISSING_EXPLICIT_DIMENSION_MEMBER";
  "INVALID_TYPED_DIMENSION_VALUE";
  "MULTIPLE_TYPED_DIMENSION_ELEMENT_CHILDREN";
  "NO_TYPED_DIMENSION_ELEMENT_CHILDREN";
  "MISSING_TYPED_DIMENSION_VALUE";
  "INVALID_DIMENSION_TYPE";
  "INVALID_PRECISION_ATTRIBUTE_VALUE";
  "INVALID_DECIMALS_ATTRIBUTE_VALUE";
  "MISSING_FACT_VALUE";
  "FACT_UNIT_MISMATCH";
  "FACT_CONCEPT_MISMATCH";
  "XML_DUPLICATE_UNIT_ID";
  "XML_UNIT_ELEMENT_WITHOUT_ONE_CHILD";
  "XML_DIVIDE_ELEMENT_WITHOUT_TWO_CHILDREN";
  "XML_INVALID_DIVIDE_ELEMENT_CHILDREN";
  "XML_DUPLICATE_DIVIDE_ELEMENT_CHILDREN";
  "XML_INVALID_UNIT_ELEMENT_CHILDREN";
  "XML_MISSING_UNIT_MEASURE";
  "XML_FACT_INVALID_CONCEPT";
  "XML_INVALID_FACT_CONTEXT_ID";
  "XML_INVALID_FACT_UNIT_ID";
  "IXBRL_DUPLICATE_ELEMENT_ID";
  "IXBRL_ELEMENT_NOT_SUPPORTED";
  "IXBRL_REFERENCES_ELEMENT_WITHOUT_CHILDREN";
  "IXBRL_INVALID_REFERENCES_CHILD";
  "IXBRL_HEADER_ELEMENT_IN_HEAD";
  "IXBRL_INVALID_HEADER_CHILD";
  "IXBRL_MORE_THAN_ONE_HIDDEN_HEADER_CHILD";
  "IXBRL_MORE_THAN_ONE_RESOURCES_HEADER_CHILD";
  "IXBRL_NO_HEADER_ELEMENTS";
  "IXBRL_NO_RESOURCES_ELEMENTS";
  "IXBRL_INVALID_RESOURCES_CHILD";
  "IXBRL_CONTEXT_WITHOUT_ID";
  "IXBRL_UNIT_WITHOUT_ID";
  "IXBRL_INVALID_HIDDEN_ELEMENT";
  "IXBRL_FACT_WITHOUT_CONTEXT";
  "IXBRL_INVALID_FACT_CONTEXT_ID";
  "IXBRL_INVALID_FACT_UNIT_ID";
  "IXBRL_FACT_WITHOUT_CONCEPT_NAME";
  "IXBRL_FACT_INVALID_CONCEPT";
  "IXBRL_NON_FRACTION_WITHOUT_UNIT";
  "IXBRL_MUTUALLY_EXCLUSIVE_ATTRIBUTES_IN_NON_FRACTION";
  "IXBRL_BOTH_TEXT_AND_CHILDREN_IN_NON_FRACTION";
  "IXBRL_TEXT_OR_CHILDREN_WITH_NIL";
  "IXBRL_NO_TEXT_OR_CHILDREN_WITH_ABSENT_NIL_ATTRIBUTE";
  "IXBRL_INVALID_SIGN_ATTRIBUTE_VALUE";
  "IXBRL_MULTIPLE_NON_FRACTION_CHILDREN";
  "IXBRL_INVALID_NON_FRACTION_CHILD";
  "IXBRL_NON_NUMERICAL_NON_FRACTION_FACT_VALUE";
  "IXBRL_NEGATIVE_NON_FRACTION_FACT_VALUE";
  "IXBRL_NIL_ATTRIBUTE_IN_NON_FRACTION_CHILD";
  "IXBRL_DIFFERING_FORMAT_SCALE_OR_UNIT_FOR_NON_FRACTION_CHILD";
  "IXBRL_INVALID_NON_NUMERIC_FACT_ESCAPE_ATTRIBUTE_VALUE";
  "IXBRL_CONTINUATION_WITHOUT_ID";
  "IXBRL_REUSED_CONTINUATION";
  "IXBRL_INVALID_CONTINUATION_ID";
  "IXBRL_INVALID_DESCENDANT_IN_CONTINUATION_CHAIN";
  "IXBRL_UNUSED_CONTINUATION_ELEMENTS";
  "IXBRL_FOOTNOTE_WITHOUT_ID";
  "IXBRL_INVALID_FOOTNOTE_ROLE";
  "IXBRL_FOOTNOTE_WITHOUT_LANGUAGE";
  "IXBRL_RELATIONSHIP_WITHOUT_FROMREFS";
  "IXBRL_RELATIONSHIP_WITHOUT_TOREFS";
  "IXBRL_RELATIONSHIP_REPEATED_ID";
  "IXBRL_RELATIONSHIP_INVALID_FACT_ID_IN_FROMREFS";
  "IXBRL_RELATIONSHIP_INVALID_FACT_OR_FOOTNOTE_ID_IN_TOREFS";
  "IXBRL_RELATIONSHIP_MIXED_FACT_AND_FOOTNOTES_IN_TOREFS";
  "IXBRL_RELATIONSHIP_INVALID_ARCROLE";
  "IXBRL_RELATIONSHIP_INVALID_LINKROLE";
  "IXBRL_RELATIONSHIP_INVALID_ORDER";
  "UNSUPPORTED_DATE_FORMAT";
  "DATE_DOES_NOT_MATCH_EXPECTED_FORMAT";
  "YEAR_PRESENT_IN_RECURRING_DATE";
  "MONTH_OR_DAY_NOT_PRESENT_IN_RECURRING_DATE";
  "YEAR_OR_MONTH_NOT_PRESENT_IN_NON_RECURRING_DATE";
  "DAY_NOT_PRESENT_IN_FULL_DATE";
  "INVALID_GREGORIAN_DATE";
  "INVALID_JAPANESE_IMPERIAL_DATE";
  "UNSUPPORTED_LITERAL_FACT_FORMAT";
  "UNSUPPORTED_NON_NUMERIC_FACT_FORMAT";
  "UNSUPPORTED_NON_FRACTION_FACT_FORMAT";
  "NUMBER_DOES_NOT_MATCH_EXPECTED_FORMAT";
  "INVALID_SCALE_ATTRIBUTE_VALUE";
  "ROLEREF_INVALID_LINKTYPE";
  "ROLEREF_MISSING_HREF_ATTRIBUTE";
  "ROLEREF_INVALID_HREF_ATTRIBUTE";
  "ROLEREF_MISSING_ROLE_URI_ATTRIBUTE";
  "ROLEREF_INVALID_ROLE_URI_ATTRIBUTE";
  "ROLEREF_EMPTY_ROLE_ATTRIBUTE";
  "XML_UNSUPPORTED_RESOURCE_TAG";
  "XML_REFERENCED_LOCATOR_ELEMENT_NOT_FOUND";
  "XML_UNSUPPORTED_REFERENCED_ELEMENT_TYPE";
  "UNSUPPORTED_LINK_TYPE";
  "DUPLICATE_LINKBASE_ARC";
  "MISSING_LINK_ROLE";
  "MISSING_LABEL_LANGUAGE";
  "XML_MISSING_FOOTNOTE_LANGUAGE";
  "INVALID_CATALOG_ROOT_NODE";
  "REWRITE_URI_MISSING_ATTRIBUTE";
  "MULTIPLE_REWRITE_URIS_FOR_START_STRING";
  "MULTIPLE_PRESENTATION_NETWORKS_IN_COMPONENT";
  "MULTIPLE_CALCULATION_NETWORKS_IN_COMPONENT";
  "MULTIPLE_DEFINITION_NETWORKS_IN_COMPONENT";
  "PRESENTATION_NETWORK_IN_COMPONENT_WITHOUT_USEDON_ELEMENT";
  "CALCULATION_NETWORK_IN_COMPONENT_WITHOUT_USEDON_ELEMENT";
  "DEFINITION_NETWORK_IN_COMPONENT_WITHOUT_USEDON_ELEMENT";
  "REFERENCED_SCHEMA_ELEMENT_NOT_FOUND";
  "INVALID_CONCEPT_PERIOD_TYPE";
  "INVALID_CONCEPT_BALANCE_TYPE";
  "INVALID_CONCEPT_NILLABLE_VALUE";
  "MISSING_CONCEPT_DATA_TYPE";
  "QNAME_NAMESPACE_NOT_IN_ELEMENT_SCOPE";
  "QNAME_MISSING_NAMESPACE";
  "UNAVAILABLE_REMOTE_FILE"
].

Definition registry : list (string * entry) := [
  (* line 12 *)
  ("MISSING_CONTEXT_PERIOD", Entry ERROR GENERAL_INSTANCE "000"
    "Context is missing a period child element"
    None);
  (* line 19 *)
  ("MISSING_CONTEXT_ENTITY", Entry ERROR GENERAL_INSTANCE "001"
    "Context is missing an entity child element"
    None);
  (* line 26 *)
  ("INVALID_DIMENSION_TYPE", Entry ERROR GENERAL_INSTANCE "002"
    "Dimension type '{dimension_type}' is not valid. It should either be 'explicitMember' or typedMember'."
    None);
  (* line 33 *)
  ("INVALID_CONTEXT_PERIOD_DATE", Entry ERROR GENERAL_INSTANCE "003"
    "Date '{date}' is not a valid date."
    None);
  (* line 40 *)
  ("DURATION_PERIOD_MISSING_START_DATE", Entry ERROR GENERAL_INSTANCE "004"
    "End date is missing from the duration period."
    None);
  (* line 47 *)
  ("DURATION_PERIOD_MISSING_END_DATE", Entry ERROR GENERAL_INSTANCE "005"
    "Start date is missing from the duration period."
    None);
  (* line 54 *)
  ("DURATION_PERIOD_START_AFTER_END", Entry ERROR GENERAL_INSTANCE "006"
    "Start date '{start_date}' is after end date '{end_date}'."
    None);
  (* line 61 *)
  ("ENTITY_MISSING_IDENTIFIER_ELEMENT", Entry ERROR GENERAL_INSTANCE "007"
    "The entity element is missing an identifier child element"
    None);
  (* line 68 *)
  ("ENTITY_IDENTIFIER_MISSING_SCHEME", Entry ERROR GENERAL_INSTANCE "008"
    "The identifier element is missing a scheme attribute"
    None);
  (* line 75 *)
  ("ENTITY_IDENTIFIER_MISSING_VALUE", Entry ERROR GENERAL_INSTANCE "009"
    "The entity identifier element is missing its value."
    None);
  (* line 82 *)
  ("INVALID_EXPLICIT_DIMENSION_VALUE", Entry ERROR GENERAL_INSTANCE "010"
    "Invalid dimension value of explicit dimension element: '{dimension}'."
    None);
  (* line 89 *)
  ("MISSING_EXPLICIT_DIMENSION_MEMBER", Entry ERROR GENERAL_INSTANCE "011"
    "Missing dimension member for explicit dimension '{dimension}'."
    None);
  (* line 96 *)
  ("INVALID_EXPLICIT_DIMENSION_MEMBER", Entry ERROR GENERAL_INSTANCE "012"
    "Invalid dimension member '{member}' for explicit dimension '{dimension}'."
    None);
  (* line 103 *)
  ("INVALID_TYPED_DIMENSION_VALUE", Entry ERROR GENERAL_INSTANCE "013"
    "Invalid dimension value of typed dimension element: '{dimension}'."
    None);
  (* line 110 *)
  ("MULTIPLE_TYPED_DIMENSION_ELEMENT_CHILDREN", Entry ERROR GENERAL_INSTANCE "014"
    "Typed dimension element '{dimension}' has more than one child element."
    None);
  (* line 117 *)
  ("NO_TYPED_DIMENSION_ELEMENT_CHILDREN", Entry ERROR GENERAL_INSTANCE "015"
    "Typed dimension element '{dimension}' has no children but should have exactly one child"
    None);
  (* line 124 *)
  ("MISSING_TYPED_DIMENSION_VALUE", Entry ERROR GENERAL_INSTANCE "016"
    "There is no value provided for the typed dimension {dimension}."
    None);
  (* line 131 *)
  ("INVALID_PRECISION_ATTRIBUTE_VALUE", Entry WARNING GENERAL_INSTANCE "017"
    "Invalid precision attribute value '{precision}'."
    None);
  (* line 138 *)
  ("INVALID_DECIMALS_ATTRIBUTE_VALUE", Entry WARNING GENERAL_INSTANCE "018"
    "Invalid decimals attribute value '{decimals}'."
    None);
  (* line 145 *)
  ("MISSING_FACT_VALUE", Entry WARNING GENERAL_INSTANCE "019"
    "Fact has no value but the concept {concept} is not nillable"
    None);
  (* line 152 *)
  ("FACT_UNIT_MISMATCH", Entry ERROR GENERAL_INSTANCE "020"
    "Fact has unit {fact_unit} but should have unit {context_unit}"
    None);
  (* line 159 *)
  ("FACT_CONCEPT_MISMATCH", Entry ERROR GENERAL_INSTANCE "021"
    "Fact has concept {fact_concept} but should have concept {context_concept}"
    None);
  (* line 166 *)
  ("XML_UNIT_ELEMENT_WITHOUT_ONE_CHILD", Entry ERROR XML_INSTANCE "001"
    "Unit with ID '{id}' must have exactly one child element. Found {child_count}."
    None);
  (* line 173 *)
  ("XML_DIVIDE_ELEMENT_WITHOUT_TWO_CHILDREN", Entry ERROR XML_INSTANCE "002"
    "Divide element of unit with with ID '{id}' must have exactly two children: unitNumerator and unitDenominator. Found {child_count} children, instead."
    None);
  (* line 180 *)
  ("XML_INVALID_DIVIDE_ELEMENT_CHILDREN", Entry ERROR XML_INSTANCE "003"
    "Divide element of unit with ID '{id}' must have exactly two children: unitNumerator and unitDenominator. Found {child_tag} as a child."
    None);
  (* line 187 *)
  ("XML_DUPLICATE_DIVIDE_ELEMENT_CHILDREN", Entry ERROR XML_INSTANCE "004"
    "The unit {id} has a divide element with two children with the same tag: lambda: ErrorInstance(tag}. One should be 'unitNumerator' and the other 'unitDenominator'"
    None);
  (* line 194 *)
  ("XML_INVALID_UNIT_ELEMENT_CHILDREN", Entry ERROR XML_INSTANCE "005"
    "Unit with ID '{id}' must have exactly one child element: 'measrue' or 'divide'. Found {child_tag} as a child."
    None);
  (* line 201 *)
  ("XML_MISSING_UNIT_MEASURE", Entry ERROR XML_INSTANCE "006"
    "Unit measure element cannot be empty."
    None);
  (* line 208 *)
  ("XML_FACT_INVALID_CONCEPT", Entry ERROR XML_INSTANCE "100"
    "Concept name {concept_name} is invalid."
    None);
  (* line 215 *)
  ("XML_INVALID_FACT_CONTEXT_ID", Entry ERROR XML_INSTANCE "101"
    "Context ID {context_id} is not valid."
    None);
  (* line 222 *)
  ("XML_INVALID_FACT_CONTEXT_ID", Entry ERROR XML_INSTANCE "102"
    "Unit ID {unit_id} is not a valid."
    None);
  (* line 230 *)
  ("IXBRL_DUPLICATE_ELEMENT_ID", Entry ERROR IXBRL_INSTANCE "001"
    "ID '{id}' has already been used."
    None);
  (* line 237 *)
  ("IXBRL_ELEMENT_NOT_SUPPORTED", Entry WARNING IXBRL_INSTANCE "002"
    "Element '{tag}' is not yet supported. Ignoring for now."
    None);
  (* line 245 *)
  ("IXBRL_HEADER_ELEMENT_IN_HEAD", Entry WARNING IXBRL_INSTANCE "100"
    "The ix:header element is not allowed in the head element."
    None);
  (* line 252 *)
  ("IXBRL_INVALID_HEADER_CHILD", Entry WARNING IXBRL_INSTANCE "101"
    "The ix:header element must have one of the following children: ix:hidden, ix:resources, ix:references. Found {child_tag}."
    None);
  (* line 259 *)
  ("IXBRL_MORE_THAN_ONE_HIDDEN_HEADER_CHILD", Entry ERROR IXBRL_INSTANCE "102"
    "The ix:header element can have at most 1 ix:hidden element. Found {count}"
    None);
  (* line 266 *)
  ("IXBRL_MORE_THAN_ONE_RESOURCES_HEADER_CHILD", Entry ERROR IXBRL_INSTANCE "103"
    "The ix:header element can have at most 1 ix:resources element. Found {count}"
    None);
  (* line 273 *)
  ("IXBRL_NO_HEADER_ELEMENTS", Entry ERROR IXBRL_INSTANCE "104"
    "The IXBRL Document Set must have at least one ix:header element but 0 were found."
    None);
  (* line 281 *)
  ("IXBRL_REFERENCES_ELEMENT_WITHOUT_CHILDREN", Entry WARNING IXBRL_INSTANCE "200"
    "The ix:references element must have at least one child element."
    None);
  (* line 288 *)
  ("IXBRL_INVALID_REFERENCES_CHILD", Entry WARNING IXBRL_INSTANCE "201"
    "The ix:references element must have one of the following children: link:schemaRef, link:linkbaseRef. Found {children}."
    None);
  (* line 296 *)
  ("IXBRL_NO_RESOURCES_ELEMENTS", Entry ERROR IXBRL_INSTANCE "300"
    "The IXBRL Document Set must have at least one ix:resources element but 0 were found."
    None);
  (* line 303 *)
  ("IXBRL_INVALID_RESOURCES_CHILD", Entry WARNING IXBRL_INSTANCE "301"
    "The ix:resources element must have one of the following children: link:roleRef, link:arcroleRef, xbrli:context, xbrli:unit. Found {child_tag}."
    None);
  (* line 310 *)
  ("IXBRL_CONTEXT_WITHOUT_ID", Entry ERROR IXBRL_INSTANCE "360"
    "Context does not have an id"
    None);
  (* line 317 *)
  ("IXBRL_UNIT_WITHOUT_ID", Entry ERROR IXBRL_INSTANCE "380"
    "Unit does not have an id"
    None);
  (* line 324 *)
  ("IXBRL_INVALID_HIDDEN_ELEMENT", Entry WARNING IXBRL_INSTANCE "400"
    "The ix:hidden element must have one of the following children: link:roleRef, link:arcroleRef, xbrli:context, xbrli:unit. Found {child_tag}."
    None);
  (* line 331 *)
  ("IXBRL_FACT_WITHOUT_CONTEXT", Entry ERROR IXBRL_INSTANCE "500"
    "Fact with id {fact_id} does not have a context"
    None);
  (* line 338 *)
  ("IXBRL_INVALID_FACT_CONTEXT_ID", Entry ERROR IXBRL_INSTANCE "501"
    "Context {context_id} is not valid."
    None);
  (* line 345 *)
  ("IXBRL_INVALID_FACT_UNIT_ID", Entry ERROR IXBRL_INSTANCE "502"
    "Unit {unit_id} for fact {fact_id} is not a valid."
    None);
  (* line 352 *)
  ("IXBRL_FACT_WITHOUT_CONCEPT_NAME", Entry ERROR IXBRL_INSTANCE "503"
    "Fact with id {fact_id} does not have a concept name"
    None);
  (* line 359 *)
  ("IXBRL_FACT_INVALID_CONCEPT", Entry ERROR IXBRL_INSTANCE "504"
    "Fact with id {fact_id} uses an invalid concept name '{concept_name}'"
    None);
  (* line 366 *)
  ("IXBRL_NON_FRACTION_WITHOUT_UNIT", Entry WARNING IXBRL_INSTANCE "505"
    "ix:nonFraction fact with id {fact_id} does not have a unit."
    None);
  (* line 373 *)
  ("IXBRL_MUTUALLY_EXCLUSIVE_ATTRIBUTES_IN_NON_FRACTION", Entry ERROR IXBRL_INSTANCE "506"
    "Non-fraction fact cannot have more than one of: decimals, precision and xsi_nil attribute. Got more than one."
    None);
  (* line 380 *)
  ("IXBRL_BOTH_TEXT_AND_CHILDREN_IN_NON_FRACTION", Entry ERROR IXBRL_INSTANCE "507"
    "Non-fraction fact cannot have both text and children. Got both."
    None);
  (* line 387 *)
  ("IXBRL_TEXT_OR_CHILDREN_WITH_NIL", Entry ERROR IXBRL_INSTANCE "508"
    "Non-fraction fact cannot have both text and children when its xsi:nil attribute is set to true."
    None);
  (* line 394 *)
  ("IXBRL_NO_TEXT_OR_CHILDREN_WITH_ABSENT_NIL_ATTRIBUTE", Entry ERROR IXBRL_INSTANCE "509"
    "Non-fraction fact must have either text or children when its xsi:nil attribute is not set to true."
    None);
  (* line 401 *)
  ("IXBRL_INVALID_SIGN_ATTRIBUTE_VALUE", Entry ERROR IXBRL_INSTANCE "510"
    "Sign attribute value '{sign}' is not valid. If set, it should always be set to '-'."
    None);
  (* line 408 *)
  ("IXBRL_MULTIPLE_NON_FRACTION_CHILDREN", Entry WARNING IXBRL_INSTANCE "511"
    "Non-fraction fact has more than one child element. Using the first child."
    None);
  (* line 415 *)
  ("IXBRL_INVALID_NON_FRACTION_CHILD", Entry ERROR IXBRL_INSTANCE "512"
    "Non-fraction facts can only have 1 non-fraction element as a child. Found {child_tag}."
    None);
  (* line 422 *)
  ("IXBRL_NON_NUMERICAL_NON_FRACTION_FACT_VALUE", Entry ERROR IXBRL_INSTANCE "513"
    "Non-fraction fact has a non-numeric value '{value}'."
    None);
  (* line 429 *)
  ("IXBRL_NEGATIVE_NON_FRACTION_FACT_VALUE", Entry WARNING IXBRL_INSTANCE "514"
    "Non-fraction has a negative value '{value}'. This is not  allowed."
    None);
  (* line 436 *)
  ("IXBRL_NIL_ATTRIBUTE_IN_NON_FRACTION_CHILD", Entry WARNING IXBRL_INSTANCE "515"
    "Non-fraction child of another non-fraction element has its nil attribute set to 'true'. This is not allowed.'."
    None);
  (* line 443 *)
  ("IXBRL_DIFFERING_FORMAT_SCALE_OR_UNIT_FOR_NON_FRACTION_CHILD", Entry WARNING IXBRL_INSTANCE "516"
    "Non-fraction child of another non-fraction element has a different format, scale or unit.
Parent has the following format, scale and unit {parent_format), {parent_scale), {parent_unit}.
The child has the following format, scale and unit: lambda: ErrorInstance(this_format), {this_scale), {this_unit}"
    None);
  (* line 452 *)
  ("IXBRL_INVALID_NON_NUMERIC_FACT_ESCAPE_ATTRIBUTE_VALUE", Entry WARNING IXBRL_INSTANCE "530"
    "Non-numeric fact has an invalid escape attribute value '{value}'. Assuming it is set to 'true'"
    None);
  (* line 459 *)
  ("IXBRL_CONTINUATION_WITHOUT_ID", Entry ERROR IXBRL_INSTANCE "540"
    "Continuation element has no id attribute."
    None);
  (* line 466 *)
  ("IXBRL_REUSED_CONTINUATION", Entry WARNING IXBRL_INSTANCE "541"
    "The continuation element with id '{id}' has already been used. Trying to use it again in continuation chain of element with id '{element_id}'."
    None);
  (* line 473 *)
  ("IXBRL_INVALID_CONTINUATION_ID", Entry ERROR IXBRL_INSTANCE "542"
    "ID '{id}' in the continuation chain of the fact or footnote with id '{element_id}' does not exist."
    None);
  (* line 480 *)
  ("IXBRL_INVALID_DESCENDANT_IN_CONTINUATION_CHAIN", Entry ERROR IXBRL_INSTANCE "543"
    "In a continuation chain, no element can be a descendant of another element in that same chain. Element with id '{descendant_id}' isa descendant of element with id '{parent_id}', but they are part of the same continuation chain."
    None);
  (* line 488 *)
  ("IXBRL_UNUSED_CONTINUATION_ELEMENTS", Entry WARNING IXBRL_INSTANCE "544"
    "Continuation elements with the following IDs {element_ids} were unused."
    None);
  (* line 495 *)
  ("IXBRL_FOOTNOTE_WITHOUT_ID", Entry ERROR IXBRL_INSTANCE "550"
    "Footnote element has no id attribute."
    None);
  (* line 502 *)
  ("IXBRL_INVALID_FOOTNOTE_ROLE", Entry ERROR IXBRL_INSTANCE "551"
    "Footnote element with id {id} has an invalid URI for its footnoteRole attribute '{role}'."
    None);
  (* line 509 *)
  ("IXBRL_FOOTNOTE_WITHOUT_LANGUAGE", Entry ERROR IXBRL_INSTANCE "552"
    "Footnote element with id {id} has no xml:lang attribute in scope."
    None);
  (* line 516 *)
  ("IXBRL_RELATIONSHIP_WITHOUT_FROMREFS", Entry ERROR IXBRL_INSTANCE "560"
    "Relationship element has no fromRefs attribute."
    None);
  (* line 523 *)
  ("IXBRL_RELATIONSHIP_WITHOUT_TOREFS", Entry ERROR IXBRL_INSTANCE "561"
    "Relationship element has no toRefs attribute."
    None);
  (* line 530 *)
  ("IXBRL_RELATIONSHIP_REPEATED_ID", Entry ERROR IXBRL_INSTANCE "562"
    "A token in the fromRefs attribute of the relationship element is reused in its toRefs attribute."
    None);
  (* line 537 *)
  ("IXBRL_RELATIONSHIP_INVALID_FACT_ID_IN_FROMREFS", Entry ERROR IXBRL_INSTANCE "563"
    "The following IDs in the fromRefs attribute of the relationship element do not point to a fact: {invalid_ids}."
    None);
  (* line 544 *)
  ("IXBRL_RELATIONSHIP_INVALID_FACT_OR_FOOTNOTE_ID_IN_TOREFS", Entry ERROR IXBRL_INSTANCE "564"
    "The following IDs in the toRefs attribute of the relationship element do not point to a fact or a footnote: {invalid_ids}."
    None);
  (* line 551 *)
  ("IXBRL_RELATIONSHIP_MIXED_FACT_AND_FOOTNOTES_IN_TOREFS", Entry WARNING IXBRL_INSTANCE "565"
    "The toRefs attribute of the relationship element contains a mix of facts and footnotes. This is not allowed."
    None);
  (* line 558 *)
  ("IXBRL_RELATIONSHIP_INVALID_ARCROLE", Entry ERROR IXBRL_INSTANCE "566"
    "Relationship element has an invalid arcrole attribute '{arcrole}'. The arcrole must be a valid URI"
    None);
  (* line 565 *)
  ("IXBRL_RELATIONSHIP_INVALID_LINKROLE", Entry ERROR IXBRL_INSTANCE "567"
    "Relationship element has an invalid linkrole attribute '{linkrole}'. The linkrole must be a valid URI"
    None);
  (* line 572 *)
  ("IXBRL_RELATIONSHIP_INVALID_ORDER", Entry ERROR IXBRL_INSTANCE "568"
    "Relationship element has an invalid order attribute '{order}'. The order must be a valid floating-point number."
    None);
  (* line 579 *)
  ("UNSUPPORTED_DATE_FORMAT", Entry ERROR IXBRL_INSTANCE "600"
    "Unknown date format '{format}'."
    None);
  (* line 586 *)
  ("DATE_DOES_NOT_MATCH_EXPECTED_FORMAT", Entry ERROR IXBRL_INSTANCE "601"
    "Date '{date}' does not match the expected format '{format}'."
    None);
  (* line 593 *)
  ("YEAR_PRESENT_IN_RECURRING_DATE", Entry ERROR IXBRL_INSTANCE "602"
    "Year should not be present in recurring date: '{date}'."
    None);
  (* line 600 *)
  ("MONTH_OR_DAY_NOT_PRESENT_IN_RECURRING_DATE", Entry ERROR IXBRL_INSTANCE "603"
    "Month and day should both be present in recurring date: '{date}'."
    None);
  (* line 607 *)
  ("YEAR_OR_MONTH_NOT_PRESENT_IN_NON_RECURRING_DATE", Entry ERROR IXBRL_INSTANCE "604"
    "Year and month should both be present in non-recurring date: '{date}'."
    None);
  (* line 614 *)
  ("DAY_NOT_PRESENT_IN_FULL_DATE", Entry ERROR IXBRL_INSTANCE "605"
    "Day should be present in full date: '{date}'."
    None);
  (* line 621 *)
  ("INVALID_GREGORIAN_DATE", Entry ERROR IXBRL_INSTANCE "606"
    "Invalid gregorian date: '{date}'."
    None);
  (* line 628 *)
  ("INVALID_JAPANESE_IMPERIAL_DATE", Entry ERROR IXBRL_INSTANCE "607"
    "Invalid Japanese imperial date: '{date}'. Out of bounds for the era."
    None);
  (* line 635 *)
  ("UNSUPPORTED_LITERAL_FACT_FORMAT", Entry ERROR IXBRL_INSTANCE "608"
    "Unsupported literal fact format '{format}'."
    None);
  (* line 642 *)
  ("UNSUPPORTED_NON_NUMERIC_FACT_FORMAT", Entry ERROR IXBRL_INSTANCE "609"
    "Unsupported non-numeric fact format '{format}'."
    None);
  (* line 649 *)
  ("UNSUPPORTED_NON_FRACTION_FACT_FORMAT", Entry ERROR IXBRL_INSTANCE "620"
    "Unsupported non-fraction fact format '{format}'."
    None);
  (* line 656 *)
  ("NUMBER_DOES_NOT_MATCH_EXPECTED_FORMAT", Entry ERROR IXBRL_INSTANCE "621"
    "Number '{number}' does not match the expected format '{format}'."
    None);
  (* line 663 *)
  ("INVALID_SCALE_ATTRIBUTE_VALUE", Entry WARNING IXBRL_INSTANCE "622"
    "Invalid scale attribute value '{scale}'. Assuming scale=0."
    None);
  (* line 671 *)
  ("ROLEREF_INVALID_LINKTYPE", Entry ERROR GENERAL_LINKBASE "100"
    "The link:(arc)roleRef element has an invalid xlink:linktype attribute '{linktype}'. This must always be set to 'simple'"
    None);
  (* line 678 *)
  ("ROLEREF_MISSING_HREF_ATTRIBUTE", Entry ERROR GENERAL_LINKBASE "101"
    "The link:(arc)roleRef element has a missing xlink:href attribute."
    None);
  (* line 685 *)
  ("ROLEREF_INVALID_HREF_ATTRIBUTE", Entry ERROR GENERAL_LINKBASE "102"
    "The link:(arc)roleRef element has an invalid xlink:href attribute '{href}'. It should always be a valid URI."
    None);
  (* line 692 *)
  ("ROLEREF_MISSING_ROLE_URI_ATTRIBUTE", Entry ERROR GENERAL_LINKBASE "103"
    "The link:(arc)roleRef element has a missing roleURI attribute."
    None);
  (* line 699 *)
  ("ROLEREF_INVALID_ROLE_URI_ATTRIBUTE", Entry ERROR GENERAL_LINKBASE "104"
    "The link:(arc)roleRef element has an invalid roleURI attribute '{role_uri}'. It should always be a valid URI."
    None);
  (* line 706 *)
  ("ROLEREF_EMPTY_ROLE_ATTRIBUTE", Entry ERROR GENERAL_LINKBASE "105"
    "If the xlink:role attribute is present in a link:(arc)roleRef element, it must not be empty."
    None);
  (* line 713 *)
  ("XML_UNSUPPORTED_RESOURCE_TAG", Entry ERROR GENERAL_LINKBASE "200"
    "The tag '{tag}' is not a supported resource type."
    None);
  (* line 720 *)
  ("XML_REFERENCED_LOCATOR_ELEMENT_NOT_FOUND", Entry ERROR GENERAL_LINKBASE "300"
    "The referenced locator element with ID '{elem_id}' could not be found."
    None);
  (* line 727 *)
  ("XML_UNSUPPORTED_REFERENCED_ELEMENT_TYPE", Entry ERROR GENERAL_LINKBASE "301"
    "The referenced element type must be a 'resource' or a 'locator'. {type} not a supported type."
    None);
  (* line 734 *)
  ("UNSUPPORTED_LINK_TYPE", Entry ERROR GENERAL_LINKBASE "400"
    "The link type {type} is not supported. Supported linkbase types are 'presentation/calculation/definition/label/reference/footnoteLink'."
    None);
  (* line 741 *)
  ("DUPLICATE_LINKBASE_ARC", Entry WARNING GENERAL_LINKBASE "401"
    "The arc going from '{arc_from}' to '{arc_to} is defined multiple times."
    None);
  (* line 748 *)
  ("MISSING_LINK_ROLE", Entry ERROR GENERAL_LINKBASE "402"
    "A standard link element is required to have an xlink:role attribute."
    None);
  (* line 756 *)
  ("MISSING_LABEL_LANGUAGE", Entry ERROR LABEL_NETWORK "001"
    "The label element has no xml:lang attribute in scope."
    None);
  (* line 764 *)
  ("XML_MISSING_FOOTNOTE_LANGUAGE", Entry ERROR FOOTNOTE_NETWORK "001"
    "The footnote element has no xml:lang attribute in scope."
    None);
  (* line 772 *)
  ("INVALID_CATALOG_ROOT_NODE", Entry ERROR TAXONOMY_PACKAGE "000"
    "The root node of the catalog should be a <{{urn:oasis:names:tc:entity:xmlns:xml:catalog}}catalog> element."
    (Some ("http://xbrl.org/2016/taxonomy-package/errors", "tpe", "invalidCatalogFile")));
  (* line 780 *)
  ("REWRITE_URI_MISSING_ATTRIBUTE", Entry ERROR TAXONOMY_PACKAGE "001"
    "The rewriteURI element is missing either a 'uriStaratString' or a 'rewritePrefix' attribute."
    (Some ("http://xbrl.org/2016/taxonomy-package/errors", "tpe", "invalidCatalogFile")));
  (* line 788 *)
  ("MULTIPLE_REWRITE_URIS_FOR_START_STRING", Entry ERROR TAXONOMY_PACKAGE "002"
    "The catalog contains multiple rewriteURI elements with equivalent 'uriStartString' URIs: lambda: ErrorInstance(uri}"
    (Some ("http://xbrl.org/2016/taxonomy-package/errors", "tpe", "multipleRewriteURIsForStartString")));
  (* line 797 *)
  ("MULTIPLE_PRESENTATION_NETWORKS_IN_COMPONENT", Entry WARNING VALIDATION "000"
    "Component {linkrole_uri} has more than one presentation network."
    None);
  (* line 804 *)
  ("MULTIPLE_CALCULATION_NETWORKS_IN_COMPONENT", Entry WARNING VALIDATION "001"
    "Component {linkrole_uri} has more than one calculation network."
    None);
  (* line 811 *)
  ("MULTIPLE_DEFINITION_NETWORKS_IN_COMPONENT", Entry WARNING VALIDATION "002"
    "Component {linkrole_uri} has more than one definition network."
    None);
  (* line 819 *)
  ("PRESENTATION_NETWORK_IN_COMPONENT_WITHOUT_USEDON_ELEMENT", Entry WARNING SCHEMA_DEFINITION "000"
    "Component {linkrole_uri} has a presentation network but without an appropriate usedOn element in its schema."
    None);
  (* line 826 *)
  ("CALCULATION_NETWORK_IN_COMPONENT_WITHOUT_USEDON_ELEMENT", Entry WARNING SCHEMA_DEFINITION "001"
    "Component {linkrole_uri} has a calculation network but without an appropriate usedOn element in its schema."
    None);
  (* line 833 *)
  ("DEFINITION_NETWORK_IN_COMPONENT_WITHOUT_USEDON_ELEMENT", Entry WARNING SCHEMA_DEFINITION "002"
    "Component {linkrole_uri} has a definition network but without an appropriate usedOn element in its schema."
    None);
  (* line 840 *)
  ("REFERENCED_SCHEMA_ELEMENT_NOT_FOUND", Entry ERROR SCHEMA_DEFINITION "100"
    "The referenced schema element with ID '{ref_id}' could not be found in the schema with name {ref_schema_name}."
    None);
  (* line 847 *)
  ("INVALID_CONCEPT_PERIOD_TYPE", Entry ERROR SCHEMA_DEFINITION "200"
    "The concept period type '{period_type}' for concept {concept_name} is not valid. Valid values are 'instant' and 'duration'."
    None);
  (* line 854 *)
  ("INVALID_CONCEPT_BALANCE_TYPE", Entry ERROR SCHEMA_DEFINITION "201"
    "The concept balance type '{balance_type}' for concept {concept_name} is not valid. Valid values are 'credit' and 'debit'."
    None);
  (* line 861 *)
  ("INVALID_CONCEPT_NILLABLE_VALUE", Entry ERROR SCHEMA_DEFINITION "202"
    "The concept nillable value '{nillable_value}' for concept {concept_name} is not valid. Valid values are 'true' and 'false'."
    None);
  (* line 868 *)
  ("MISSING_CONCEPT_DATA_TYPE", Entry ERROR SCHEMA_DEFINITION "203"
    "Concept {concept_name} is missing a data type."
    None);
  (* line 876 *)
  ("QNAME_NAMESPACE_NOT_IN_ELEMENT_SCOPE", Entry ERROR MISC "000"
    "QName namespace '{namespace}' is not in element scope"
    None);
  (* line 883 *)
  ("QNAME_MISSING_NAMESPACE", Entry ERROR MISC "001"
    "QName '{local_name}' is missing a namespace (and a default one is not provided)"
    None);
  (* line 890 *)
  ("UNAVAILABLE_REMOTE_FILE", Entry ERROR MISC "100"
    "The remote file with '{uri}' could not be found. The web page returned status code {status_code}."
    None)
].

Definition sites : list site := [
  Site "brel/parsers/XHMTL/elements/parse_continuation_chain.py" 27 "IXBRL_CONTINUATION_WITHOUT_ID" [];
  Site "brel/parsers/XHMTL/elements/parse_continuation_chain.py" 34 "IXBRL_DUPLICATE_ELEMENT_ID" ["id"];
  Site "brel/parsers/XHMTL/elements/parse_continuation_chain.py" 76 "IXBRL_REUSED_CONTINUATION" ["id"; "element_id"];
  Site "brel/parsers/XHMTL/elements/parse_continuation_chain.py" 85 "IXBRL_INVALID_CONTINUATION_ID" ["id"; "element_id"];
  Site "brel/parsers/XHMTL/elements/parse_continuation_chain.py" 105 "IXBRL_INVALID_DESCENDANT_IN_CONTINUATION_CHAIN" ["descendant_id"; "parent_id"];
  Site "brel/parsers/XHMTL/elements/parse_continuation_chain.py" 116 "IXBRL_UNUSED_CONTINUATION_ELEMENTS" ["element_ids"];
  Site "brel/parsers/XHMTL/elements/parse_header.py" 19 "IXBRL_HEADER_ELEMENT_IN_HEAD" [];
  Site "brel/parsers/XHMTL/elements/parse_header.py" 38 "IXBRL_INVALID_HEADER_CHILD" ["child_tag"];
  Site "brel/parsers/XHMTL/elements/parse_header.py" 45 "IXBRL_MORE_THAN_ONE_HIDDEN_HEADER_CHILD" ["count"];
  Site "brel/parsers/XHMTL/elements/parse_header.py" 52 "IXBRL_MORE_THAN_ONE_RESOURCES_HEADER_CHILD" ["count"];
  Site "brel/parsers/XHMTL/elements/parse_hidden.py" 20 "IXBRL_ELEMENT_NOT_SUPPORTED" ["tag"];
  Site "brel/parsers/XHMTL/elements/parse_hidden.py" 24 "IXBRL_INVALID_HIDDEN_ELEMENT" ["tag"];
  Site "brel/parsers/XHMTL/elements/parse_non_fraction.py" 55 "IXBRL_NIL_ATTRIBUTE_IN_NON_FRACTION_CHILD" [];
  Site "brel/parsers/XHMTL/elements/parse_non_fraction.py" 72 "IXBRL_DIFFERING_FORMAT_SCALE_OR_UNIT_FOR_NON_FRACTION_CHILD" ["this_format"; "this_scale"; "this_unit"; "parent_format"; "parent_scale"; "parent_unit"];
  Site "brel/parsers/XHMTL/elements/parse_non_fraction.py" 92 "IXBRL_INVALID_SIGN_ATTRIBUTE_VALUE" ["sign"];
  Site "brel/parsers/XHMTL/elements/parse_non_fraction.py" 108 "IXBRL_NON_NUMERICAL_NON_FRACTION_FACT_VALUE" ["value"];
  Site "brel/parsers/XHMTL/elements/parse_non_fraction.py" 117 "IXBRL_NEGATIVE_NON_FRACTION_FACT_VALUE" ["value"];
  Site "brel/parsers/XHMTL/elements/parse_non_fraction.py" 150 "IXBRL_DUPLICATE_ELEMENT_ID" ["id"];
  Site "brel/parsers/XHMTL/elements/parse_non_fraction.py" 164 "INVALID_DECIMALS_ATTRIBUTE_VALUE" ["decimals"];
  Site "brel/parsers/XHMTL/elements/parse_non_fraction.py" 174 "INVALID_PRECISION_ATTRIBUTE_VALUE" ["precision"];
  Site "brel/parsers/XHMTL/elements/parse_non_fraction.py" 189 "IXBRL_MUTUALLY_EXCLUSIVE_ATTRIBUTES_IN_NON_FRACTION" ["id"];
  Site "brel/parsers/XHMTL/elements/parse_non_fraction.py" 202 "IXBRL_BOTH_TEXT_AND_CHILDREN_IN_NON_FRACTION" [];
  Site "brel/parsers/XHMTL/elements/parse_non_fraction.py" 207 "IXBRL_TEXT_OR_CHILDREN_WITH_NIL" [];
  Site "brel/parsers/XHMTL/elements/parse_non_fraction.py" 210 "IXBRL_NO_TEXT_OR_CHILDREN_WITH_ABSENT_NIL_ATTRIBUTE" [];
  Site "brel/parsers/XHMTL/elements/parse_non_fraction.py" 227 "IXBRL_MULTIPLE_NON_FRACTION_CHILDREN" [];
  Site "brel/parsers/XHMTL/elements/parse_non_fraction.py" 233 "IXBRL_INVALID_NON_FRACTION_CHILD" ["child_tag"];
  Site "brel/parsers/XHMTL/elements/parse_non_numeric.py" 85 "IXBRL_DUPLICATE_ELEMENT_ID" ["id"];
  Site "brel/parsers/XHMTL/elements/parse_non_numeric.py" 94 "IXBRL_INVALID_NON_NUMERIC_FACT_ESCAPE_ATTRIBUTE_VALUE" ["value"];
  Site "brel/parsers/XHMTL/elements/parse_references.py" 22 "IXBRL_DUPLICATE_ELEMENT_ID" ["id"];
  Site "brel/parsers/XHMTL/elements/parse_references.py" 29 "IXBRL_REFERENCES_ELEMENT_WITHOUT_CHILDREN" [];
  Site "brel/parsers/XHMTL/elements/parse_references.py" 37 "IXBRL_INVALID_REFERENCES_CHILD" ["child_tag"];
  Site "brel/parsers/XHMTL/elements/parse_resources.py" 33 "IXBRL_INVALID_RESOURCES_CHILD" ["child_tag"];
  Site "brel/parsers/XHMTL/networks/xhtml_parse_footnote_network.py" 37 "IXBRL_FOOTNOTE_WITHOUT_ID" [];
  Site "brel/parsers/XHMTL/networks/xhtml_parse_footnote_network.py" 41 "IXBRL_DUPLICATE_ELEMENT_ID" ["id"];
  Site "brel/parsers/XHMTL/networks/xhtml_parse_footnote_network.py" 51 "IXBRL_INVALID_FOOTNOTE_ROLE" ["id"; "role"];
  Site "brel/parsers/XHMTL/networks/xhtml_parse_footnote_network.py" 64 "IXBRL_FOOTNOTE_WITHOUT_LANGUAGE" ["id"];
  Site "brel/parsers/XHMTL/networks/xhtml_parse_footnote_network.py" 106 "IXBRL_RELATIONSHIP_WITHOUT_FROMREFS" [];
  Site "brel/parsers/XHMTL/networks/xhtml_parse_footnote_network.py" 114 "IXBRL_RELATIONSHIP_WITHOUT_TOREFS" [];
  Site "brel/parsers/XHMTL/networks/xhtml_parse_footnote_network.py" 135 "IXBRL_RELATIONSHIP_REPEATED_ID" [];
  Site "brel/parsers/XHMTL/networks/xhtml_parse_footnote_network.py" 148 "IXBRL_RELATIONSHIP_INVALID_FACT_ID_IN_FROMREFS" ["invalid_ids"];
  Site "brel/parsers/XHMTL/networks/xhtml_parse_footnote_network.py" 161 "IXBRL_RELATIONSHIP_INVALID_FACT_OR_FOOTNOTE_ID_IN_TOREFS" ["invalid_ids"];
  Site "brel/parsers/XHMTL/networks/xhtml_parse_footnote_network.py" 170 "IXBRL_RELATIONSHIP_MIXED_FACT_AND_FOOTNOTES_IN_TOREFS" [];
  Site "brel/parsers/XHMTL/networks/xhtml_parse_footnote_network.py" 183 "IXBRL_RELATIONSHIP_INVALID_ARCROLE" ["arcrole"];
  Site "brel/parsers/XHMTL/networks/xhtml_parse_footnote_network.py" 196 "IXBRL_RELATIONSHIP_INVALID_LINKROLE" ["linkrole"];
  Site "brel/parsers/XHMTL/networks/xhtml_parse_footnote_network.py" 210 "IXBRL_RELATIONSHIP_INVALID_ORDER" ["order"];
  Site "brel/parsers/XHMTL/networks/xhtml_parse_footnote_network.py" 378 "ROLEREF_INVALID_LINKTYPE" ["linktype"];
  Site "brel/parsers/XHMTL/networks/xhtml_parse_footnote_network.py" 383 "ROLEREF_MISSING_HREF_ATTRIBUTE" [];
  Site "brel/parsers/XHMTL/networks/xhtml_parse_footnote_network.py" 388 "ROLEREF_INVALID_HREF_ATTRIBUTE" ["href"];
  Site "brel/parsers/XHMTL/networks/xhtml_parse_footnote_network.py" 394 "ROLEREF_MISSING_ROLE_URI_ATTRIBUTE" [];
  Site "brel/parsers/XHMTL/networks/xhtml_parse_footnote_network.py" 398 "ROLEREF_INVALID_ROLE_URI_ATTRIBUTE" ["role_uri"];
  Site "brel/parsers/XHMTL/networks/xhtml_parse_footnote_network.py" 406 "ROLEREF_EMPTY_ROLE_ATTRIBUTE" [];
  Site "brel/parsers/XHMTL/xhtml_parse_facts.py" 76 "IXBRL_NO_HEADER_ELEMENTS" [];
  Site "brel/parsers/XHMTL/xhtml_parse_facts.py" 79 "IXBRL_NO_RESOURCES_ELEMENTS" [];
  Site "brel/parsers/XHMTL/xhtml_parse_facts.py" 94 "IXBRL_CONTEXT_WITHOUT_ID" [];
  Site "brel/parsers/XHMTL/xhtml_parse_facts.py" 98 "IXBRL_DUPLICATE_ELEMENT_ID" ["id"];
  Site "brel/parsers/XHMTL/xhtml_parse_facts.py" 110 "IXBRL_DUPLICATE_ELEMENT_ID" ["id"];
  Site "brel/parsers/XHMTL/xhtml_parse_facts.py" 124 "IXBRL_UNIT_WITHOUT_ID" [];
  Site "brel/parsers/XHMTL/xhtml_parse_facts.py" 127 "IXBRL_DUPLICATE_ELEMENT_ID" ["id"];
  Site "brel/parsers/XHMTL/xhtml_parse_facts.py" 175 "IXBRL_FACT_WITHOUT_CONCEPT_NAME" ["fact_id"];
  Site "brel/parsers/XHMTL/xhtml_parse_facts.py" 188 "IXBRL_FACT_INVALID_CONCEPT" ["concept_name"; "fact_id"];
  Site "brel/parsers/XHMTL/xhtml_parse_facts.py" 210 "IXBRL_INVALID_FACT_UNIT_ID" ["unit_id"; "fact_id"];
  Site "brel/parsers/XHMTL/xhtml_parse_facts.py" 217 "IXBRL_NON_FRACTION_WITHOUT_UNIT" ["fact_id"];
  Site "brel/parsers/XHMTL/xhtml_parse_facts.py" 226 "IXBRL_FACT_WITHOUT_CONTEXT" ["fact_id"];
  Site "brel/parsers/XHMTL/xhtml_parse_facts.py" 235 "IXBRL_INVALID_FACT_CONTEXT_ID" ["context_id"];
  Site "brel/parsers/XHMTL/xhtml_parse_transformation_registry.py" 612 "UNSUPPORTED_DATE_FORMAT" ["format"];
  Site "brel/parsers/XHMTL/xhtml_parse_transformation_registry.py" 620 "DATE_DOES_NOT_MATCH_EXPECTED_FORMAT" ["date"; "format"];
  Site "brel/parsers/XHMTL/xhtml_parse_transformation_registry.py" 773 "YEAR_PRESENT_IN_RECURRING_DATE" ["date"];
  Site "brel/parsers/XHMTL/xhtml_parse_transformation_registry.py" 777 "MONTH_OR_DAY_NOT_PRESENT_IN_RECURRING_DATE" ["date"];
  Site "brel/parsers/XHMTL/xhtml_parse_transformation_registry.py" 783 "YEAR_OR_MONTH_NOT_PRESENT_IN_NON_RECURRING_DATE" ["date"];
  Site "brel/parsers/XHMTL/xhtml_parse_transformation_registry.py" 790 "DAY_NOT_PRESENT_IN_FULL_DATE" ["date"];
  Site "brel/parsers/XHMTL/xhtml_parse_transformation_registry.py" 799 "INVALID_GREGORIAN_DATE" ["date"];
  Site "brel/parsers/XHMTL/xhtml_parse_transformation_registry.py" 805 "INVALID_JAPANESE_IMPERIAL_DATE" ["date"];
  Site "brel/parsers/XHMTL/xhtml_parse_transformation_registry.py" 865 "UNSUPPORTED_LITERAL_FACT_FORMAT" ["format"];
  Site "brel/parsers/XHMTL/xhtml_parse_transformation_registry.py" 912 "UNSUPPORTED_NON_FRACTION_FACT_FORMAT" ["format"];
  Site "brel/parsers/XHMTL/xhtml_parse_transformation_registry.py" 920 "NUMBER_DOES_NOT_MATCH_EXPECTED_FORMAT" ["number"; "format"];
  Site "brel/parsers/XHMTL/xhtml_parse_transformation_registry.py" 975 "INVALID_SCALE_ATTRIBUTE_VALUE" ["scale"];
  Site "brel/parsers/XHMTL/xhtml_parse_transformation_registry.py" 1055 "UNSUPPORTED_NON_NUMERIC_FACT_FORMAT" ["format"];
  Site "brel/parsers/XML/characteristics/xml_parse_entity.py" 39 "ENTITY_MISSING_IDENTIFIER_ELEMENT" [];
  Site "brel/parsers/XML/characteristics/xml_parse_entity.py" 46 "ENTITY_IDENTIFIER_MISSING_SCHEME" [];
  Site "brel/parsers/XML/characteristics/xml_parse_explicit_dimension.py" 57 "INVALID_EXPLICIT_DIMENSION_VALUE" ["dimension"];
  Site "brel/parsers/XML/characteristics/xml_parse_explicit_dimension.py" 67 "MISSING_EXPLICIT_DIMENSION_MEMBER" ["dimension"];
  Site "brel/parsers/XML/characteristics/xml_parse_explicit_dimension.py" 76 "INVALID_EXPLICIT_DIMENSION_MEMBER" ["member"; "dimension"];
  Site "brel/parsers/XML/characteristics/xml_parse_period.py" 29 "INVALID_CONTEXT_PERIOD_DATE" ["date"];
  Site "brel/parsers/XML/characteristics/xml_parse_period.py" 94 "DURATION_PERIOD_START_AFTER_END" ["start_date"; "end_date"];
  Site "brel/parsers/XML/characteristics/xml_parse_period.py" 124 "DURATION_PERIOD_MISSING_START_DATE" [];
  Site "brel/parsers/XML/characteristics/xml_parse_period.py" 132 "DURATION_PERIOD_MISSING_END_DATE" [];
  Site "brel/parsers/XML/characteristics/xml_parse_typed_dimension.py" 69 "INVALID_TYPED_DIMENSION_VALUE" ["dimension"];
  Site "brel/parsers/XML/characteristics/xml_parse_typed_dimension.py" 80 "MULTIPLE_TYPED_DIMENSION_ELEMENT_CHILDREN" ["dimension"];
  Site "brel/parsers/XML/characteristics/xml_parse_typed_dimension.py" 87 "NO_TYPED_DIMENSION_ELEMENT_CHILDREN" ["dimension"];
  Site "brel/parsers/XML/characteristics/xml_parse_typed_dimension.py" 97 "MISSING_TYPED_DIMENSION_VALUE" ["dimension"];
  Site "brel/parsers/XML/characteristics/xml_parse_unit.py" 34 "XML_MISSING_UNIT_MEASURE" [];
  Site "brel/parsers/XML/characteristics/xml_parse_unit.py" 59 "IXBRL_DUPLICATE_ELEMENT_ID" ["id"];
  Site "brel/parsers/XML/characteristics/xml_parse_unit.py" 69 "XML_UNIT_ELEMENT_WITHOUT_ONE_CHILD" ["id"; "child_count"];
  Site "brel/parsers/XML/characteristics/xml_parse_unit.py" 89 "XML_DIVIDE_ELEMENT_WITHOUT_TWO_CHILDREN" ["id"; "child_count"];
  Site "brel/parsers/XML/characteristics/xml_parse_unit.py" 103 "XML_INVALID_DIVIDE_ELEMENT_CHILDREN" ["id"; "child_tag"];
  Site "brel/parsers/XML/characteristics/xml_parse_unit.py" 122 "XML_DUPLICATE_DIVIDE_ELEMENT_CHILDREN" ["id"; "tag"];
  Site "brel/parsers/XML/characteristics/xml_parse_unit.py" 129 "XML_INVALID_UNIT_ELEMENT_CHILDREN" ["id"; "child_tag"];
  Site "brel/parsers/XML/networks/xml_extended_link_parser.py" 67 "XML_REFERENCED_LOCATOR_ELEMENT_NOT_FOUND" ["elem_id"];
  Site "brel/parsers/XML/networks/xml_extended_link_parser.py" 77 "XML_UNSUPPORTED_REFERENCED_ELEMENT_TYPE" ["type"];
  Site "brel/parsers/XML/networks/xml_extended_link_parser.py" 111 "UNSUPPORTED_LINK_TYPE" ["type"];
  Site "brel/parsers/XML/networks/xml_extended_link_parser.py" 129 "DUPLICATE_LINKBASE_ARC" ["arc_from"; "arc_to"];
  Site "brel/parsers/XML/networks/xml_networks_parser.py" 97 "MISSING_LINK_ROLE" [];
  Site "brel/parsers/XML/networks/xml_resource_parser.py" 41 "MISSING_LABEL_LANGUAGE" [];
  Site "brel/parsers/XML/networks/xml_resource_parser.py" 50 "XML_MISSING_FOOTNOTE_LANGUAGE" [];
  Site "brel/parsers/XML/networks/xml_resource_parser.py" 63 "XML_UNSUPPORTED_RESOURCE_TAG" ["tag"];
  Site "brel/parsers/XML/xml_component_parser.py" 52 "PRESENTATION_NETWORK_IN_COMPONENT_WITHOUT_USEDON_ELEMENT" ["linkrole_uri"];
  Site "brel/parsers/XML/xml_component_parser.py" 61 "CALCULATION_NETWORK_IN_COMPONENT_WITHOUT_USEDON_ELEMENT" ["linkrole_uri"];
  Site "brel/parsers/XML/xml_component_parser.py" 70 "DEFINITION_NETWORK_IN_COMPONENT_WITHOUT_USEDON_ELEMENT" ["linkrole_uri"];
  Site "brel/parsers/XML/xml_component_parser.py" 93 "MULTIPLE_PRESENTATION_NETWORKS_IN_COMPONENT" ["linkrole_uri"];
  Site "brel/parsers/XML/xml_component_parser.py" 99 "MULTIPLE_CALCULATION_NETWORKS_IN_COMPONENT" ["linkrole_uri"];
  Site "brel/parsers/XML/xml_component_parser.py" 105 "MULTIPLE_DEFINITION_NETWORKS_IN_COMPONENT" ["linkrole_uri"];
  Site "brel/parsers/XML/xml_context_parser.py" 48 "MISSING_CONTEXT_PERIOD" [];
  Site "brel/parsers/XML/xml_context_parser.py" 53 "MISSING_CONTEXT_ENTITY" [];
  Site "brel/parsers/XML/xml_context_parser.py" 94 "INVALID_DIMENSION_TYPE" [];
  Site "brel/parsers/XML/xml_facts_parser.py" 56 "MISSING_FACT_VALUE" ["concept"];
  Site "brel/parsers/XML/xml_facts_parser.py" 67 "FACT_UNIT_MISMATCH" ["fact_unit"; "context_unit"];
  Site "brel/parsers/XML/xml_facts_parser.py" 76 "FACT_CONCEPT_MISMATCH" ["fact_concept"; "context_concept"];
  Site "brel/parsers/XML/xml_facts_parser.py" 109 "XML_FACT_INVALID_CONCEPT" ["concept_name"];
  Site "brel/parsers/XML/xml_facts_parser.py" 135 "XML_INVALID_FACT_UNIT_ID" ["unit_id"];
  Site "brel/parsers/XML/xml_facts_parser.py" 166 "XML_INVALID_FACT_CONTEXT_ID" ["context_id"];
  Site "brel/parsers/XML/xml_parse_catalog.py" 21 "INVALID_CATALOG_ROOT_NODE" [];
  Site "brel/parsers/XML/xml_parse_catalog.py" 30 "REWRITE_URI_MISSING_ATTRIBUTE" [];
  Site "brel/parsers/XML/xml_parse_catalog.py" 35 "MULTIPLE_REWRITE_URIS_FOR_START_STRING" ["uri"];
  Site "brel/parsers/XML/xml_report_element_parser.py" 100 "REFERENCED_SCHEMA_ELEMENT_NOT_FOUND" ["ref_id"; "ref_schema_name"];
  Site "brel/reportelements/concept.py" 290 "INVALID_CONCEPT_PERIOD_TYPE" ["concept_name"; "period_type"];
  Site "brel/reportelements/concept.py" 305 "INVALID_CONCEPT_BALANCE_TYPE" ["concept_name"; "balance_type"];
  Site "brel/reportelements/concept.py" 320 "INVALID_CONCEPT_NILLABLE_VALUE" ["concept_name"; "nillable_value"];
  Site "brel/reportelements/concept.py" 334 "MISSING_CONCEPT_DATA_TYPE" ["concept_name"];
  Site "brel/services/file/file_service.py" 57 "UNAVAILABLE_REMOTE_FILE" ["uri"; "status_code"]
].
