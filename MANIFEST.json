{
 "claims": [
  {
   "property": "C01",
   "status": "proved",
   "theorems": [
    "C01_scale_exact",
    "C01_scale_digits"
   ],
   "note": ""
  },
  {
   "property": "C02",
   "status": "proved",
   "theorems": [
    "C02_number_as_shown"
   ],
   "note": "Holds for every separator format including legacy names."
  },
  {
   "property": "C03",
   "status": "proved",
   "theorems": [
    "C03_canonical",
    "C03_unique",
    "C03_canonical_numerals_unique"
   ],
   "note": "Canonical form is proved for non-zero numbers; a shown zero gives the empty string (see C04), so uniqueness covers zero as well."
  },
  {
   "property": "C04",
   "status": "partial",
   "theorems": [
    "C04_zero_becomes_empty",
    "C04_zero_refuted",
    "C04_fixed_zero",
    "C04_legacy_dash_refuted"
   ],
   "note": "The property is false of the code: a shown zero becomes the empty string (exact behaviour proved), and legacy dash formats keep the text with an error. It holds for ixt:fixed-zero."
  },
  {
   "property": "C05",
   "status": "proved",
   "theorems": [
    "C05_separators_irrelevant"
   ],
   "note": ""
  },
  {
   "property": "C06",
   "status": "proved",
   "theorems": [
    "C06_wrong_format_verbatim",
    "C06_well_formed_no_error",
    "C06_bad_scale"
   ],
   "note": ""
  },
  {
   "property": "C07",
   "status": "partial",
   "theorems": [
    "C07_two_digit_minor_partial",
    "C07_one_digit_minor",
    "C07_one_digit_refuted"
   ],
   "note": "Proved for two-digit minor amounts; one-digit minor amounts are read as tenths (exact behaviour proved, property refuted)."
  },
  {
   "property": "C08",
   "status": "proved",
   "theorems": [
    "C08_minus",
    "C08_other_sign",
    "C08_no_format"
   ],
   "note": ""
  },
  {
   "property": "C09",
   "status": "proved",
   "theorems": [
    "C09_numeric_date_iso",
    "C09_numeric_date_rejected",
    "C09_numeric_date_unique",
    "C09_through_entry_point",
    "C09_roman_month_refuted"
   ],
   "note": "All seven numeric formats, also through the legacy format names; the roman-numeral variant is wrong (C09_roman_month_refuted)."
  },
  {
   "property": "C10",
   "status": "partial",
   "theorems": [
    "C10_month_names",
    "C10_full_month_names",
    "C10_month_names_refuted",
    "C10_german_may_december_rejected"
   ],
   "note": "Proved for 62 formats in 22 languages; false for Dutch, Lithuanian, German and some Greek/Welsh spellings (refuted by concrete texts)."
  },
  {
   "property": "C100",
   "status": "proved",
   "theorems": [
    "C100_nodes",
    "C100_components",
    "C100_networks",
    "C100_names",
    "C100_shown",
    "C100_below",
    "C100_labels",
    "C100_elements",
    "C100_lookup",
    "C100_concept_lookup"
   ],
   "note": "Assumes that the filing is read without an exception; the usual xlink prefix inside links, distinct URIs and the usual prefix at dimension declarations where stated."
  },
  {
   "property": "C101",
   "status": "partial",
   "theorems": [
    "C101_reports_partial",
    "C101_declarations_kept",
    "C101_facts_kept",
    "C101_continuations_sound",
    "C101_notes_sound",
    "C101_relationships_sound",
    "C101_links_sound",
    "C101_announced"
   ],
   "note": "C101_reports_partial lists what is reported stage by stage, those about contexts if date texts have no spaces, those about continuations as the set of elements with each code. The other theorems say what holds if nothing is reported."
  },
  {
   "property": "C102",
   "status": "partial",
   "theorems": [
    "C102_footnotes",
    "C102_networks_partial",
    "C102_orders",
    "C102_order_refuted"
   ],
   "note": "Refuted: a relationship without an order ends the reading of the whole filing (C102_orders: in a filing that is read all have one). C102_networks_partial is for relationships without problems; the network has the arc role as its link role."
  },
  {
   "property": "C103",
   "status": "partial",
   "theorems": [
    "C103_same",
    "C103_same_content",
    "C103_same_physical",
    "C103_same_order",
    "C103_unused_refuted"
   ],
   "note": "All of it but one kind of report: about which of several unused continuations there is a report depends on the order of a set (C103_unused_refuted)."
  },
  {
   "property": "C104",
   "status": "partial",
   "theorems": [
    "C104_reports_partial",
    "C104_clean",
    "C104_twice_refuted",
    "C101_reports_partial"
   ],
   "note": "C104_reports_partial gives the exact lists, for date texts without spaces. That each problem is reported once is false: an identifier shared by two contexts, or two units, that can be read is reported twice about the second (C104_twice_refuted). C101_reports_partial carries the lists to whole filings."
  },
  {
   "property": "C105",
   "status": "partial",
   "theorems": [
    "C105_opens_partial",
    "C105_fatal_refuted"
   ],
   "note": "C105_opens_partial is the equivalence, for documents whose fact elements have the prefix ix and whose dimension names have no spaces; continuations are an argument here. C105_fatal_refuted shows the faulty contexts and units that stop the reading of everything."
  },
  {
   "property": "C106",
   "status": "partial",
   "theorems": [
    "C106_opens_partial",
    "C106_any_order_partial",
    "C106_links_refuted",
    "C106_circle_refuted"
   ],
   "note": "The equivalence for whole XML filings, in every order of the sets, for documents in which prefixes are the usual ones, units, concepts and periods are written in one way (as for C97), and no document has the root {http://xbrl.org/2003/linkbase}linkbase, in which tables are looked for (XBRL 2.1 linkbases have another namespace, with www): what stops the reading of tables is not characterised. What facts and links need is said with the report elements that were declared (C56 and C93 say which) and the elements of facts that have a fact (as in C97). Faults of links are not always reported: a calculation of an abstract raises, arcs in a circle in a later link of a role never end."
  },
  {
   "property": "C107",
   "status": "proved",
   "theorems": [
    "C107_relationships",
    "C107_networks",
    "C107_reported_refuted"
   ],
   "note": "Both directions for all relationships. C107_reported_refuted: a relationship to an unknown identifier is reported and then stops the reading all the same. Orders are rational numbers (NaN and infinities are left out of the model)."
  },
  {
   "property": "C108",
   "status": "partial",
   "theorems": [
    "C108_opens_partial",
    "C108_elements",
    "C108_any_order_partial",
    "C108_circle_refuted",
    "C108_remark_refuted"
   ],
   "note": "Both directions for all documents that meet the hypotheses: no document with the root {http://xbrl.org/2003/linkbase}linkbase (which is not that of XBRL 2.1 linkbases), usual prefixes, fact elements with the tags ix:nonNumeric or ix:nonFraction, no dimension attribute on other elements than members. C108_any_order_partial: it does not depend on the orders of sets. C108_elements says what the elements of facts are. Missing: filings with table linkbases, other prefixes. C108_circle_refuted: a circle of continuations never ends (in the code: an endless loop). C108_remark_refuted: a comment in a footnote stops the reading."
  },
  {
   "property": "C109",
   "status": "partial",
   "theorems": [
    "C109_found_partial",
    "C109_opens_partial",
    "C109_declared_partial",
    "C109_elements_partial",
    "C109_labels_partial",
    "C109_shown_partial",
    "C109_below_partial",
    "C109_components",
    "C109_facts_partial",
    "C109_found_refuted",
    "C109_opens_refuted",
    "C109_kinds_refuted",
    "C109_list_refuted",
    "C109_inline_declared_partial",
    "C109_inline_elements_partial",
    "C109_inline_labels_partial",
    "C109_inline_shown_partial",
    "C109_inline_below_partial",
    "C109_inline_components",
    "C109_inline_facts_partial",
    "C109_inline_opens_partial"
   ],
   "note": "False of the code at full strength: the lists come in another order (C109_list_refuted); a name declared in two documents keeps the declaration read first (C109_kinds_refuted); arcs in a circle are harmless in the first link of a role and fatal later (C109_opens_refuted); documents that the file cache confuses replace each other (C109_found_refuted). Proved up to order for XML filings whose documents use no name or id twice and bind the usual prefixes: same documents found, same success (without circles and roots {http://xbrl.org/2003/linkbase}linkbase, which no XBRL 2.1 linkbase has), same declarations, facts (if equal keys mean the same), labels, components, and the same elements one below another in the networks of a role and kind. For inline filings: same declarations, labels, components, and elements in the networks of a role and kind; also the same facts, if both readings report nothing, no id of a context, unit, fact or continuation is used twice and equal keys mean the same; and the same success, under the hypotheses of C108, without circles and with no id of a fact or continuation used twice. Missing: physical networks, networks without elements, error reports."
  },
  {
   "property": "C11",
   "status": "partial",
   "theorems": [
    "C11_numeric_full_dates_checked",
    "C11_name_full_dates_checked",
    "C11_recurring_refuted",
    "C11_recurring_never_reported"
   ],
   "note": "Holds for full dates; dates without a year are never checked, so the property is false there."
  },
  {
   "property": "C110",
   "status": "partial",
   "theorems": [
    "C110_again",
    "C110_offline",
    "C110_kept",
    "C110_any_order_partial"
   ],
   "note": "Proved without hypotheses for sessions with the same order of sets (C110_again with the same world, C110_offline with no web and no disk, C110_kept: the cache is unchanged). With another order of sets only for documents that the cache keeps apart (separate), and up to the order of the documents. What a session that fails leaves in the cache is said in C112."
  },
  {
   "property": "C111",
   "status": "partial",
   "theorems": [
    "C111_documents_partial",
    "C111_missing_partial",
    "C111_elements_partial",
    "C111_declared_partial",
    "C111_facts_partial",
    "C111_written_partial",
    "C111_inline_elements_partial",
    "C111_inline_declared_partial",
    "C111_inline_facts_partial",
    "C111_inline_written_partial"
   ],
   "note": "For documents that the cache keeps apart (separate), an empty cache and any order of sets. C111_documents covers XML and inline filings; the report elements and facts are followed down to the documents for XML filings whose documents bind the usual prefixes, write dates plainly and mean the same by equal keys; the converse directions need names and fact ids not used twice. The C111_inline theorems say the same of inline filings, whose facts are the ix elements of the pages reached. Missing: documents that two names of the cache mix up (where C106 shows the reading can go wrong)."
  },
  {
   "property": "C112",
   "status": "partial",
   "theorems": [
    "C112_success",
    "C112_kept_partial",
    "C112_texts",
    "C112_retry_partial",
    "C112_same_world_partial",
    "C112_query_refuted"
   ],
   "note": "Proved if the path of a local URI has the file name of the URI, that is without queries and fragments in local references; C112_texts and C112_success need no hypothesis. With a query it is false: the cached text of another document is overwritten, and the second opening succeeds with the wrong document (C112_query_refuted). An interrupted write of a single file is not modelled."
  },
  {
   "property": "C12",
   "status": "partial",
   "theorems": [
    "C12_era_year",
    "C12_era_year_value",
    "C12_other_texts_rejected",
    "C12_era_never_checked",
    "C12_outside_era_refuted"
   ],
   "note": "Conversion proved for all texts; the out-of-era check is unreachable, so out-of-era dates are never reported."
  },
  {
   "property": "C13",
   "status": "partial",
   "theorems": [
    "C13_name_formats_never_raise",
    "C13_numeric_raises_iff",
    "C13_era_raises_iff",
    "C13_never_raises_refuted"
   ],
   "note": "Never raises for the 62 month-name formats; numeric and imperial formats raise exactly on a month outside 1-12; other formats raise on the listed texts."
  },
  {
   "property": "C14",
   "status": "partial",
   "theorems": [
    "C14_text_of_continued_fact",
    "C14_markup_of_continued_fact",
    "C14_raises_iff",
    "C14_comment_refuted"
   ],
   "note": "Holds for content without comments or processing instructions outside ix:exclude. With one the code raises TypeError (C14_raises_iff is exact, C14_comment_refuted a case)."
  },
  {
   "property": "C15",
   "status": "partial",
   "theorems": [
    "C15_chains",
    "C15_ends_iff",
    "C15_chain_unique",
    "C15_chain_nodup",
    "C15_cycle_refuted"
   ],
   "note": "Chains, reports of missing, reused and unused ids are exact whenever no continuable element leads into a cycle; C15_ends_iff shows that otherwise, and only then, building does not end."
  },
  {
   "property": "C16",
   "status": "partial",
   "theorems": [
    "C16_convert_reversible",
    "C16_convert_injective",
    "C16_text_only_reversible",
    "C16_quiet_markup_kept",
    "C16_nested_refuted"
   ],
   "note": "Holds for all texts and for facts whose content is text only; text with markup characters inside child elements is escaped twice (C16_nested_refuted)."
  },
  {
   "property": "C17",
   "status": "proved",
   "theorems": [
    "C17_children_sorted",
    "C17_others_unchanged"
   ],
   "note": "Any sequence of additions, any orders; label nodes all have order 1."
  },
  {
   "property": "C18",
   "status": "proved",
   "theorems": [
    "C18_descendants",
    "C18_descendants_ends_iff",
    "C18_all_nodes",
    "C18_all_nodes_ends_iff",
    "C18_fuel"
   ],
   "note": "Exactly the reachable nodes (the node itself included), each once; the traversal ends exactly on acyclic networks. Python recursion limits are not modelled."
  },
  {
   "property": "C19",
   "status": "partial",
   "theorems": [
    "C19_nodes_logical",
    "C19_nodes_physical",
    "C19_logical_count",
    "C19_logical_child_iff_arc",
    "C19_logical_once",
    "C19_physical_child_iff_arc",
    "C19_children_inside",
    "C19_children_ascend",
    "C19_duplicates_reported",
    "C19_once_refuted"
   ],
   "note": "Child iff arc holds everywhere; appearing once holds in physical networks and in logical ones when the arcs between two locators have one role; with two roles the child appears twice (C19_once_refuted)."
  },
  {
   "property": "C20",
   "status": "partial",
   "theorems": [
    "C20_first_arc_wins",
    "C20_only_arc_honoured",
    "C20_two_parents_refuted",
    "C20_rounding_refuted"
   ],
   "note": "Holds for an element that is the target of one arc; an element under two parents carries the attributes of the first arc only, and logical definition orders are rounded."
  },
  {
   "property": "C21",
   "status": "partial",
   "theorems": [
    "C21_roots",
    "C21_networks",
    "C21_all_reachable",
    "C21_reached",
    "C21_shows",
    "C21_relates",
    "C21_cycle_refuted",
    "C21_orphan_refuted",
    "C21_root",
    "C21_root_logical"
   ],
   "note": "Roots are exact for all links; nothing is lost when the arcs are acyclic and every arc source stands for something; both conditions are needed. get_root is exact (C21_root, C21_root_logical). C21_reached, C21_shows and C21_relates say for all links exactly what is reached, shown and related."
  },
  {
   "property": "C22",
   "status": "partial",
   "theorems": [
    "C22_nothing_lost_or_invented",
    "C22_roots",
    "C22_succeeds",
    "C22_merge_refuted",
    "C22_order_refuted"
   ],
   "note": "The parent/child element pairs are exactly the union for all lists of networks; equal children are not merged and the position of elements depends on the order of the networks."
  },
  {
   "property": "C23",
   "status": "partial",
   "theorems": [
    "C23_balance_partial",
    "C23_balance_nonzero",
    "C23_balance_sound",
    "C23_cycle",
    "C23_zero_refuted",
    "C23_single_refuted"
   ],
   "note": "Proved for all finite trees: true exactly if all nodes have a balance and no arc weight has the wrong sign; documented rule when no weight is zero. Refuted: weight 0 is accepted, and a single concept without balance is rejected. Cyclic networks never answer true."
  },
  {
   "property": "C24",
   "status": "partial",
   "theorems": [
    "C24_aggregation_partial",
    "C24_aggregation_reported",
    "C24_false",
    "C24_exceptions",
    "C24_facts_sound",
    "C24_rounding_refuted",
    "C24_skipped_refuted",
    "C24_context_refuted",
    "C24_breakdown_refuted",
    "C24_missing_refuted",
    "C24_same_value"
   ],
   "note": "Proved for all trees and facts, over any float arithmetic: true exactly if at each visited node every fact is the weighted sum of the only matching child facts; false only with a wrong sum; only ValueError is raised. Refuted as stated: subtrees below unreported concepts are skipped, facts with extra dimensions are mixed in, missing or additional child facts raise, binary rounding."
  },
  {
   "property": "C25",
   "status": "proved",
   "theorems": [
    "C25_contexts"
   ],
   "note": "Aspects strictly sorted by code points, one characteristic per aspect, first wins."
  },
  {
   "property": "C26",
   "status": "partial",
   "theorems": [
    "C26_row_partial",
    "C26_entries",
    "C26_row_refuted",
    "C26_translated_partial",
    "C26_translated_refuted",
    "C26_texts"
   ],
   "note": "Full property refuted: a dimension named \"value\" or \"id\" is overwritten; aspects with equal labels share a column. Proved for rows without such names; C26_entries gives every entry in all cases, C26_texts the text shown for each kind of characteristic."
  },
  {
   "property": "C27",
   "status": "partial",
   "theorems": [
    "C27_distinct_partial",
    "C27_general",
    "C27_refuted",
    "C27_document_refuted"
   ],
   "note": "Refuted: facts without id are never returned, facts with a repeated id are replaced. C27_general gives the exact contents for every sequence; with distinct ids all facts are returned in order."
  },
  {
   "property": "C28",
   "status": "proved",
   "theorems": [
    "C28_languages",
    "C28_preference_unique"
   ],
   "note": "All lists, settings and flags."
  },
  {
   "property": "C29",
   "status": "partial",
   "theorems": [
    "C29_translation_partial",
    "C29_labels",
    "C29_default",
    "C29_loaded",
    "C29_missing_refuted",
    "C29_region_refuted",
    "C29_system_refuted"
   ],
   "note": "The first language with an answer decides, for translations and labels; loading keeps the last line per key and language. Refuted: a known key without text in the languages raises instead of giving the key; a plain language does not fall back to a region; the system language (with underscore) never matches."
  },
  {
   "property": "C30",
   "status": "proved",
   "theorems": [
    "C30_main_label",
    "C30_unique"
   ],
   "note": "All label lists."
  },
  {
   "property": "C31",
   "status": "partial",
   "theorems": [
    "C31_parameters",
    "C31_languages_partial",
    "C31_languages_agree",
    "C31_refuted",
    "C31_set_refuted"
   ],
   "note": "Precedence proved for all parameters. Refuted for the languages: the flags for system and report are exchanged; setting parameters forgets those not named."
  },
  {
   "property": "C32",
   "status": "partial",
   "theorems": [
    "C32_prefix_roundtrip",
    "C32_clark_roundtrip",
    "C32_clark_injective",
    "C32_parse_total",
    "C32_prefix_refuted",
    "C32_default_refuted",
    "C32_meaning"
   ],
   "note": "C32_meaning says which name every text stands for. Round trips and Clark injectivity (namespace, local name) proved. Refuted as stated: QName equality also compares the prefix, so different QNames share a Clark text; names in the default namespace do not survive."
  },
  {
   "property": "C33",
   "status": "partial",
   "theorems": [
    "C33_lookup",
    "C33_concept_lookup",
    "C33_by_qname",
    "C33_parsed_names_known",
    "C33_default_namespace_refuted",
    "C33_clark_refuted"
   ],
   "note": "Unique-or-raise proved for every registry whose prefixes are known to the namespace repository, which holds for parsed schemas whose target namespace has a prefix. Refuted otherwise (prefix \"None\"), and for Clark texts."
  },
  {
   "property": "C34",
   "status": "partial",
   "theorems": [
    "C34_unique",
    "C34_prefixes",
    "C34_every_namespace_partial",
    "C34_main_version",
    "C34_collision_refuted",
    "C34_latest_refuted",
    "C34_clash_partial"
   ],
   "note": "At most one prefix per namespace and vice versa proved for all inputs; every namespace keeps a prefix if no prefix is eligible for two namespaces, or for two only and the next prefix is free (C34_clash_partial). Refuted in general: the alternative prefix is not checked, so a namespace can be lost; the chosen version is not the latest."
  },
  {
   "property": "C35",
   "status": "partial",
   "theorems": [
    "C35_exact_partial",
    "C35_succeeds_iff",
    "C35_terminates_partial",
    "C35_terminates_refuted",
    "C35_content_refuted",
    "C35_reference",
    "C35_addresses"
   ],
   "note": "False in general: local documents that refer to each other through parent directories are loaded for ever (C35_terminates_refuted), and documents with the same cache file name are confused (C35_content_refuted). Proved for every finite closed set of documents that the caches can tell apart, any iteration order of sets, cyclic or not: loading ends, succeeds iff all reachable documents load, and loads exactly the reachable ones, each once."
  },
  {
   "property": "C36",
   "status": "partial",
   "theorems": [
    "C36_refuted",
    "C36_same_base_partial",
    "C36_local",
    "C36_remote_partial",
    "C36_shared_partial",
    "C36_hosts_refuted"
   ],
   "note": "False in general (host/path boundary, http/https, www., _ and /, local directories, full stops where there is no ending). Proved: the name of every remote URI in which no scheme occurs twice and the ending does not occur behind two full stops, and exactly which of those share a name; injective below one remote directory for plain paths; a local file's name is exactly its last component."
  },
  {
   "property": "C37",
   "status": "partial",
   "theorems": [
    "C37_first_match",
    "C37_longest_partial",
    "C37_longest_only_if",
    "C37_refuted",
    "C37_catalog",
    "C37_duplicate_crashes",
    "C37_reference_partial"
   ],
   "note": "False when a rule follows a rule with a shorter prefix (C37_refuted, C37_longest_only_if gives such a URI for every such rule set); proved for all other rule sets, together with the exact first-match behaviour and the rules obtained from a catalog. A repeated start string makes opening fail."
  },
  {
   "property": "C38",
   "status": "partial",
   "theorems": [
    "C38_entities_partial",
    "C38_context_entity",
    "C38_refuted",
    "C38_silent_refuted",
    "C38_child"
   ],
   "note": "Refuted: entities are cached by identifier only, so a second scheme is ignored; an identifier without text is dropped silently. Proved when each identifier is used with one scheme; C48_facts covers all documents."
  },
  {
   "property": "C39",
   "status": "partial",
   "theorems": [
    "C39_dimensions_partial",
    "C39_refuted",
    "C39_dimension_found",
    "C39_member_found"
   ],
   "note": "Refuted: dimensions are cached by the written text, so a prefix bound to another namespace is ignored. Proved when equal texts mean equal names and dimension texts have no spaces."
  },
  {
   "property": "C40",
   "status": "proved",
   "theorems": [
    "C40_ordered",
    "C40_reported",
    "C40_equal_text",
    "C40_periods_partial",
    "C40_earlier",
    "C40_begins_first",
    "C40_single_day",
    "C38_child"
   ],
   "note": "Ordered durations and reporting hold for all documents; texts of periods are equal exactly for equal periods; that the period is the one written is proved for dates without spaces."
  },
  {
   "property": "C41",
   "status": "partial",
   "theorems": [
    "C41_well_formed",
    "C41_unreported_form",
    "C41_units_partial",
    "C41_refuted",
    "C41_shared_refuted",
    "C41_by_id"
   ],
   "note": "Refuted for products of measures, malformed units (kept), several crashes and units shared between instances by id. Proved for simple and divide units with single measures."
  },
  {
   "property": "C42",
   "status": "proved",
   "theorems": [
    "C42_in_order",
    "C42_clear",
    "C42_recorded_content",
    "C42_filters",
    "C42_partition"
   ],
   "note": "All sequences of repository operations; failing insertions leave the list unchanged."
  },
  {
   "property": "C43",
   "status": "partial",
   "theorems": [
    "C43_sites",
    "C43_codes_exist",
    "C43_templates_modelled",
    "C43_all_recordable_refuted",
    "C43_period_messages_refuted"
   ],
   "note": "Refuted as stated: of the 129 places that record an error, exactly the eight in broken_sites always raise ValueError (unregistered code, missing placeholder or malformed message). For all other places recording succeeds for all values."
  },
  {
   "property": "C44",
   "status": "partial",
   "theorems": [
    "C44_networks_partial",
    "C44_link_role_refuted",
    "C44_no_order",
    "C44_default_order_refuted",
    "C44_zero_order_refuted",
    "C44_other_target",
    "C44_fact_target_refuted",
    "C44_shared_order_refuted"
   ],
   "note": "Proved for relationships from facts to footnotes that have an order other than 0: one network per pair of link role and arc role, connected as written. Refuted: the link role of the network is the arc role; a missing order crashes; order 0 becomes 1; a fact or unknown identifier as target crashes; a shared footnote keeps the order of its first relationship."
  },
  {
   "property": "C45",
   "status": "proved",
   "theorems": [
    "C45_ends_iff",
    "C45_order",
    "C45_forest",
    "C45_specified",
    "C45_document",
    "C45_shared_refuted",
    "C45_cycle_refuted"
   ],
   "note": "In a definition tree (C45_forest) every object gets its own order or that of the nearest specified ancestor, else parent-first; C45_document shows that what the parser builds meets the conditions. Outside trees: a node below two parents takes the order of the first visited one, cycles never end (the two _refuted theorems)."
  },
  {
   "property": "C46",
   "status": "proved",
   "theorems": [
    "C46_coherent",
    "C46_local_part",
    "C46_standard_types",
    "C46_fraction_refuted"
   ],
   "note": "All data type names. Beyond the property: the XBRL 2.1 item types are classified as XBRL defines them, except that fractions count as textual."
  },
  {
   "property": "C47",
   "status": "proved",
   "theorems": [
    "C47_created",
    "C47_rejected",
    "C47_valid_iff",
    "C47_boolean_forms_refuted"
   ],
   "note": "All attribute combinations, including which of several faults is reported. Note: the schema boolean forms 1 and 0 are rejected."
  },
  {
   "property": "C48",
   "status": "partial",
   "theorems": [
    "C48_facts",
    "C48_exact_partial",
    "C48_accepted",
    "C48_concept",
    "C48_refuted",
    "C48_fact_elements",
    "C48_concept_found",
    "C38_child",
    "C41_by_id"
   ],
   "note": "C48_facts holds for every successfully parsed filing. Refuted: unknown context or unit references and foreign segment children raise instead of being reported."
  },
  {
   "property": "C49",
   "status": "partial",
   "theorems": [
    "C49_getters",
    "C49_get_component",
    "C49_declaration",
    "C49_readable",
    "C49_components",
    "C49_each_once_partial",
    "C49_same_role_twice_refuted",
    "C49_other_prefix_refuted",
    "C49_dict_refuted",
    "C49_warnings"
   ],
   "note": "Getters, flags, get_networks and get_component are proved as stated for all components; each role is listed once only if no role URI is declared twice (C49_same_role_twice_refuted), documents must bind the prefix link, and the key of the definition network in the dictionary is misspelt."
  },
  {
   "property": "C50",
   "status": "partial",
   "theorems": [
    "C50_opens",
    "C50_opens_page",
    "C50_succeeds_iff",
    "C50_none",
    "C50_latest",
    "C50_refused",
    "C50_undated_refuted"
   ],
   "note": "Full choice, address and failure behaviour for tables in which the filings asked for have report dates YYYY-MM-DD; a filing of the type without a report date makes the call fail although others match (C50_undated_refuted)."
  },
  {
   "property": "C51",
   "status": "proved",
   "theorems": [
    "C51_full_code_identifies"
   ],
   "note": "For all arguments; the table of codes is generated from the source text."
  },
  {
   "property": "C52",
   "status": "partial",
   "theorems": [
    "C52_mixed",
    "C52_single_partial",
    "C52_unmixed",
    "C52_refuted"
   ],
   "note": "Proved with mixing and for one language without; exact result for several. Refuted: without mixing rows of several languages accumulate, and a failing last language empties the table."
  },
  {
   "property": "C53",
   "status": "partial",
   "theorems": [
    "C53_row_partial",
    "C53_default",
    "C53_dimension_refuted",
    "C53_collision_refuted"
   ],
   "note": "Proved when the column names differ; with the default language there is always a row. Refuted: dimensions have no labels, so without the default the row raises; equal column names lose values."
  },
  {
   "property": "C54",
   "status": "partial",
   "theorems": [
    "C54_sound",
    "C54_exact_partial",
    "C54_fails_iff",
    "C54_refuted"
   ],
   "note": "Sound for all texts, exact for texts without attribute values ending like an attribute name; XML references with blanks around = or several schemaLocation pairs are missed, commented ones are loaded, two # fail."
  },
  {
   "property": "C55",
   "status": "proved",
   "theorems": [
    "C55_catalog_choice",
    "C55_no_catalog",
    "C55_entry_points"
   ],
   "note": ""
  },
  {
   "property": "C56",
   "status": "partial",
   "theorems": [
    "C56_kind",
    "C56_made",
    "C56_standard_kinds",
    "C56_substrings_refuted",
    "C56_first_declaration",
    "C56_errors",
    "C56_total",
    "C56_declared",
    "C56_declarations"
   ],
   "note": "First-declaration and error claims for all schemas binding the usual xbrldt prefix; kinds follow XBRL for ordinary prefixes and types, but substring tests misjudge others."
  },
  {
   "property": "C57",
   "status": "partial",
   "theorems": [
    "C57_dimension_types_partial",
    "C57_other_prefix_refuted",
    "C57_relative_refuted",
    "C57_unknown_document"
   ],
   "note": "Holds when the prefix xbrldt is bound and the document is named as it is kept; another prefix loses the type, a relative reference into a remote schema raises KeyError."
  },
  {
   "property": "C58",
   "status": "partial",
   "theorems": [
    "C58_by_id",
    "C58_locator_partial",
    "C58_same_id_refuted",
    "C58_by_identifier"
   ],
   "note": "Holds when no two declarations of the DTS share an id; otherwise the document part of the href is ignored and the last registered element wins."
  },
  {
   "property": "C59",
   "status": "partial",
   "theorems": [
    "C59_written_order",
    "C59_default_order_refuted",
    "C59_no_tables_refuted",
    "C59_never_stored_refuted",
    "C59_linked",
    "C59_filing_refuted",
    "C59_inline_refuted",
    "C59_opens_iff",
    "C59_no_filing_refuted",
    "C59_no_inline_filing_refuted"
   ],
   "note": "No table is ever available: linkbases of XBRL 2.1 are not looked at, storing a table raises TypeError, arcs without an order raise ValueError; a filing whose linkbases (of the namespace looked at) have a labelled table cannot be opened; hence every filing that is read, XML or inline, has no tables."
  },
  {
   "property": "C60",
   "status": "proved",
   "theorems": [
    "C60_reported",
    "C60_reported_total",
    "C60_facts_by_name",
    "C60_partition"
   ],
   "note": ""
  },
  {
   "property": "C61",
   "status": "partial",
   "theorems": [
    "C61_metadata",
    "C61_second_call",
    "C61_older_than_a_day_refuted"
   ],
   "note": "The limit is two days, not one: timedelta.days > 1."
  },
  {
   "property": "C62",
   "status": "partial",
   "theorems": [
    "C62_value_partial",
    "C62_kind",
    "C62_boolean_iff",
    "C62_boolean_refuted",
    "C62_integer_refuted",
    "C62_integer_exact",
    "C62_boolean_exact"
   ],
   "note": "The kind of the value and the readers are characterised for all texts (C62_integer_exact, C62_boolean_exact: what is read and that all else is a ValueError). Refuted: the booleans 1 and 0 raise ValueError; 1_000 is read as an integer. The conversion of a text to a float is a parameter."
  },
  {
   "property": "C63",
   "status": "proved",
   "theorems": [
    "C63_footnotes"
   ],
   "note": "The content of the continuation chain, the language found at or above the element, and is_valid_uri are parameters."
  },
  {
   "property": "C64",
   "status": "partial",
   "theorems": [
    "C64_facts_partial",
    "C64_exact_partial",
    "C64_kept",
    "C64_characteristics",
    "C64_number_value",
    "C64_prefix_refuted",
    "C64_root_refuted",
    "C64_accuracy",
    "C64_plain_number",
    "C64_instances"
   ],
   "note": "Proved for documents whose fact elements use the prefix ix (in C64_exact_partial also: one scheme per entity identifier, one dimension and member per written name, periods and dimensions without blanks). With another prefix for the inline namespace the first fact crashes the parse and later ones store the previous fact again (C64_prefix_refuted); if the root does not bind ix, nothing is read and nothing reported (C64_root_refuted)."
  },
  {
   "property": "C65",
   "status": "partial",
   "theorems": [
    "C65_nested_refuted",
    "C65_differing_refuted",
    "C65_value_refuted"
   ],
   "note": "Refuted: the outer value is the markup of the inner element (C65_nested_refuted, C65_value_refuted), and recording a differing format, scale or unit raises, so that nothing can be opened (C65_differing_refuted)."
  },
  {
   "property": "C66",
   "status": "partial",
   "theorems": [
    "C66_reported",
    "C66_survives",
    "C66_fatal_refuted",
    "C66_without_id_refuted",
    "C66_refuted",
    "C66_headers",
    "C66_resources",
    "C66_called"
   ],
   "note": "Reporting is proved for all documents that open (C66_reported), with the order of the reports. The second half is refuted: comments inside the four elements, illegal children of ix:references and ix:hidden, a head without binding of ix and contexts or units without identifier stop everything; C66_survives shows the other deviations do not."
  },
  {
   "property": "C67",
   "status": "partial",
   "theorems": [
    "C67_resources",
    "C67_facts_partial",
    "C67_dropped_refuted"
   ],
   "note": "Proved for references, contexts and units, and for facts that are kept; the identifier of a fact element that is dropped is not remembered (C67_dropped_refuted)."
  },
  {
   "property": "C68",
   "status": "partial",
   "theorems": [
    "C68_files_partial",
    "C68_finite_depth",
    "C68_html_refuted",
    "C68_cycle_refuted"
   ],
   "note": "Holds up to one kind of name: files that only end in \"html\" (without full stop) are taken too and then make opening fail. A symbolic link to an enclosing folder makes the search endless."
  },
  {
   "property": "C69",
   "status": "partial",
   "theorems": [
    "C69_kind",
    "C69_accepted",
    "C69_nothing",
    "C69_single_file_refuted"
   ],
   "note": "Single .htm, .html and .xsd files are rejected although folders may contain them."
  },
  {
   "property": "C70",
   "status": "partial",
   "theorems": [
    "C70_archive_refuted",
    "C70_other_members_refuted"
   ],
   "note": "False of the code: only names of .xml and .xhtml members are used, as paths relative to the current directory; the members are never read. C70_archive_refuted shows that opening fails for every archive with a member to read unless such a file is on disk, in the cache or on the network."
  },
  {
   "property": "C71",
   "status": "partial",
   "theorems": [
    "C71_text_read",
    "C71_changed_refuted",
    "C71_up_to_date_partial"
   ],
   "note": "True only when the cache directory has no file of that name, or what it has is what the document says now (C71_up_to_date_partial: opening then does what it does with an empty cache); otherwise the text kept from an earlier session wins over the file on disk."
  },
  {
   "property": "C72",
   "status": "proved",
   "theorems": [
    "C72_labels",
    "C72_once"
   ],
   "note": "for documents with the usual prefix xlink (the other case is C77)"
  },
  {
   "property": "C73",
   "status": "partial",
   "theorems": [
    "C73_opens_partial",
    "C73_stray_refuted",
    "C73_role_refuted",
    "C73_locator_refuted"
   ],
   "note": "the property is false: C73_opens_partial gives the exact condition"
  },
  {
   "property": "C74",
   "status": "partial",
   "theorems": [
    "C74_label_written",
    "C74_silent",
    "C74_markup_refuted",
    "C74_footnote_refuted",
    "C74_reference_refuted"
   ],
   "note": "language, role and leading text are read; text with markup is not"
  },
  {
   "property": "C75",
   "status": "partial",
   "theorems": [
    "C75_same_labels",
    "C75_same_networks",
    "C75_same_content",
    "C75_main_label_partial",
    "C75_main_label_refuted"
   ],
   "note": "The main label depends on the order if several labels share an English variant or none is English; labels (up to order), reports and network content do not."
  },
  {
   "property": "C76",
   "status": "partial",
   "theorems": [
    "C76_one_network",
    "C76_children",
    "C76_shown",
    "C76_children_written",
    "C76_children_kept_partial",
    "C76_shown_written",
    "C76_shown_kept_partial",
    "C76_physical_written",
    "C76_physical_kept",
    "C76_cycle_refuted",
    "C76_orphan_refuted"
   ],
   "note": "C76_children and C76_shown say exactly what the network contains, for all links; everything the links say is there only if links have no cycles and arcs start at known report elements (C76_cycle_refuted, C76_orphan_refuted)."
  },
  {
   "property": "C77",
   "status": "partial",
   "theorems": [
    "C77_no_role",
    "C77_no_kind",
    "C77_prefix_refuted"
   ],
   "note": "a role under another prefix than xlink is not seen"
  },
  {
   "property": "C78",
   "status": "partial",
   "theorems": [
    "C78_reports_partial",
    "C78_twice_refuted"
   ],
   "note": "the exact list of reports; those of definition links are given twice"
  },
  {
   "property": "C79",
   "status": "partial",
   "theorems": [
    "C79_reports_partial",
    "C79_fatal_refuted",
    "C79_number",
    "C79_text",
    "C79_nil_refuted",
    "C79_comment_refuted"
   ],
   "note": "Exact list of reports for documents that use the prefix ix (C79_reports_partial); a number or text element that is not fatal is always read with exactly its reports (C79_number, C79_text). That no problem stops the rest is false: a nested number with another format, scale or unit, xsi:nil=\"1\" without content and a comment before a nested number end the reading (C79_fatal_refuted, C79_nil_refuted, C79_comment_refuted). The reports of date and literal formats are those of the transformation function itself."
  },
  {
   "property": "C80",
   "status": "partial",
   "theorems": [
    "C80_rule",
    "C80_rule_unique",
    "C80_node_partial",
    "C80_dropped_refuted",
    "C80_comment_refuted",
    "C80_one_refuted",
    "C80_aspect_refuted",
    "C80_aspect_partial"
   ],
   "note": "proved as the code reads it; false are: unit and typed dimension rules are dropped, a comment beside a period or member element drops the rule, abstract=\"1\" and merge=\"1\" are read as false, the aspect of a dimension rule is in Clark notation and never equals that of a fact"
  },
  {
   "property": "C81",
   "status": "partial",
   "theorems": [
    "C81_dimension_partial",
    "C81_concept_partial",
    "C81_unique",
    "C81_axis_refuted",
    "C81_member_refuted",
    "C81_root_refuted",
    "C81_concept_node_refuted"
   ],
   "note": "exact for what is read; false are: a node with an axis is never read, members and the root are no sources, concept relationship nodes are read with the parser of dimension relationships and dropped"
  },
  {
   "property": "C82",
   "status": "partial",
   "theorems": [
    "C82_aspect_partial",
    "C82_dimension_refuted"
   ],
   "note": "exact for what is read; a dimension that no context uses under the same prefix drops the node"
  },
  {
   "property": "C83",
   "status": "partial",
   "theorems": [
    "C83_filter_partial",
    "C83_member_partial",
    "C83_dimension_refuted",
    "C83_expression_refuted",
    "C83_link_refuted",
    "C84_filters_refuted"
   ],
   "note": "exact for the filters that are read; dimension filters and name expressions are never read, and no filter is ever attached in a link"
  },
  {
   "property": "C84",
   "status": "partial",
   "theorems": [
    "C84_link_partial",
    "C84_comment_refuted",
    "C84_filters_refuted"
   ],
   "note": "exact, but a comment in the link also makes it unreadable (AttributeError)"
  },
  {
   "property": "C85",
   "status": "partial",
   "theorems": [
    "C85_drawing",
    "C85_node",
    "C85_ends",
    "C85_tree_unique",
    "C85_read",
    "C85_determines",
    "C85_console",
    "C85_console_refuted"
   ],
   "note": "The lines determine the trees of texts; the joined console text only if no text contains a line break (C85_console_refuted gives two networks with the same console text)."
  },
  {
   "property": "C86",
   "status": "partial",
   "theorems": [
    "C86_element_partial",
    "C86_aligned",
    "C86_fact_refuted",
    "C86_preferred_refuted",
    "C86_role_refuted"
   ],
   "note": "Proved for report elements; refuted for facts, preferred labels and roles of labels."
  },
  {
   "property": "C87",
   "status": "proved",
   "theorems": [
    "C87_table",
    "C87_fails",
    "C87_order",
    "C87_columns_unique",
    "C87_fact"
   ],
   "note": "How PrettyTable draws the table is not modelled."
  },
  {
   "property": "C88",
   "status": "partial",
   "theorems": [
    "C88_dictionary_partial",
    "C88_network",
    "C88_ends",
    "C88_elements_refuted"
   ],
   "note": "The dictionaries determine structure, roles, names and orders; not the report elements and weights."
  },
  {
   "property": "C89",
   "status": "proved",
   "theorems": [
    "C89_facts",
    "C89_nodes"
   ],
   "note": "Assumes only that the filing is read without an exception; tables of table linkbases are not nodes."
  },
  {
   "property": "C90",
   "status": "proved",
   "theorems": [
    "C90_reported"
   ],
   "note": ""
  },
  {
   "property": "C91",
   "status": "partial",
   "theorems": [
    "C91_components",
    "C91_warnings",
    "C91_shown",
    "C91_below",
    "C91_shown_written",
    "C91_below_written",
    "C91_shown_kept_partial",
    "C91_below_kept_partial"
   ],
   "note": "C91_shown and C91_below say exactly what is in the networks, for all links: what is said about locators that arcs come to from those no arc leads to. Everything the links say is shown if links have no cycles and their arcs start at locators of report elements (otherwise C76_cycle_refuted). Networks of labels, references and footnotes are not components and left out here. Needs the usual xlink prefix inside links (C77_prefix_refuted)."
  },
  {
   "property": "C92",
   "status": "proved",
   "theorems": [
    "C92_labels",
    "C92_table"
   ],
   "note": "For documents with the usual xlink prefix inside extended links (stated in the hypothesis all_usual)."
  },
  {
   "property": "C93",
   "status": "proved",
   "theorems": [
    "C93_elements",
    "C93_lookup",
    "C93_concept_lookup",
    "C93_positions"
   ],
   "note": "For documents of distinct URIs, the usual prefix at dimension declarations (C57_other_prefix_refuted) and target namespaces that have a prefix at the declarations."
  },
  {
   "property": "C94",
   "status": "proved",
   "theorems": [
    "C94_kinds",
    "C94_names",
    "C94_core",
    "C94_networks"
   ],
   "note": ""
  },
  {
   "property": "C95",
   "status": "proved",
   "theorems": [
    "C95_reports",
    "C95_declarations_kept",
    "C95_facts_kept",
    "C95_each_fact",
    "C95_links_sound",
    "C95_announced"
   ],
   "note": "For documents of distinct URIs with the usual prefixes; what links lose without a report (nodes on cycles) is the subject of C91."
  },
  {
   "property": "C96",
   "status": "proved",
   "theorems": [
    "C96_same",
    "C96_same_content",
    "C96_same_physical"
   ],
   "note": "For all documents; the order of siblings inside networks and of the labels of one report element may depend on set order. A filing that is read has no tables (C59_filing_refuted)."
  },
  {
   "property": "C97",
   "status": "partial",
   "theorems": [
    "C97_reports_partial",
    "C97_facts_partial",
    "C97_opens_partial",
    "C97_fatal_refuted",
    "C97_shared_refuted",
    "C97_silent_refuted",
    "C95_fact_reports_partial"
   ],
   "note": "C97_reports_partial and C97_facts_partial hold for documents where a unit id and a concept tag mean the same everywhere and date texts have no spaces; C97_opens_partial gives exactly the documents that can be read to their end. Refuted: an unknown context or unit, a segment child that is no member, a divide with two equal tags and an unknown dimension of a typed member end the reading; a faulty unit of a second instance goes unreported if its id is known; a numerator with two measures goes unreported. C95_fact_reports_partial carries it to whole filings."
  },
  {
   "property": "C98",
   "status": "partial",
   "theorems": [
    "C98_reports",
    "C98_type_refuted",
    "C98_type",
    "C98_arcrole_refuted"
   ],
   "note": "C98_reports says exactly what is reported. Refuted: the type is looked up as xlink:linktype, which XLink does not have, so every proper reference is reported; arcroleRef elements, which have an arcroleURI, are reported for a missing roleURI."
  },
  {
   "property": "C99",
   "status": "partial",
   "theorems": [
    "C99_elements",
    "C99_found",
    "C99_facts_partial",
    "C99_exact_partial",
    "C99_listed",
    "C99_characteristics",
    "C99_no_comments",
    "C99_comment_refuted",
    "C99_instances"
   ],
   "note": "For elements with the prefix ix. C99_facts_partial gives every element its outcome; C99_exact_partial the exact characteristics where equal keys mean equal things. Refuted: a comment in the text of a fact or its continuations ends the reading of the whole filing (C99_no_comments: a filing that is read has none)."
  },
  {
   "property": "C113",
   "status": "partial",
   "theorems": [
    "C113_component",
    "C113_component_unique",
    "C113_component_ends",
    "C113_components",
    "C113_in_turn_unique",
    "C113_facts",
    "C113_fact",
    "C113_network",
    "C113_node",
    "C113_unsupported",
    "C113_mixed_facts",
    "C113_mixed_components",
    "C113_networks_refuted",
    "C113_info_refuted",
    "C113_partly_printed_refuted",
    "C113_table_refuted"
   ],
   "note": "Proved for components, lists of components or of facts, single facts, networks and nodes, and for rejected objects. Refuted: lists of networks are rejected, mixed lists are printed in part or fail with AttributeError, descriptions with a stray closing tag break off the printing, tables are printed as an empty line. What rich makes of valid markup is not modelled: text in square brackets within a description can be taken as a style and not be shown."
  },
  {
   "property": "C114",
   "status": "partial",
   "theorems": [
    "C114_reflexive",
    "C114_symmetric",
    "C114_transitive",
    "C114_classes",
    "C114_same_partial",
    "C114_texts",
    "C114_units_partial",
    "C114_contexts_of_facts",
    "C114_calculation",
    "C114_in",
    "C114_hashable",
    "C114_hash_agrees",
    "C114_set_partial",
    "C114_set_refuted",
    "C114_contexts_refuted",
    "C114_units_refuted",
    "C114_concept_characteristics_refuted",
    "C114_entities_refuted",
    "C114_filings_refuted"
   ],
   "note": "Equivalence, classes, hashes, membership and sets are proved for all objects; agreement with meaning for all objects of one filing that are no units, concept characteristics or contexts (C114_same_partial; units under C114_units_partial). Contexts, units, concept characteristics, sets of unhashable objects, entities with a brace in the scheme and dimensions of two filings are refuted and their exact behaviour is proved (C114_texts, C114_contexts_of_facts). C114_calculation shows that the comparison by names in CalcModel is this equality."
  },
  {
   "property": "C115",
   "status": "partial",
   "theorems": [
    "C115_listed",
    "C115_ends_iff",
    "C115_logical",
    "C115_logical_partial",
    "C115_physical",
    "C115_lost_refuted",
    "C115_unknown_refuted"
   ],
   "note": "C115_logical and C115_physical say for all links exactly which roles are listed. That these are the roles of the arcs is proved for links in which each report element is reached by arcs of one role, all are found and have an arc, and there are no circles (C115_logical_partial); C115_lost_refuted and C115_unknown_refuted show that the first and third condition are needed. Networks combined from several links and arc names are not covered."
  },
  {
   "property": "C116",
   "status": "partial",
   "theorems": [
    "C116_facts",
    "C116_balance_sound",
    "C116_balance_partial",
    "C116_arcs_partial",
    "C116_roots",
    "C116_aggregation_partial",
    "C116_documents",
    "C116_inline_facts",
    "C116_inline_balance_sound",
    "C116_inline_balance_partial",
    "C116_inline_roots",
    "C116_inline_aggregation_partial"
   ],
   "note": "That a True of the balance check is right is proved for all networks (C116_balance_sound); that it is given, and the meaning of the aggregation check, for nodes that are not below themselves (on others the checks do not end, C23, C24). The weights are related to arcs of the documents for links without arcs from a locator to itself (C116_arcs_partial, C117). Documents have distinct names and the prefixes of dimension declarations are usual. For inline filings (C116_inline_*) the aggregation check is related to the facts if fact elements use the prefix ix and the names of declared elements can be written (C119). An arc that loses its weight to an earlier arc to the same locator (C20_two_parents_refuted) is not seen by the checks."
  },
  {
   "property": "C117",
   "status": "partial",
   "theorems": [
    "C117_written",
    "C117_children_partial",
    "C117_loops_refuted",
    "C117_inline_written",
    "C117_inline_children_partial"
   ],
   "note": "C117_written is proved for all documents in which the prefix xlink has its usual meaning, XML or inline (C117_inline_written). That nodes below others have the attributes of an arc needs links without arcs from a locator to itself (C117_loops_refuted). Which arc it is if several lead to one locator is said per link in C20 (the first). Physical networks (labels, references, footnotes, physical definitions) are not combined; for them see C20."
  },
  {
   "property": "C118",
   "status": "proved",
   "theorems": [
    "C118_written",
    "C118_children",
    "C118_listed",
    "C118_physical",
    "C118_inline_written",
    "C118_inline_children",
    "C118_inline_listed",
    "C118_inline_physical"
   ],
   "note": "For XML and inline filings whose links bind xlink as usual. Which of several arcs to a locator counts is C20 and C115; roles of arcs that are not shown are C115."
  },
  {
   "property": "C119",
   "status": "proved",
   "theorems": [
    "C119_core",
    "C119_facts",
    "C119_inline_facts"
   ],
   "note": "Documents have distinct names, the prefixes of dimension declarations are usual, and declared names can be written: target namespace and name are not empty and without braces, and no scope binds an empty prefix (lxml has the key None instead). A dimension written without prefix is never found, as names of declared elements have a prefix (or 'None'); it is reported (C119_example)."
  },
  {
   "property": "C120",
   "status": "partial",
   "theorems": [
    "C120_given",
    "C120_uniform_partial",
    "C120_footnotes_refuted",
    "C120_order_refuted",
    "C120_same_name_refuted",
    "C120_combined",
    "C120_children"
   ],
   "note": "For all links and all kinds except footnotes what is given is the name of an arc from a root, or link:unknown (C120_given); it is the name of all arcs if they share one and every locator found has an arc. Both conditions are needed (C120_order_refuted, C120_same_name_refuted). Footnote networks always give link:unknown (C120_footnotes_refuted). The name of a node below another is that of an arc to it (C120_children; in footnote links only without loops). A network combined from several gives the name of the last of them (C120_combined)."
  },
  {
   "property": "C121",
   "status": "proved",
   "theorems": [
    "C121_link",
    "C121_filing",
    "C121_inline"
   ],
   "note": "C121_link is for all extended links, so also for footnote links; C121_filing and C121_inline for the networks of linkbases of filings that were read, whose links have the usual namespace for the prefix xlink (the hypothesis of C106 to C118)."
  },
  {
   "property": "C122",
   "status": "proved",
   "theorems": [
    "C122_root",
    "C122_inline_root"
   ],
   "note": "For the networks of linkbases of filings that were read, whose links have the usual namespace for the prefix xlink (the hypothesis of C106 to C118)."
  }
 ]
}