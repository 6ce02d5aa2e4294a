{"id": "C01", "title": "Scaling a displayed number is exact multiplication by a power of ten", "statement": "Applying an iXBRL scale s to a displayed decimal number (whole digits, fractional digits) yields digits whose value is exactly the original value times 10^s, for positive, zero and negative s, without losing or inventing a digit.", "quantifier": "all digit strings (any length) for whole and fraction, all integer scales", "why_tests_cant": "tests sample a few scales and lengths; the padding/slicing boundary cases (|s| larger, equal, smaller than the digit count) interact for unboundedly many lengths", "anchors": ["brel/parsers/XHMTL/xhtml_parse_transformation_registry.py:apply_scale", "brel/parsers/XHMTL/xhtml_parse_transformation_registry.py:process_numerical_fact_value"]}
{"id": "C02", "title": "A displayed non-zero number is read as the number it shows", "statement": "For the separator formats num-dot-decimal, num-comma-decimal and their -apos variants, every text accepted by the format whose shown number is not zero is converted to a plain decimal string denoting exactly that number times 10^scale.", "quantifier": "all texts accepted by the format, all scales", "why_tests_cant": "the accepted texts form an infinite regular language with arbitrary grouping separators", "anchors": ["brel/parsers/XHMTL/xhtml_parse_transformation_registry.py:number_format_to_regex", "brel/parsers/XHMTL/xhtml_parse_transformation_registry.py:parse_numerical_fact_value", "brel/parsers/XHMTL/xhtml_parse_transformation_registry.py:process_number_part", "brel/parsers/XHMTL/xhtml_parse_transformation_registry.py:normalize_numerical_fact_value"]}
{"id": "C03", "title": "Converted numbers are canonical", "statement": "The string produced for an accepted number never has a superfluous leading zero, never has a trailing zero after the decimal point, never ends in a bare decimal point, and two accepted texts showing the same number (after scaling) produce the same string.", "quantifier": "all accepted texts, all scales, all pairs of accepted texts", "why_tests_cant": "uniqueness of the output is a relation between two unbounded inputs", "anchors": ["brel/parsers/XHMTL/xhtml_parse_transformation_registry.py:normalize_numerical_fact_value"]}
{"id": "C04", "title": "A displayed zero is read as zero", "statement": "A displayed number that is zero ('0', '0.00', '-' under the dash formats) is converted to a string that denotes zero.", "quantifier": "all accepted texts showing zero, all scales, all formats that display zero", "why_tests_cant": "tests only cover non-zero samples; the defect appears exactly on the zero class", "anchors": ["brel/parsers/XHMTL/xhtml_parse_transformation_registry.py:normalize_numerical_fact_value", "brel/parsers/XHMTL/xhtml_parse_transformation_registry.py:parse_numerical_fact_value", "brel/parsers/XHMTL/xhtml_parse_transformation_registry.py:legacy_to_current_formats"]}
{"id": "C05", "title": "Grouping separators never change the number", "statement": "Removing or inserting grouping separators (spaces, thousands separators, apostrophes allowed by the format) in an accepted text does not change the converted value.", "quantifier": "all pairs of accepted texts equal up to separators", "why_tests_cant": "relation over pairs of unbounded strings", "anchors": ["brel/parsers/XHMTL/xhtml_parse_transformation_registry.py:process_number_part", "brel/parsers/XHMTL/xhtml_parse_transformation_registry.py:match_regex_numerical_fact_value"]}
{"id": "C06", "title": "A number in the wrong format is kept verbatim and reported once", "statement": "If the text does not match its declared numeric format (or the format is unknown) the fact keeps its trimmed text and exactly one error is recorded; if it matches, no format error is recorded, and an invalid scale adds exactly one error and is treated as 0.", "quantifier": "all texts, all formats, all scale attributes", "why_tests_cant": "the complement of the accepted language is infinite", "anchors": ["brel/parsers/XHMTL/xhtml_parse_transformation_registry.py:match_regex_numerical_fact_value", "brel/parsers/XHMTL/xhtml_parse_transformation_registry.py:process_numerical_fact_value"]}
{"id": "C07", "title": "Numbers with named units read major and minor unit correctly", "statement": "Under num-unit-decimal a text 'M <unit> m <unit>' is read as M units and m hundredths of a unit.", "quantifier": "all texts accepted by the format", "why_tests_cant": "one- and two-digit minor amounts, arbitrary unit words", "anchors": ["brel/parsers/XHMTL/xhtml_parse_transformation_registry.py:number_format_to_regex", "brel/parsers/XHMTL/xhtml_parse_transformation_registry.py:process_numerical_fact_value"]}
{"id": "C08", "title": "The sign attribute negates the value and nothing else", "statement": "For a non-nil ix:nonFraction, sign='-' yields '-' followed by the value that would be produced without the sign attribute; any other sign value is reported and ignored; without a format only non-negative numerals are accepted.", "quantifier": "all texts, formats, scales and sign attributes", "why_tests_cant": "cross product of attributes with unbounded texts", "anchors": ["brel/parsers/XHMTL/elements/parse_non_fraction.py:process_non_fraction_value"]}
{"id": "C09", "title": "Numeric date formats produce the ISO date that is written", "statement": "For date-day-month-year, date-month-day-year, date-year-month-day (and the year-month/month-day variants), writing a calendar date with any non-digit separators produces the corresponding ISO 8601 string, two-digit years meaning 20xx, and records no error.", "quantifier": "all valid calendar dates, all separators, one/two digit days and months, two/four digit years", "why_tests_cant": "dates times separators times digit widths", "anchors": ["brel/parsers/XHMTL/xhtml_parse_transformation_registry.py:date_format_to_regex", "brel/parsers/XHMTL/xhtml_parse_transformation_registry.py:parse_date_match", "brel/parsers/XHMTL/xhtml_parse_transformation_registry.py:normalize_date_parts", "brel/parsers/XHMTL/xhtml_parse_transformation_registry.py:parse_date_fact_value"]}
{"id": "C10", "title": "Month names resolve to the right month in every supported language", "statement": "For every language, every month spelling accepted by that language's date formats resolves to the calendar month it names; conversion of an accepted month name never fails.", "quantifier": "all languages and all spellings accepted by the format", "why_tests_cant": "hundreds of spellings in 25 languages; a hand-written table", "anchors": ["brel/parsers/XHMTL/xhtml_parse_transformation_registry.py:country_to_month_names", "brel/parsers/XHMTL/xhtml_parse_transformation_registry.py:date_format_to_regex", "brel/parsers/XHMTL/xhtml_parse_transformation_registry.py:normalize_date_parts"]}
{"id": "C11", "title": "An impossible calendar date is reported", "statement": "Whenever an accepted date text denotes a day that does not exist in the calendar, an invalid-date error is recorded, and for an existing day none is recorded.", "quantifier": "all accepted date texts", "why_tests_cant": "leap years, month lengths, recurring dates without year", "anchors": ["brel/parsers/XHMTL/xhtml_parse_transformation_registry.py:validate_date_fact_value"]}
{"id": "C12", "title": "Japanese imperial dates convert to the Gregorian year of the era", "statement": "A year n of an era is converted to the Gregorian year (first year of the era)+n-1, the first year may be written with its special name, and a date outside the era is reported.", "quantifier": "all eras, years, months and days accepted by the format", "why_tests_cant": "per-era boundaries", "anchors": ["brel/parsers/XHMTL/xhtml_parse_transformation_registry.py:convert_japanese_imperial_date_to_gregorian", "brel/parsers/XHMTL/xhtml_parse_transformation_registry.py:check_japanese_imperial_date_valid"]}
{"id": "C13", "title": "Converting an accepted date never aborts parsing", "statement": "For every supported date format and every text, conversion returns a string (possibly with recorded errors) and never raises.", "quantifier": "all formats, all texts", "why_tests_cant": "exceptions occur only for particular formats/spellings", "anchors": ["brel/parsers/XHMTL/xhtml_parse_transformation_registry.py:parse_date_fact_value"]}
{"id": "C14", "title": "The text of a continued fact is the document-order text outside ix:exclude", "statement": "The text content extracted for a fact is the concatenation, over its continuation chain in order, of all character data in document order except what is inside ix:exclude elements; text following an excluded element is kept.", "quantifier": "all element trees of any depth and width, all chains", "why_tests_cant": "tree-shaped input of unbounded depth with text/tail handling", "anchors": ["brel/parsers/XHMTL/elements/parse_continuation_chain.py:extract_relevant_content_per_element", "brel/parsers/XHMTL/elements/parse_continuation_chain.py:merge_relevant_content", "brel/parsers/XHMTL/elements/parse_continuation_chain.py:extract_relevant_content_from_continuation_chain", "brel/parsers/utils/lxml_utils.py:clone_element_without_children"]}
{"id": "C15", "title": "Continuation chains follow continuedAt exactly and always end", "statement": "The chain of a fact is the sequence of elements obtained by following continuedAt; building chains terminates for every document; an unknown target ends the chain and is reported; a continuation used by two chains is reported; unused ones are reported.", "quantifier": "all documents, including cyclic references", "why_tests_cant": "termination over all reference graphs", "anchors": ["brel/parsers/XHMTL/elements/parse_continuation_chain.py:create_continuation_chains", "brel/parsers/XHMTL/elements/parse_continuation_chain.py:build_continuation_element_index"]}
{"id": "C16", "title": "Escaped content is reversible text", "statement": "For escape='true' facts the special characters of the text are replaced so that unescaping gives back the original text, and no escaped output contains a raw markup character.", "quantifier": "all texts", "why_tests_cant": "unbounded strings; order of replacements matters", "anchors": ["brel/parsers/XHMTL/elements/parse_non_numeric.py:convert_escaped_characters", "brel/parsers/XHMTL/elements/parse_non_numeric.py:escape_content"]}
{"id": "C17", "title": "Children of a network node are always sorted by order, ties in insertion order", "statement": "After any sequence of additions the children of a presentation/calculation/definition node are exactly the added nodes, sorted by order, with equal orders in the order of addition.", "quantifier": "all sequences of additions and all order values", "why_tests_cant": "history of arbitrary length", "anchors": ["brel/networks/presentation_network_node.py:_add_child", "brel/networks/calculation_network_node.py:_add_child", "brel/networks/definition_network_node.py:_add_child"]}
{"id": "C18", "title": "Descendants are exactly the reachable nodes", "statement": "get_all_descendants and get_all_nodes return exactly the nodes reachable through children, each once, and terminate on every acyclic network (shared nodes allowed).", "quantifier": "all finite networks", "why_tests_cant": "unbounded graphs; sharing and cycles", "anchors": ["brel/networks/i_network_node.py:get_all_descendants", "brel/networks/i_network.py:get_all_nodes"]}
{"id": "C19", "title": "A parsed link contains exactly the arcs of the document", "statement": "In the network built from an extended link, node B is a child of node A exactly when the link contains an arc from A's locator to B's locator, each such child appearing once; duplicate arcs are reported and ignored.", "quantifier": "all extended links with arbitrarily many locators and arcs", "why_tests_cant": "all graphs, all arc multiplicities and document orders", "anchors": ["brel/parsers/XML/networks/xml_extended_link_parser.py:parse_xml_link"]}
{"id": "C20", "title": "Every arc's own weight and order is honoured", "statement": "For every arc A->B, the weight/order/preferred label seen under A for B is the one written on that arc.", "quantifier": "all extended links, including an element that appears under several parents", "why_tests_cant": "needs elements with two parents", "anchors": ["brel/parsers/XML/networks/xml_extended_link_parser.py:parse_xml_link", "brel/parsers/XML/networks/xml_calculation_network_factory.py:create_node"]}
{"id": "C21", "title": "Roots are the nodes without incoming arcs and no relationship is lost", "statement": "The roots of a parsed network are exactly the locators that are the target of no arc, every locator is reachable from some root, and a link with at least one locator yields a network. get_root() gives the one such node if there is just one and raises ValueError otherwise.", "quantifier": "all extended links", "why_tests_cant": "cyclic links", "anchors": ["brel/parsers/XML/networks/xml_extended_link_parser.py:parse_xml_link", "brel/networks/i_network.py:INetwork.get_root"]}
{"id": "C22", "title": "Combining networks of the same role loses nothing and duplicates nothing", "statement": "Combining the networks of one role gives a network whose root elements are the union of the root elements and where each parent has the union of its children (equal nodes merged), ordered by order.", "quantifier": "all lists of networks", "why_tests_cant": "recursive merge on unbounded trees", "anchors": ["brel/parsers/utils/network_utils.py:combine_networks", "brel/parsers/utils/network_utils.py:nodes_equal"]}
{"id": "C23", "title": "Balance consistency means every arc's weight sign agrees with the balances", "statement": "is_balance_consistent returns true exactly when for every parent/child pair in the network the weight sign is compatible with the two balance attributes (same balance: positive, opposite: negative), and unknown balances are handled as documented.", "quantifier": "all calculation networks", "why_tests_cant": "unbounded trees", "anchors": ["brel/networks/calculation_network.py:is_balance_consistent"]}
{"id": "C24", "title": "Aggregation consistency means every reported total equals its weighted sum", "statement": "is_aggregation_consistent returns true exactly when for each concept of the network with reported children, each reported fact equals the weighted sum of the children's facts in the same context.", "quantifier": "all calculation networks and all fact sets", "why_tests_cant": "networks times facts", "anchors": ["brel/networks/calculation_network.py:is_aggregation_consistent"]}
{"id": "C25", "title": "A context holds one characteristic per aspect, first one wins, aspects sorted", "statement": "After any sequence of characteristic additions a context has each aspect at most once, keeps the characteristic first given for it, lists aspects sorted by name, and has a characteristic for exactly the listed aspects.", "quantifier": "all sequences of additions", "why_tests_cant": "history of arbitrary length with duplicates", "anchors": ["brel/brel_context.py:_add_characteristic", "brel/brel_context.py:get_characteristic", "brel/brel_context.py:get_aspects"]}
{"id": "C26", "title": "A fact's row contains every aspect and the value", "statement": "convert_to_dict of a fact has one entry per aspect of its context with the characteristic's text, plus the id and the value, and no aspect is lost.", "quantifier": "all facts", "why_tests_cant": "name collisions between aspects and reserved columns", "anchors": ["brel/brel_fact.py:convert_to_dict", "brel/brel_context.py:convert_to_df_row"]}
{"id": "C27", "title": "Every reported fact is returned by the filing", "statement": "Every fact added while parsing is returned by get_all_facts, exactly once, in order of addition.", "quantifier": "all sequences of fact additions, with and without ids", "why_tests_cant": "ids are optional and may collide", "anchors": ["brel/data/fact/in_memory_fact_repository.py", "brel/brel_filing.py:get_all_facts"]}
{"id": "C28", "title": "Preferred languages are ordered by specificity without repetition", "statement": "get_preferred_languages lists the languages passed by the caller, then the filing's, the library's, the system's, the report's, in this order, without repetitions (first position wins), and obeys the allow flags.", "quantifier": "all language lists and flags", "why_tests_cant": "combinations of lists with overlaps", "anchors": ["brel/brel_filing.py:get_preferred_languages"]}
{"id": "C29", "title": "A translation is taken from the first preferred language that has one", "statement": "The translation lookup returns the text of the first language in the preference list with a matching translation (region variants fall back as specified), and the key itself when there is none.", "quantifier": "all tables, keys and language lists", "why_tests_cant": "lists of arbitrary length and partial matches", "anchors": ["brel/services/translation/translation_service.py"]}
{"id": "C30", "title": "The main label is the best English label, else the first", "statement": "select_main_label returns a label of the most preferred English variant present, otherwise the first label, otherwise a fixed placeholder; the result is always one of the element's labels when it has any.", "quantifier": "all label lists", "why_tests_cant": "arbitrary lists", "anchors": ["brel/reportelements/i_report_element.py:select_main_label"]}
{"id": "C31", "title": "Output parameters: call beats filing beats library default", "statement": "The effective boolean output parameter is the one passed in the call if any, else the filing's, else the library configuration's, else false, for each parameter independently.", "quantifier": "all assignments of the three levels", "why_tests_cant": "swap errors show only for particular combinations", "anchors": ["brel/brel_filing.py:get_preferred_output_parameter", "brel/brel_filing.py:__infer_output_params"]}
{"id": "C32", "title": "QName texts and QName objects correspond", "statement": "Parsing the prefix:local text of a QName in a scope that declares its prefix gives back the same QName; parsing its Clark text gives the same namespace and local name; two different QNames never have the same Clark text (namespaces without '}').", "quantifier": "all QNames and scopes", "why_tests_cant": "unbounded strings with delimiter characters", "anchors": ["brel/qnames/qname.py", "brel/qnames/qname_utils.py:qname_from_str"]}
{"id": "C33", "title": "Lookup by name returns the unique match or an error", "statement": "Looking up a report element by (partial) name returns it exactly when one and only one registered element matches; with none or several it raises.", "quantifier": "all registries and search strings", "why_tests_cant": "uniqueness over arbitrary registries", "anchors": ["brel/services/report_element/report_element_service.py:get_fuzzy", "brel/parsers/utils/iterable_utils.py", "brel/qnames/qname_search_params.py"]}
{"id": "C34", "title": "Namespace normalisation gives every namespace one prefix and every prefix one namespace", "statement": "After normalising the prefix bindings of all documents, each namespace URI has exactly one main prefix, and different namespaces have different prefixes.", "quantifier": "all collections of prefix bindings", "why_tests_cant": "collisions across documents", "anchors": ["brel/parsers/XML/xml_namespace_normalizer.py:normalize_nsmap", "brel/parsers/XML/xml_namespace_normalizer.py:generate_alternative_prefixes"]}
{"id": "C35", "title": "Taxonomy discovery loads each referenced document once and terminates", "statement": "Loading documents recursively visits exactly the documents reachable through references, each once, and terminates on cyclic references.", "quantifier": "all finite reference graphs", "why_tests_cant": "cycles, diamonds", "anchors": ["brel/services/xml/xml_service.py:add_etree_recursive", "brel/services/xml/xml_service.py:__extract_references"]}
{"id": "C36", "title": "Different URIs are cached under different file names", "statement": "The cache file name of a URI determines the URI.", "quantifier": "all pairs of URIs", "why_tests_cant": "relation between two unbounded strings", "anchors": ["brel/parsers/utils/file_utils.py:uri_to_filename"]}
{"id": "C37", "title": "URI rewriting uses the longest matching prefix", "statement": "A URI is rewritten by the catalog rule with the longest matching start string; a URI no rule matches is unchanged.", "quantifier": "all rule sets and URIs", "why_tests_cant": "overlapping rules", "anchors": ["brel/data/uri_rewrite/in_memory_uri_rewrite_repository.py"]}
{"id": "C38", "title": "A context's entity is the one written in that context", "statement": "For every sequence of parsed contexts, the entity characteristic of each has the scheme and identifier written in it.", "quantifier": "all sequences of contexts", "why_tests_cant": "cache history", "anchors": ["brel/parsers/XML/characteristics/xml_parse_entity.py"]}
{"id": "C39", "title": "A context's dimension members are those written in that context", "statement": "For every sequence of parsed contexts, each explicit/typed dimension characteristic has the dimension and member written in it.", "quantifier": "all sequences of contexts", "why_tests_cant": "cache-key collisions across contexts", "anchors": ["brel/parsers/XML/characteristics/xml_parse_explicit_dimension.py", "brel/parsers/XML/characteristics/xml_parse_typed_dimension.py"]}
{"id": "C40", "title": "Periods are instants or ordered durations", "statement": "A parsed period is an instant or a duration whose start is not after its end; anything else is reported or rejected; equal periods have equal text.", "quantifier": "all period elements", "why_tests_cant": "element shapes times dates", "anchors": ["brel/parsers/XML/characteristics/xml_parse_period.py", "brel/characteristics/period_characteristic.py"]}
{"id": "C41", "title": "Units contain exactly the written measures", "statement": "A parsed simple unit has the written measure(s) as numerators; a divide unit has the written numerators and denominators in order; malformed units are reported and dropped.", "quantifier": "all unit elements", "why_tests_cant": "element shapes", "anchors": ["brel/parsers/XML/characteristics/xml_parse_unit.py:parse_unit_from_xml"]}
{"id": "C42", "title": "Errors are never lost and keep their order", "statement": "After any sequence of recorded errors, the error list is exactly the recorded errors in order; filters by area/severity return exactly the matching sub-sequence.", "quantifier": "all sequences of error insertions and queries", "why_tests_cant": "history", "anchors": ["brel/data/errors/in_memory_error_repository.py", "brel/brel_filing.py:get_errors_by_area"]}
{"id": "C43", "title": "Every error code that parsing can record is defined", "statement": "Recording any error code used by the parsers succeeds.", "quantifier": "all error codes used", "why_tests_cant": "rarely exercised error paths", "anchors": ["brel/errors/error_factory_registry.py", "brel/errors/error_code.py"]}
{"id": "C44", "title": "Inline footnote relationships become networks under their link role", "statement": "For every set of ix:relationship elements, the footnote networks group relationships by link role and arc role; each relationship's from/to items are connected; a missing order attribute defaults to 1; the network's link role is the relationship's link role.", "quantifier": "all sets of relationships", "why_tests_cant": "attribute combinations and graphs", "anchors": ["brel/parsers/XHMTL/networks/xhtml_parse_footnote_network.py"]}
{"id": "C45", "title": "Table parent-child order defaults flow down the definition tree", "statement": "After propagation every closed definition node, breakdown and table has a specified parent-child order: its own if given, else that of its nearest specified ancestor, else parent-first.", "quantifier": "all definition trees", "why_tests_cant": "unbounded trees", "anchors": ["brel/table_linkbases/definition_model/table.py:propagate_parent_child_order", "brel/table_linkbases/definition_model/breakdown.py", "brel/table_linkbases/definition_model/definition_nodes/closed_definition_node.py"]}
{"id": "C46", "title": "Concept type classification is coherent", "statement": "Every integer concept is numeric, no concept is both numeric and textual, and boolean concepts are not numeric.", "quantifier": "all data type names", "why_tests_cant": "hand-written lists", "anchors": ["brel/reportelements/concept.py"]}
{"id": "C47", "title": "Parsed concepts have exactly the written attributes or are rejected with an error", "statement": "A concept is created exactly when its periodType is instant/duration, balance is credit/debit/absent, nillable is true/false/absent and a type is present; otherwise no concept is created and exactly one error is recorded.", "quantifier": "all attribute combinations", "why_tests_cant": "cross product of attribute values", "anchors": ["brel/reportelements/concept.py:_from_xml"]}
{"id": "C48", "title": "Facts are linked to an existing context and concept or dropped with an error", "statement": "Every fact in the filing has a concept, and a context that was defined in the document; each dropped fact element records an error.", "quantifier": "all instance documents", "why_tests_cant": "all shapes of fact elements", "anchors": ["brel/parsers/XML/xml_facts_parser.py", "brel/parsers/XML/xml_context_parser.py"]}
{"id": "C49", "title": "Components list each role once with its networks", "statement": "get_component returns the component of the given URI; network getters and has_* flags agree; get_networks lists the present networks in the order presentation, calculation, definition.", "quantifier": "all components", "why_tests_cant": "all presence combinations", "anchors": ["brel/brel_component.py", "brel/brel_filing.py:get_component", "brel/parsers/XML/xml_component_parser.py"]}
{"id": "C50", "title": "The most recent matching EDGAR filing is opened", "statement": "open_edgar picks an XBRL filing of the requested type (and date) whose report date is maximal, the earliest-listed among equals, and fails exactly when none matches.", "quantifier": "all metadata tables", "why_tests_cant": "tables of any length", "anchors": ["brel/utils/edgar.py:open_edgar"]}
{"id": "C51", "title": "The printed error code identifies the error", "statement": "Two recorded errors with the same full error code (severity, area, number, XBRL code) were recorded with the same ErrorCode, whatever the values in their messages.", "quantifier": "all error codes, all message arguments", "why_tests_cant": "It relates every pair of codes in the registry for arbitrary arguments; tests check single codes.", "anchors": ["brel/errors/error_factory_registry.py:error_factory_registry", "brel/errors/error_instance.py:get_full_error_code"]}
{"id": "C52", "title": "A table has exactly one row per fact, element or component", "statement": "generate_fact_table_pandas_df and its siblings give one row for each fact, report element or component, in their order, whether or not languages may be mixed; without mixing all rows are in one language.", "quantifier": "all lists of elements, languages and translations", "why_tests_cant": "combinations of languages that suffice or fail at any element", "anchors": ["brel/brel_filing.py:__generate_pandas_df_from_elements"]}
{"id": "C53", "title": "A translated row keeps every characteristic of the fact", "statement": "For any list of languages, the row of a fact has one column per aspect of its context, with the translated value of the characteristic, and columns for id and value; nothing is lost.", "quantifier": "all facts, labels, translations and language lists", "why_tests_cant": "column names come from labels and may coincide", "anchors": ["brel/brel_context.py:convert_to_df_row", "brel/brel_fact.py:convert_to_dict"]}
{"id": "C54", "title": "The references of a document are all found", "statement": "The set of references extracted from the text of a document consists of the documents named by its XLink href attributes (without fragment) and its schemaLocation attributes, and extraction never fails on a well-formed document.", "quantifier": "all texts", "why_tests_cant": "a regular expression over unbounded text: quoting, overlaps, blanks, several schemaLocation pairs", "anchors": ["brel/services/xml/xml_service.py:__extract_references"]}
{"id": "C55", "title": "The outermost catalog is used and only it is taken out of the entry points", "statement": "Among the given paths the catalog with the shortest path is parsed; it is not loaded as a document, every other path is.", "quantifier": "all lists of paths", "why_tests_cant": "lists of any length with several catalogs", "anchors": ["brel/contexts/factory.py:get_catalog_filepath", "brel/contexts/factory.py:parse_catalog", "brel/contexts/factory.py:create_filing_context"]}
{"id": "C56", "title": "Schema declarations become report elements of the right kind, the first declaration of a name counts", "statement": "After the schemas are read, the report elements of the filing are exactly those made from the first usable declaration of each name; items become concepts, hypercubeItem/dimensionItem declarations hypercubes and dimensions, domain item types members, other abstract elements line items or abstracts, as XBRL defines substitution groups; every rejected declaration records exactly one error and nothing else does.", "quantifier": "all sets of schema documents", "why_tests_cant": "attribute combinations, repeated names across documents, unbounded documents", "anchors": ["brel/parsers/XML/xml_report_element_factory.py", "brel/parsers/XML/xml_report_element_parser.py", "brel/data/report_element/in_memory_report_element_repository.py"]}
{"id": "C57", "title": "Typed dimensions carry the type of their domain", "statement": "A dimension declared with xbrldt:typedDomainRef is typed with the type of the element it refers to (in any loaded schema); a dimension without it is explicit; a dangling reference is an error, not a failure to open the filing.", "quantifier": "all schema documents and references", "why_tests_cant": "relative and absolute references, prefixes, missing targets", "anchors": ["brel/parsers/XML/xml_report_element_parser.py:parse_report_element", "brel/reportelements/dimension.py"]}
{"id": "C58", "title": "Locators lead to the element declared in the document they name", "statement": "A locator with href doc#id stands for the report element declared under id in doc, or for the fact with that id; otherwise exactly one error is recorded and the locator is skipped.", "quantifier": "all taxonomies and hrefs", "why_tests_cant": "ids are unique per document only; collisions need several documents", "anchors": ["brel/parsers/XML/networks/xml_extended_link_parser.py:get_object_from_reference", "brel/data/report_element/in_memory_report_element_repository.py:upsert"]}
{"id": "C59", "title": "Tables of table linkbases are loaded with their arcs", "statement": "A table linkbase of the DTS is found, its tables, breakdowns and nodes are linked by their arcs (an arc without an order attribute has order 1), and the tables are available afterwards.", "quantifier": "all documents and all sets of arcs", "why_tests_cant": "documents of any size with any attributes", "anchors": ["brel/parsers/XML/table_linkbase/xml_table_linkbase_parser.py:find_table_linkbase_elements", "brel/parsers/XML/table_linkbase/xml_table_linkbase_parser.py:parse_table_linkbase_element", "brel/data/table_linkbase/in_memory_table_linkbase_repository.py:upsert_definition_table"]}
{"id": "C60", "title": "Reported concepts and the facts of a concept partition the facts", "statement": "get_all_reported_concepts lists every concept some fact reports against exactly once, in order of first mention; get_facts_by_concept returns exactly the facts of the concept in filing order; together these lists contain every fact once.", "quantifier": "all filings", "why_tests_cant": "fact lists of any length", "anchors": ["brel/brel_filing.py:get_all_reported_concepts", "brel/brel_filing.py:get_facts_by_concept_name", "brel/brel_filing.py:get_facts_by_concept"]}
{"id": "C61", "title": "EDGAR metadata older than a day is downloaded again", "statement": "open_edgar works with the cached metadata of the company if its file is at most one day old, otherwise with freshly downloaded metadata, which is cached; it fails with ValueError if a needed download fails.", "quantifier": "all ages, cache contents and server answers", "why_tests_cant": "depends on time, the file system and the network", "anchors": ["brel/utils/edgar.py:open_edgar", "brel/utils/edgar.py:__download_metadata_for_cik"]}
{"id": "C62", "title": "The typed value of a fact is its text read by the concept's type", "statement": "Fact.get_value returns the text of the fact read by the type of its concept: an int for integer types, a float for the other numeric types, a bool for the XML Schema booleans true, false, 1 and 0, and the text itself otherwise; a text that is no literal of the type raises ValueError and gives no value.", "quantifier": "all facts, types and texts", "why_tests_cant": "infinitely many texts per type; the readers accept more or less than XML Schema", "anchors": ["brel/brel_fact.py:Fact.get_value", "brel/brel_fact.py:Fact.__int__", "brel/brel_fact.py:Fact.__float__", "brel/brel_fact.py:Fact.__bool__"]}
{"id": "C63", "title": "Every identified footnote of an inline document is available, and problems are reported exactly", "statement": "Parsing any sequence of ix:footnote elements never fails; afterwards each identifier written in the document has the content, title, role and language of its last footnote element, with the default role for a missing or invalid role and English for a missing language, and other entries are unchanged; errors are recorded if and only if some element lacks an identifier or a language, repeats an identifier or has an invalid role.", "quantifier": "all sequences of footnote elements and all initial states", "why_tests_cant": "combinations of attributes and repeated identifiers", "anchors": ["brel/parsers/XHMTL/networks/xhtml_parse_footnote_network.py:parse_footnote", "brel/parsers/XHMTL/networks/xhtml_parse_footnote_network.py:parse_footnotes"]}
{"id": "C64", "title": "Facts of inline documents", "statement": "For inline documents that can be opened, every fact element either becomes exactly one fact or is dropped with a report that names its fault (no name, unknown name, no context reference, unknown context); the stored facts are, per identifier, the last kept element with it, plus all kept elements without identifier in document order; each fact carries the concept of its name, the entity, period and dimensions of the context it refers to, its unit, and as value the text as transformed by its format, scale and sign (for decimal formats the number shown, times ten to the scale, negated with a sign).", "quantifier": "all documents, all sets of contexts and units, all repositories of report elements", "why_tests_cant": "each document has its own contexts, units, namespaces, formats and order of elements", "anchors": ["brel/parsers/XHMTL/xhtml_parse_facts.py:parse_facts_xhtml", "brel/parsers/XHMTL/xhtml_parse_facts.py:parse_facts", "brel/parsers/XHMTL/elements/parse_non_fraction.py:parse_non_fraction_fact_element", "brel/parsers/XHMTL/elements/parse_non_numeric.py:parse_non_numeric_fact_element"]}
{"id": "C65", "title": "Numbers inside numbers", "statement": "An ix:nonFraction element that contains another ix:nonFraction has the value of the inner element, and an inner element with another format, scale or unit is reported and the rest of the document is read.", "quantifier": "all nestings of number elements", "why_tests_cant": "depth of nesting and attributes vary", "anchors": ["brel/parsers/XHMTL/elements/parse_non_fraction.py:validate_descendant_non_fraction_rules", "brel/parsers/XHMTL/elements/parse_non_fraction.py:process_non_fraction_value"]}
{"id": "C66", "title": "Structure of inline documents is reported, not fatal", "statement": "Every deviation of the ix:header, ix:references, ix:resources and ix:hidden elements from the prescribed structure is recorded as one error of the corresponding code, in document order, and no deviation stops the rest from being read.", "quantifier": "all header, references, resources and hidden elements with all children", "why_tests_cant": "combinations of wrong children, several documents and comments", "anchors": ["brel/parsers/XHMTL/elements/parse_header.py:parse_header", "brel/parsers/XHMTL/elements/parse_references.py:parse_references_elements", "brel/parsers/XHMTL/elements/parse_resources.py:parse_resources_elements", "brel/parsers/XHMTL/elements/parse_hidden.py:validate_hidden_elements"]}
{"id": "C67", "title": "Identifiers are unique across an inline document", "statement": "Every element of an inline document whose identifier was used before by a references, context, unit or fact element is reported with the code for duplicate identifiers.", "quantifier": "all documents and all orders of elements with identifiers", "why_tests_cant": "pairs of kinds of elements and positions", "anchors": ["brel/parsers/XHMTL/elements/parse_references.py:parse_references_elements", "brel/parsers/XHMTL/xhtml_parse_facts.py:parse_facts_xhtml"]}
{"id": "C68", "title": "Opening a folder reads exactly the supported files below it", "statement": "Filing.open(path) of a folder reads every file at any depth below the folder whose name has the extension .xml, .xhtml, .htm, .html or .xsd, and no other file; no file is taken twice, and the search ends for every folder of finite depth.", "quantifier": "all folder trees, all names, all depths", "why_tests_cant": "Tests open a few checked-in folders; which names are taken from which depth is a statement about all directory trees.", "anchors": ["brel/parsers/path_loaders/folder_path_loader.py: FolderPathLoader.load", "brel/brel_filing.py: Filing.open"]}
{"id": "C69", "title": "The kind of a filing is decided by its files", "statement": "A filing is read as an XML filing exactly if all its files are .xml or .xsd files, and as an inline filing exactly if there is at least one .htm, .html or .xhtml file; a list with any other file, an empty list or a path that is neither a supported file, a folder nor an archive raises; a file that may be part of a folder may also be opened alone.", "quantifier": "all lists of files, all paths, with or without catalog", "why_tests_cant": "Tests open one filing of each kind; the decision depends on every file of the list and on the removal of the catalog.", "anchors": ["brel/parsers/filing_parser_factory.py: FilingParserFactory.create_parser", "brel/parsers/path_loaders/path_loader_resolver.py: PathLoaderResolver.get_path_loader", "brel/parsers/path_loaders/file_path_loader.py: FilePathLoader.is_loader_for", "brel/contexts/factory.py: create_filing_context"]}
{"id": "C70", "title": "Opening an archive reads the members of the archive", "statement": "Filing.open of a .zip archive reads the documents in the archive: its reports, schemas and linkbases.", "quantifier": "all archives, all states of the disk and of the cache", "why_tests_cant": "A test that runs inside the directory the archive was made from passes although nothing is read from the archive.", "anchors": ["brel/parsers/path_loaders/zip_path_loader.py: ZipPathLoader.load", "brel/services/xml/xml_service.py: XMLService.add_etree_recursive", "brel/services/file/file_service.py: FileService"]}
{"id": "C71", "title": "Opening a local file reads the file as it is now", "statement": "Filing.open of a local file reads the present content of that file, whatever was opened in earlier sessions.", "quantifier": "all local paths, all contents of the cache directory", "why_tests_cant": "Tests start from a clean cache or never change a file; the cache in the home directory outlives every session.", "anchors": ["brel/data/factory.py: create_file_repository", "brel/data/file/pyfs_file_repository.py: PyFsFileRepository", "brel/services/xml/xml_service.py: XMLService.add_etree_recursive", "brel/parsers/utils/file_utils.py: uri_to_filename"]}
{"id": "C72", "title": "Labels reach their report elements", "statement": "After opening a filing, the labels of a report element are exactly those that a label link with a role gives it: an arc leads from a locator of the element to the resource, and no arc of the same role leads to the locator; each pair of locator and resource gives one label per role of the arcs between them, with the text, role and language written on the resource (the language may come from an element around it).", "quantifier": "all sets of documents in which the prefix xlink is bound as usual, all orders in which Python lists sets", "why_tests_cant": "each taxonomy spreads its labels over other links, arcs, documents and languages", "anchors": ["brel/parsers/XML/networks/xml_networks_parser.py:parse_networks_from_xmls", "brel/parsers/XML/networks/xml_label_network_factory.py:LabelNetworkFactory", "brel/parsers/XML/networks/xml_extended_link_parser.py:parse_xml_link"]}
{"id": "C73", "title": "A filing opens whatever its label links contain", "statement": "Reading a label link that XBRL allows never makes opening the filing fail.", "quantifier": "all label links", "why_tests_cant": "the shapes of label links are unbounded; tests have links in which every label is used", "anchors": ["brel/parsers/XML/networks/xml_label_network_factory.py:LabelNetworkFactory", "brel/parsers/XML/networks/xml_resource_parser.py:parse_xml_resource"]}
{"id": "C74", "title": "Labels, footnotes and references are read as written", "statement": "A label, footnote or reference has the whole text, language and role that the resource has in the document; a label without language is reported once and dropped.", "quantifier": "all resources", "why_tests_cant": "the content of resources is arbitrary mixed XML", "anchors": ["brel/parsers/XML/networks/xml_resource_parser.py:parse_xml_resource", "brel/parsers/utils/lxml_utils.py:get_elem_lang_recursive"]}
{"id": "C75", "title": "Opening a filing twice gives the same labels", "statement": "The labels of every report element, its main label, the reported errors and the content of the networks do not depend on the order in which Python happens to list sets of arcs and nodes.", "quantifier": "all documents, all pairs of orders", "why_tests_cant": "the order of a set of strings changes from process to process", "anchors": ["brel/parsers/XML/networks/xml_extended_link_parser.py:parse_xml_link", "brel/reportelements/i_report_element.py:select_main_label"]}
{"id": "C76", "title": "One network per role and kind", "statement": "However many links of one role and kind the documents contain, the filing has one (logical) network for it, in which a report element is below another exactly if one of the links puts it there, and which shows exactly the report elements that the links mention; physical networks stay as each link makes them.", "quantifier": "all sets of documents, all orders of sets", "why_tests_cant": "links of one role are spread over any number of documents in any way", "anchors": ["brel/parsers/XML/networks/xml_networks_parser.py:parse_networks_from_xmls", "brel/parsers/utils/network_utils.py:combine_networks"]}
{"id": "C77", "title": "Links that cannot be read are reported and skipped", "statement": "A link without role or of unknown type is reported exactly once, names the link, and changes nothing else; other links are not affected, and a link with a role is never reported as one without.", "quantifier": "all links, all states", "why_tests_cant": "tests cannot show that nothing else changes", "anchors": ["brel/parsers/XML/networks/xml_networks_parser.py:parse_networks_from_xmls", "brel/parsers/XML/networks/xml_extended_link_parser.py:parse_xml_link"]}
{"id": "C78", "title": "Every fault of a link is reported once", "statement": "The errors reported while reading links are: for each link, in the order read (standard roles first), one for each arc that repeats an earlier one, each locator whose element is not found, each label or footnote without language and each unknown resource; no others and no repetitions.", "quantifier": "all sets of documents", "why_tests_cant": "faults can be combined without bound; tests look at one fault at a time", "anchors": ["brel/parsers/XML/networks/xml_extended_link_parser.py:parse_xml_link", "brel/parsers/XML/networks/xml_resource_parser.py:parse_xml_resource"]}
{"id": "C79", "title": "Problems of inline fact elements are reported", "statement": "For inline documents that can be opened, the errors recorded about fact elements are exactly the problems of these elements, in document order and each with the element: missing or unknown concept, unit and context, a repeated identifier, decimals or precision that are no number, more than one of decimals, precision and nil, text together with children, content of a nil number, no content without nil, a nil number inside a number, an invalid sign, scale, format or text of a number, several or wrong children, an invalid escape attribute, and what the transformation of a text reports. No such problem stops the rest from being read.", "quantifier": "all documents, all number and text elements with all attributes, children and parents, all sets of units, contexts and report elements", "why_tests_cant": "the problems of one element combine with each other and with those of its parent, children and the elements before it", "anchors": ["brel/parsers/XHMTL/elements/parse_non_fraction.py:parse_non_fraction_fact_element", "brel/parsers/XHMTL/elements/parse_non_fraction.py:validate_descendant_non_fraction_rules", "brel/parsers/XHMTL/elements/parse_non_numeric.py:parse_non_numeric_fact_element", "brel/parsers/XHMTL/xhtml_parse_facts.py:parse_facts"]}
{"id": "C80", "title": "Rule nodes hold the rules that are written", "statement": "A rule node of a table linkbase is read with its flags, order, selector, id and label as written; its default rule set lists the rules stated directly below it in document order; each tagged rule set is the one of the last element with this tag; every rule is the concept, entity, period or dimension rule that its element states. Only an invalid parent-child order makes the node unreadable. Every kind of rule of the specification is kept, and the aspect of a rule is the aspect that facts have.", "quantifier": "all elements", "why_tests_cant": "rule elements nest and repeat freely; a test shows one combination", "anchors": ["brel/parsers/XML/formula/xml_aspect_formula_parser.py:parse_formula_aspect_element", "brel/parsers/XML/table_linkbase/xml_table_linkbase_parser.py:parse_rule_sets", "brel/parsers/XML/table_linkbase/xml_table_linkbase_parser.py:parse_rule_node_element"]}
{"id": "C81", "title": "Relationship nodes hold their sources, role, axis and generations", "statement": "A relationship node is read exactly if its sources, axis and dimension are allowed; then its sources are the named ones in document order (the root if none is named, for concept relationships), and link role, number of generations, axis and dimension are those last written or the defaults.", "quantifier": "all elements, all sets of report elements", "why_tests_cant": "the children of the node combine freely with each other and with the known report elements", "anchors": ["brel/parsers/XML/table_linkbase/xml_table_linkbase_parser.py:parse_relationship_element", "brel/parsers/XML/table_linkbase/xml_table_linkbase_parser.py:parse_concept_relationship_node_element", "brel/parsers/XML/table_linkbase/xml_table_linkbase_parser.py:parse_dimension_relationship_node_element"]}
{"id": "C82", "title": "Aspect nodes name their aspect", "statement": "An aspect node is read with the aspect it names, its id and label; unreported values are included exactly if the node says so. Any dimension of the filing may be named.", "quantifier": "all elements, all sets of aspects", "why_tests_cant": "tests use one prefix per dimension and only dimensions in use", "anchors": ["brel/parsers/XML/table_linkbase/xml_table_linkbase_parser.py:parse_aspect_node_element"]}
{"id": "C83", "title": "Filters of table linkbases select what is written", "statement": "A filter element is read as the filter by concept names, by dimension or by period that it states, with its id and label; filters are attached to the tables and nodes that their arcs name.", "quantifier": "all elements, all links", "why_tests_cant": "tests would have to cover all combinations of filter elements; that none is ever attached does not show in tests of the single functions", "anchors": ["brel/parsers/XML/formula/xml_filter_parser.py:parse_filter_element", "brel/parsers/XML/formula/xml_filter_parser.py:parse_member_element", "brel/parsers/XML/table_linkbase/xml_table_linkbase_parser.py:parse_table_linkbase_element"]}
{"id": "C84", "title": "The objects of a table link are its children", "statement": "Reading an extended link of a table linkbase gives one object per table, breakdown and node and one arc per arc element, in document order and with what each of them states; only an invalid parent-child order or an arc that cannot be followed makes the link unreadable.", "quantifier": "all links, all sets of report elements and aspects", "why_tests_cant": "a link has any number of children in any order, and one bad child can affect the whole link", "anchors": ["brel/parsers/XML/table_linkbase/xml_table_linkbase_parser.py:parse_table_linkbase_element"]}
{"id": "C85", "title": "A printed network is the outline of its trees", "statement": "pprint_network and pprint_network_node print, after the heading, one line per node in the order of reading, where a bar in a column is drawn exactly if a later line continues that column; from the lines a reader recovers the depth and text of every node, so two networks that print the same lines have the same trees of texts; printing ends exactly if no node is below itself. What is on the console determines the trees only if no text contains a line break.", "quantifier": "for all networks (also shared nodes and cycles), all roots, all texts", "why_tests_cant": "the drawing of a line depends on all lines after it, and injectivity over all networks cannot be sampled", "anchors": ["brel/utils/print_networks.py: __print_sub_network, pprint_network, pprint_network_node"]}
{"id": "C86", "title": "The printed text of a node says what the node is", "statement": "The text of a node that points to a report element determines its weight, the class of the element and its name, and with short weights the classes are aligned. It fails for facts (no text at all), for preferred labels (never used) and for roles that end in the same part.", "quantifier": "for all nodes, weights and names", "why_tests_cant": "injectivity of a formatting function over all names and weights", "anchors": ["brel/utils/print_networks.py: __print_sub_network, tag_lookup, PADDING"]}
{"id": "C87", "title": "A printed table of facts shows every fact and aspect once, in a fixed order", "statement": "pprint_facts shows one column per aspect that occurs in any fact (concept, period, entity, unit, then the others by name) between the columns id and value, and one row per fact in the order of ids, stable for equal or absent ids, where each cell is the characteristic of the fact or None; the result does not depend on the order in which the set of aspects is iterated; it raises ValueError exactly if an aspect is called id or value. pprint_fact shows one row per aspect by name, then the value.", "quantifier": "for all lists of facts and all iteration orders of the set", "why_tests_cant": "independence of the hash seed and of set iteration order is about all runs", "anchors": ["brel/utils/print_facts.py: pprint_facts, pprint_fact, sort_dimensions"]}
{"id": "C88", "title": "The dictionary of a network describes its structure", "statement": "INetwork.convert_to_dict and INetworkNode.convert_to_dict give equal dictionaries exactly if the networks agree in shape, arc roles, arc names, link roles, link names, orders and in the class of what each node points to; they end exactly if no node is below itself. They do not say which report elements the nodes point to, nor weights: different networks have the same dictionary.", "quantifier": "for all pairs of networks", "why_tests_cant": "an equivalence between equality of outputs and a relation on all pairs of inputs", "anchors": ["brel/networks/i_network.py: convert_to_dict", "brel/networks/i_network_node.py: convert_to_dict"]}
{"id": "C89", "title": "A filing is closed: what facts and networks refer to is in the filing", "statement": "Once a filing is read, every fact (also those without an id) has a concept, and that concept, the dimensions and the members of its characteristics are report elements of the filing of the right kind; every node that can be reached in a network points to a report element or fact of the filing of a kind that belongs in that network (only concepts in calculations, report elements in presentations and definitions, facts only in footnotes).", "quantifier": "for all sets of documents that are read without an exception, all orders of the sets, all facts, all reachable nodes", "why_tests_cant": "references cross three stages (schemas, instance, linkbases) and are made by id or name; no set of test filings shows that none dangles", "anchors": ["brel/parsers/filing_parser.py: FilingParser.parse", "brel/parsers/XML/xml_facts_parser.py: parse_facts_xml", "brel/parsers/XML/networks/xml_networks_parser.py: parse_networks_from_xmls", "brel/brel_filing.py: Filing.get_all_facts, Filing.get_all_report_elements"]}
{"id": "C90", "title": "Listing the facts of a filing by reported concept loses and repeats none", "statement": "In a filing that was read, get_all_reported_concepts never fails, lists only concepts of the filing, and get_facts_by_concept on each of them gives lists that together are exactly get_all_facts, each fact once, each under its own concept.", "quantifier": "for all filings that are read", "why_tests_cant": "a statement about all facts of all filings that are read; the lookup fails for facts without a concept, so it needs the invariant of C89", "anchors": ["brel/brel_filing.py: Filing.get_all_reported_concepts, Filing.get_facts_by_concept"]}
{"id": "C91", "title": "A component shows what the links of its role say", "statement": "Each component has the presentation, calculation and logical definition network of its role, which is the only one of that role and kind in the filing, or none exactly if there is none. In these networks a report element occurs, or is below another, only if a link of that role and kind has a locator of it, or an arc from a locator of the one to a locator of the other; conversely, what links without cycles say is in the network. What is reported about components is only that a network of a role is not announced by usedOn.", "quantifier": "for all documents, roles, kinds, report elements, orders of sets", "why_tests_cant": "links of the same role are spread over documents and combined; correctness in both directions is about all ways to spread them", "anchors": ["brel/parsers/XML/networks/xml_networks_parser.py: parse_networks_from_xmls", "brel/parsers/XML/xml_component_parser.py: parse_components_xml", "brel/brel_component.py: Component"]}
{"id": "C92", "title": "A report element of a filing has exactly the labels that its label links give it", "statement": "get_labels of a report element of a filing holds a label exactly if some label link with a role, in any of the documents, has a locator whose fragment is the id of the element (the last element with that id), a label with that text, language and role, and an arc from the locator to the label; get_all_labels has exactly the lines for these.", "quantifier": "for all documents with the usual xlink prefix, all report elements, all labels", "why_tests_cant": "an equivalence over all placements of links, locators and resources in all documents", "anchors": ["brel/brel_filing.py: Filing.get_all_labels", "brel/parsers/XML/networks/xml_networks_parser.py: parse_networks_from_xmls", "brel/resource/brel_label.py: BrelLabel.convert_to_dict"]}
{"id": "C93", "title": "Names find the report elements of a filing", "statement": "The report elements of a filing are those that the schemas declare (the first of each name). get_report_element_by_name and get_concept_by_name return e exactly if e is the only one of the filing (among concepts) that the text means, read as Clark name, prefixed name or local name, whatever order the set of candidates has; otherwise they raise ValueError.", "quantifier": "for all filings whose target namespaces have a prefix at the declarations, all texts, all orders of sets", "why_tests_cant": "the lookup depends on the namespaces of all documents and on set iteration order", "anchors": ["brel/brel_filing.py: Filing.get_report_element_by_name, Filing.get_concept_by_name", "brel/parsers/xml_filing_parser.py: XMLFilingParser.__create_nsmap", "brel/parsers/XML/xml_report_element_parser.py: parse_report_elements_xml"]}
{"id": "C94", "title": "The lists of a filing are consistent with each other", "statement": "get_all_concepts, get_all_abstracts, get_all_line_items, get_all_hypercubes, get_all_dimensions and get_all_members together hold each report element exactly once; no two report elements have the same name; get_all_core_facts are the facts with no aspects but concept, period, entity and unit; the network repository holds each network that was read exactly once and get_all_physical_networks those that are not presentation, calculation or logical definition networks.", "quantifier": "for all filings that are read", "why_tests_cant": "invariants of all filings that can be read", "anchors": ["brel/brel_filing.py: Filing.get_all_concepts, Filing.get_all_abstracts, Filing.get_all_core_facts, Filing.get_all_physical_networks", "brel/data/network/in_memory_network_repository.py: InMemoryNetworkRepository.get_all"]}
{"id": "C95", "title": "If nothing is reported, nothing was dropped", "statement": "The reports of a filing are what was there before, then those about declarations, about facts, about links and about components, each given by the document alone. If there is none, every declaration that says what kind it is has its report element, every fact element has its fact, every extended link has a role and a known kind, all its locators lead to report elements or facts of the filing, its labels and footnotes have a language and no arc is there twice, and every network of a declared role is announced by usedOn.", "quantifier": "for all documents with unique URIs and the usual prefixes, all orders of sets", "why_tests_cant": "the absence of silent loss is about every element of every document", "anchors": ["brel/parsers/filing_parser.py: FilingParser.parse", "brel/parsers/xml_filing_parser.py: XMLFilingParser", "brel/brel_filing.py: Filing.get_all_errors"]}
{"id": "C96", "title": "Reading the same documents twice gives the same filing", "statement": "Two readings of the same documents, in different processes (different hash seeds, so different orders of sets), have the same report elements, facts, namespaces, reports, networks and components, in the same order, and the same labels per report element up to order. Corresponding presentation, calculation and definition networks show the same report elements in the same parent and child relations, whatever the links are like; every network of labels, references, footnotes or of definition links as written has a counterpart of the same kind and role with the same nodes, but for the order of siblings.", "quantifier": "for all documents and all pairs of orders of sets", "why_tests_cant": "hash seeds vary between processes; no test suite enumerates set orders", "anchors": ["brel/parsers/filing_parser.py: FilingParser.parse", "brel/parsers/XML/networks/xml_extended_link_parser.py: parse_xml_link"]}
{"id": "C97", "title": "Problems of XML fact elements are reported exactly, and never stop the reading", "statement": "For every fact element of the XML instances, in document order: an unknown concept, a unit with faulty children or a measure without text, a missing context, period or entity, a date that is no date, a start after the end, an identifier element or scheme that is missing, a dimension or member that is unknown, a missing value and a wrong concept name are each reported once, with the element at fault, and nothing else is reported. A fact element has a fact, with exactly what is written, if and only if its concept, its unit and its context can be read. No such problem ends the reading of the other fact elements.", "quantifier": "for all instance documents, report elements, date readers and nillable concepts", "why_tests_cant": "tests show some faults alone; the claim is about every combination and order of faults, including what the shared repositories of characteristics remember from earlier elements", "anchors": ["brel/parsers/XML/xml_facts_parser.py: parse_facts_xml", "brel/parsers/XML/xml_context_parser.py: parse_context_xml", "brel/parsers/XML/characteristics/xml_parse_period.py: parse_period_from_xml", "brel/parsers/XML/characteristics/xml_parse_unit.py: parse_unit_from_xml", "brel/data/errors/error_repository.py: ErrorRepository.insert"]}
{"id": "C98", "title": "References to roles in inline documents are checked", "statement": "Every roleRef and arcroleRef of the resources of inline documents is checked once, in order: that its link type is simple, that it has an href and a role URI and that these are URIs, and that its role is not empty; what is wrong is reported with the element, and nothing else happens. A reference that is as XLink and XBRL want it is not reported.", "quantifier": "for all headers and all predicates of being a URI", "why_tests_cant": "tests have a handful of references; the claim covers all combinations of attributes and namespaces", "anchors": ["brel/parsers/XHMTL/networks/xhtml_parse_footnote_network.py: parse_role_references, parse_role_reference"]}
{"id": "C99", "title": "All facts of inline documents are read, with their texts", "statement": "Of all instance documents of an inline filing, every nonNumeric and nonFraction element at any depth is read, once and in document order. Each gives a fact of the concept, context and unit it names, or a report that says why there is none. The value of a text is the text of the element and of the continuations that follow from continuedAt, without excluded parts. The filing lists exactly these facts. Comments in the text make no difference.", "quantifier": "for all sets of documents with the prefix ix, all report elements, date readers and orders of sets", "why_tests_cant": "the depth, number and order of elements and the shape of continuation chains are unbounded", "anchors": ["brel/parsers/XHMTL/xhtml_parse_facts.py: parse_facts_xhtml", "brel/parsers/xhtml_filing_parser.py: XHTMLFilingParser.parse_facts", "brel/parsers/XHMTL/elements/parse_continuation_chain.py: create_continuation_chains"]}
{"id": "C100", "title": "An inline filing is otherwise what its schemas and linkbases say", "statement": "For inline filings too: the report elements are those that are declared and are found by their names, every node of a network points to something of the filing, the logical networks show exactly what the links of their role and kind say, labels are those that label links give, components have the networks of their role, and the networks of the filing are those of the links and of the footnotes, each once.", "quantifier": "for all documents read without an exception and all orders of sets", "why_tests_cant": "relates three parsers and five repositories over arbitrary documents", "anchors": ["brel/parsers/filing_parser.py: FilingParser.parse", "brel/parsers/xhtml_filing_parser.py: XHTMLFilingParser", "brel/brel_filing.py: Filing"]}
{"id": "C101", "title": "If nothing is reported about an inline filing, nothing was dropped", "statement": "The reports of an inline filing are what was there before, then in this order those about declarations, headers, references, resources, contexts, units, hidden facts, continuations, facts, references to roles, footnotes, relationships, links and components, each given by the documents alone. If there is none, every declaration has its report element, every fact element its fact, every continuation its own identifier and exactly one text it continues, no continuation lies within the text it continues, every text all its continuations, every footnote an identifier, role and language of its own, every relationship leads from facts to facts or to footnotes that exist, and links are sound.", "quantifier": "for all documents with unique URIs and the usual prefixes, all orders of sets", "why_tests_cant": "the absence of silent loss is about every element of every document", "anchors": ["brel/parsers/XHMTL/xhtml_parse_facts.py: parse_facts_xhtml", "brel/parsers/XHMTL/networks/xhtml_parse_footnote_network.py: parse_footnote_networks_xhtml", "brel/parsers/XHMTL/elements/parse_continuation_chain.py: create_continuation_chains"]}
{"id": "C102", "title": "Footnotes of inline documents and their networks are those the documents have", "statement": "Every footnote element with an identifier becomes the footnote with that identifier, with its role or else the standard role, its language or that around it, its title, and the content of the element and its continuations; there are no others. The relationships of one link role and arc role make one network of the facts and footnotes they refer to. A relationship without an order has order 1.", "quantifier": "for all inline documents, all orders of sets and all readings of numbers", "why_tests_cant": "documents, chains and relationships are unbounded, and languages are inherited from any depth", "anchors": ["brel/parsers/XHMTL/networks/xhtml_parse_footnote_network.py: parse_footnote_networks_xhtml, parse_footnote, parse_relationship", "brel/networks/footnote_network.py: FootnoteNetwork"]}
{"id": "C103", "title": "Reading the same inline documents twice gives the same filing", "statement": "Two readings of the same documents, with different orders of sets, have the same report elements, facts with values and contexts, footnotes, networks of footnotes with the same role and roots, namespaces, networks and components, the same labels up to order, and reports of the same kinds about the same elements, in the same order. Networks of links have the same content.", "quantifier": "for all documents and all pairs of orders of sets", "why_tests_cant": "hash seeds vary between processes; no test suite enumerates set orders", "anchors": ["brel/parsers/filing_parser.py: FilingParser.parse", "brel/parsers/XHMTL/elements/parse_continuation_chain.py: create_continuation_chains", "brel/parsers/XHMTL/networks/xhtml_parse_footnote_network.py: parse_footnote_networks_xhtml"]}
{"id": "C104", "title": "Problems of inline contexts and units are reported exactly", "statement": "For inline documents that can be opened, what is recorded about the xbrli:context and xbrli:unit elements of the resources is exactly, in document order and contexts first: an identifier that an ix:references, context or unit element before has used; a missing period or entity; a date that is no date, a start after the end; a missing identifier element or scheme; unknown dimensions and members, typed members with no child, several children or no text; units without one child, with an unknown child, divisions without two parts, measures without text. Each problem is reported once. If nothing is reported every context has a period with proper dates and an identified entity.", "quantifier": "for all inline documents, report elements and date readers", "why_tests_cant": "which reports appear depends on identifiers of all elements before and on caches of characteristics read earlier", "anchors": ["brel/parsers/XHMTL/xhtml_parse_facts.py:parse_contexts", "brel/parsers/XHMTL/xhtml_parse_facts.py:parse_units", "brel/parsers/XML/xml_context_parser.py:parse_context_xml", "brel/parsers/XML/characteristics/xml_parse_unit.py:parse_unit_from_xml"]}
{"id": "C105", "title": "Which inline documents can be read to their end", "statement": "Reading the facts of inline documents ends without exception if and only if: the headers, references, resources and hidden elements have no fatal fault (a comment or an illegal child), every context and unit has an identifier, every context has only explicit members with a dimension and typed members with a known dimension, every division has two different parts with measures, the continuation chains can be followed, and no number or text element that names a concept and a context has a fatal fault. No other fault, and no fault of elements that become no fact, stops the reading.", "quantifier": "for all inline documents that use the prefix ix for their facts, all report elements, date readers and continuation readers", "why_tests_cant": "an equivalence: tests show single documents that open or fail, not that these are all the reasons", "anchors": ["brel/parsers/XHMTL/xhtml_parse_facts.py:parse_facts_xhtml", "brel/parsers/XHMTL/xhtml_parse_facts.py:parse_contexts", "brel/parsers/XHMTL/xhtml_parse_facts.py:parse_units"]}
{"id": "C106", "title": "Which XML filings can be read to their end", "statement": "Whatever the orders of sets, reading the loaded documents of an XML filing ends without exception if and only if: every declaration has a name that can be resolved and every dimension that is the first of its name has a domain that can be told; every fact element has no fatal fault (its context is there, dates fail only by not being dates, members name their dimension and typed members a known one, divisions have measures); every extended link with a role is complete (its locators, resources and arcs have the attributes needed) and leads only to what belongs in a network of its kind (label links: only report elements and labels, each label with an arc to it); in presentations, calculations and definitions no link that comes after another of its role with a beginning has arcs that lead, from where one comes to, back to the same place; every role type has a roleURI and knows the prefix link. All other faults are reported and do no harm.", "quantifier": "for all loaded documents without table linkbases that bind the usual prefixes, all earlier errors, date readers, orders of sets", "why_tests_cant": "an equivalence over all documents; tests show single filings that open or fail. That arcs in a circle do no harm in the first link of a role but make the reading endless in a later one depends on the order in which links are read", "anchors": ["brel/parsers/filing_parser.py:FilingParser", "brel/parsers/xml_filing_parser.py:XMLFilingParser", "brel/parsers/XML/networks/xml_networks_parser.py:parse_networks_from_xmls", "brel/parsers/XML/networks/xml_extended_link_parser.py:parse_xml_link", "brel/parsers/XML/xml_report_element_parser.py:parse_report_elements_xml", "brel/parsers/XML/xml_component_parser.py:parse_components_xml"]}
{"id": "C107", "title": "Which relationships of footnotes can be read", "statement": "Reading the ix:relationship elements of an inline filing ends without exception if and only if each has an order attribute that is a number and, for every pair of link role and arc role (missing or wrong ones count as the default), each relationship begins with facts or with what another of the pair leads to, leads only to footnotes or facts whose text is a boolean, and, if it both begins and leads somewhere, leads only to footnotes and true facts and begins, where others lead to its beginning, with footnotes or true facts. There is then one network for each pair that occurs, whose link role is the arc role of the pair; in it are exactly the facts that relationships begin with and nothing leads to, and the footnotes and true facts that are led to. Faults of references that are reported still stop the reading.", "quantifier": "for all relationships, footnotes, facts, orders of iteration of sets, readers of numbers and checks of URIs", "why_tests_cant": "an equivalence over all sets of relationships; nodes are made in one pass and connected in another, so whether a reference can be resolved depends on all other relationships of the same roles", "anchors": ["brel/parsers/XHMTL/networks/xhtml_parse_footnote_network.py:parse_relationships", "brel/parsers/XHMTL/networks/xhtml_parse_footnote_network.py:create_footnote_network_nodes", "brel/brel_fact.py:Fact.__bool__"]}
{"id": "C108", "title": "Which inline filings can be read to their end", "statement": "Whatever the orders of sets, reading the loaded documents of an inline filing ends without exception if and only if: every declaration can be read (as in C106); the headers, references, resources and hidden parts have no fatal fault; every context and unit has an identifier and can be read; the chain of continuations of every text and every footnote comes to an end (it may break off, but not run in a circle); no number or text element that names a concept and a context has a fatal fault (such as a comment within the text); no footnote with an identifier has a comment within its text; the relationships can be read (as in C107, with the footnotes and the values of the facts of this filing); every extended link with a role can be read (as in C106, with the facts of this filing); every role type has a roleURI and knows the prefix link. All other faults are reported and do no harm.", "quantifier": "for all loaded documents without table linkbases that bind the usual prefixes and whose fact elements are ix:nonNumeric or ix:nonFraction, all earlier errors, date and number readers, transformation checks, orders of sets", "why_tests_cant": "an equivalence over all documents; whether one part can be read depends on others (footnotes on continuations, relationships on the values of facts, facts on contexts and declarations), and a circle of continuations never ends, which no test can see", "anchors": ["brel/parsers/filing_parser.py:FilingParser", "brel/parsers/xhtml_filing_parser.py:XHTMLFilingParser", "brel/parsers/XHMTL/xhtml_parse_facts.py:parse_facts_xhtml", "brel/parsers/XHMTL/networks/xhtml_parse_footnote_network.py: parse_footnote_networks_xhtml"]}
{"id": "C109", "title": "The order in which documents are found makes no difference to a filing", "statement": "Opening the same documents in another order (the references of a document are kept in a set, and directories are listed in any order) loads the same documents, succeeds or fails alike, and gives the same filing: the same report elements with everything declared of them, the same facts, components and labels, and networks of the same roles and kinds that show the same report elements one below another.", "quantifier": "for all loaded documents of XML and inline filings and all permutations of them; for all worlds of references, orders of sets and orders of entry points", "why_tests_cant": "hash randomisation and the file system choose the order anew in every process; a test sees one of n! orders, and equality of outcomes under every reordering relates two runs", "anchors": ["brel/services/xml/xml_service.py:XMLService.add_etree_recursive", "brel/parsers/path_loaders/folder_path_loader.py:FolderPathLoader.load", "brel/parsers/filing_parser.py:FilingParser.parse", "brel/parsers/xml_filing_parser.py:XMLFilingParser", "brel/parsers/XML/xml_report_element_parser.py:parse_report_elements_xml", "brel/brel_filing.py:Filing.open"]}
{"id": "C110", "title": "A filing that was opened once opens again from the cache alone", "statement": "After a filing has been opened successfully, opening the same path again with the kept cache gives the same filing, even if meanwhile no document can be fetched from the web and no file except the given ones can be read from disk; nothing is added to the cache by it. In a session in which sets have another order, the same documents are found.", "quantifier": "for all worlds of documents and references, paths, catalogs, cache contents, libraries and set orders", "why_tests_cant": "relates two runs of the whole opening of a filing, over all reference graphs and all contents of the cache; the cache of a test is either empty or full of other tests' documents", "anchors": ["brel/brel_filing.py:Filing.open", "brel/services/file/file_service.py:FileService", "brel/parsers/utils/file_utils.py:uri_to_filename", "brel/services/xml/xml_service.py:XMLService.get_etree", "brel/services/xml/xml_service.py:XMLService.add_etree_recursive"]}
{"id": "C111", "title": "Opening a path reads all documents that can be reached from it and no others", "statement": "What Filing.open returns for a path is what is written in the documents that can be reached from the entry points of the path by references: every report element is declared in one of them and every declaration of them makes a report element of that name, id and kind; every fact is written in one of them and every complete fact element of them gives a fact; if one of them cannot be read, opening fails.", "quantifier": "for all paths, file systems, catalogs, worlds of documents and references, set orders and libraries", "why_tests_cant": "quantifies over all reference graphs between documents and all their contents, from the path given to open to the lists of the filing", "anchors": ["brel/brel_filing.py:Filing.open", "brel/parsers/filing_parser.py:FilingParser.parse", "brel/parsers/filing_parser_factory.py", "brel/services/xml/xml_service.py:XMLService.add_etree_recursive", "brel/parsers/XML/xml_report_element_parser.py:parse_report_elements_xml", "brel/parsers/XML/xml_facts_parser.py"]}
{"id": "C112", "title": "An opening that fails does not spoil the cache", "statement": "If opening a path fails because documents cannot be fetched or for any other reason, the cache keeps what it had and otherwise contains only whole texts of documents under their own names; opening the path again once more documents can be fetched gives the filing, or raises the exception, and leaves the cache, that opening would have given if these documents could have been fetched the first time.", "quantifier": "for all paths, file systems, catalogs, cache contents, worlds of documents and references, points of failure, libraries and set orders", "why_tests_cant": "the session can break off at any document of any reference graph; the property compares the run after it with a run that never happened", "anchors": ["brel/brel_filing.py:Filing.open", "brel/services/file/file_service.py:FileService.download_and_add_file", "brel/services/file/file_service.py:FileService.copy_and_add_file", "brel/services/xml/xml_service.py:XMLService.add_etree_recursive", "brel/data/file/pyfs_file_repository.py:PyFsFileRepository"]}
{"id": "C113", "title": "pprint shows every object it is given as if it were printed alone", "statement": "pprint of a component prints its URI, its description and, in the order presentation, calculation, definition, the outline of every network it has (or a notice if it has none); it ends exactly if its texts are acceptable markup and no node is below itself. pprint of a list prints its objects in turn: facts as one table, components one after the other, and nothing is printed for what cannot be printed as a whole: an object or list that is not supported raises TypeError with nothing printed. It fails for lists of networks or nodes (rejected though each alone is printed), for lists that mix components with other objects (the components before are printed, then an AttributeError), for lists that begin with a fact (AttributeError instead of TypeError), for a description that is no valid rich markup (breaks off after the first line) and for tables (an empty line).", "quantifier": "for all objects and lists of objects, all networks (also circular ones), all texts and all markup readers, all iteration orders of sets", "why_tests_cant": "which prefix of the output is on the console when a call fails ranges over all lists and networks; completeness of a printed component is about all networks", "anchors": ["brel/utils/pprint.py: pprint", "brel/utils/print_component.py: pprint_component", "brel/utils/print_table.py: pprint_definition_table", "brel/brel_component.py: Component.get_networks"]}
{"id": "C114", "title": "== on the objects of a report says whether they state the same", "statement": "== on concepts, report elements, aspects, characteristics, contexts and facts is an equivalence, never holds between different classes, and holds for objects of one filing exactly if they state the same: same name, same entity and scheme, same dates, same dimension and member or value, same measures, same concept, same characteristics. Equal objects have equal hashes; set(l) and dict keys keep one of each. x in l holds exactly if an equal object is in l. It fails for contexts (compared by id only: all facts with one contextRef have equal contexts whatever their concepts and units; contexts with the same characteristics and other ids differ), units (compared by name only), concept characteristics (compared by identity), entities whose scheme has a closing brace, dimensions of different filings, and sets of concepts, contexts and most characteristics (TypeError, since they define __eq__ and no __hash__).", "quantifier": "for all objects, all texts, all lists of objects, all hash functions of strings and addresses", "why_tests_cant": "equivalence and agreement with meaning quantify over all pairs and triples of objects; hash agreement over all hash functions", "anchors": ["brel/brel_context.py: Context.__eq__", "brel/reportelements/concept.py: Concept.__eq__", "brel/characteristics/brel_aspect.py: Aspect.__eq__, Aspect.__hash__", "brel/characteristics/unit_characteristic.py: UnitCharacteristic.__eq__", "brel/characteristics/entity_characteristic.py: EntityCharacteristic.__eq__", "brel/characteristics/period_characteristic.py: PeriodCharacteristic.__eq__", "brel/characteristics/explicit_dimension_characteristic.py: ExplicitDimensionCharacteristic.__eq__", "brel/characteristics/typed_dimension_characteristic.py: TypedDimensionCharacteristic.__eq__"]}
{"id": "C115", "title": "The arc roles of a network are those of its arcs", "statement": "For every network read from a link, get_arc_roles() lists each arc role that its nodes have exactly once, and ends unless a node is below itself. In networks of labels, references, footnotes and physical definition networks it is the one role of the network. In presentation, calculation and logical definition networks it lists exactly the roles of the arcs in the link. The last part fails if arcs of two roles lead to one report element (only the first is listed) and for report elements without arcs (the role 'unknown' is listed).", "quantifier": "for all links: all lists of arcs and locators, all iteration orders of the sets of edges and roots", "why_tests_cant": "completeness of the list is about all links; the iteration orders of sets differ between runs", "anchors": ["brel/networks/i_network.py: INetwork.get_arc_roles, INetwork.get_all_nodes", "brel/parsers/XML/networks/xml_extended_link_parser.py: parse_xml_link", "brel/parsers/XML/networks/xml_presentation_network_factory.py: PresentationNetworkFactory.create_node"]}
{"id": "C116", "title": "The consistency checks of a filing's calculation networks say what its documents say", "statement": "For every filing that was read: is_balance_consistent() of a calculation network answers True exactly if every concept shown has a balance in its declaration and every concept below another of the same balance comes with a weight that is not negative, one of the other balance with a weight that is not positive; the weight is the one written on an arc of a calculation link of the role that leads to a locator of the concept. is_aggregation_consistent(filing.get_all_facts()) answers True exactly if every fact for a concept at a root, or below a concept with facts, is the sum of the facts below it with the same characteristics. If all calculation networks of a role are found consistent, all concepts that the links of the role put below each other have balances.", "quantifier": "for all sets of documents that can be read, all roles and networks, all iteration orders of sets, all arithmetics of floats", "why_tests_cant": "that a True says something about every declaration, arc and fact of the documents quantifies over all documents; a check that looks at the wrong declaration or arc agrees on most samples", "anchors": ["brel/networks/calculation_network.py: CalculationNetwork.is_balance_consistent, CalculationNetwork.is_aggregation_consistent", "brel/networks/calculation_network_node.py: CalculationNetworkNode.get_concept, get_weight", "brel/reportelements/concept.py: Concept.get_balance_type", "brel/brel_filing.py: Filing.get_all_facts", "brel/parsers/xml_filing_parser.py: XMLFilingParser"]}
{"id": "C117", "title": "Order, weight and preferred label of a node are those written on an arc", "statement": "For every filing that was read and every presentation, calculation and definition network (of the logical kind) of it: order, weight and preferred label of each node are those written on an arc of a link of the network's role and kind that leads to a locator of the node's report element, also if the network was combined from several links; without the attribute they are 1 (0 in definition networks), 0 and the standard label role. Orders of definition networks are rounded to the nearest whole number, ties to even. Nodes that no arc leads to have order 1 (0), weight 0 and no preferred label. A node below another always has the attributes of an arc. The last part fails if a link has an arc from a locator to itself: it hides the others.", "quantifier": "for all sets of documents that can be read, all roles, kinds, networks and nodes, all iteration orders of sets", "why_tests_cant": "that combining networks never mixes attributes of links is about all documents and orders of sets; a weight of another link would show only in particular combinations", "anchors": ["brel/parsers/XML/networks/xml_extended_link_parser.py: parse_xml_link", "brel/parsers/XML/networks/xml_calculation_network_factory.py: CalculationNetworkFactory.create_node", "brel/parsers/XML/networks/xml_presentation_network_factory.py: PresentationNetworkFactory.create_node", "brel/parsers/XML/networks/xml_definition_network_factory.py: LogicalDefinitionNetworkFactory.create_node", "brel/parsers/utils/network_utils.py: combine_networks"]}
{"id": "C118", "title": "Arc roles of a filing's networks are written on arcs of its documents", "statement": "For every filing that was read: get_arc_role() of a node of a presentation, calculation or (logical) definition network is the arc role written on an arc, in a link of the network's role and kind, that leads to a locator of the node's report element; if no arc leads there, that of an arc from it; 'unknown' only if there is no arc at either end. For a node below another it is always that of an arc leading to it. Whatever get_arc_roles() of a network of any kind lists is written on an arc of such a link or is 'unknown'. All nodes of a physical network have one arc role. This holds also if the network was combined from several links.", "quantifier": "for all sets of documents whose links bind the prefix xlink to XLink, all orders of sets and all nodes of all networks", "why_tests_cant": "number, nesting and order of links and arcs, and how many links a network is combined from, are unbounded, and sets are iterated in any order", "anchors": ["brel/networks/i_network.py: INetwork.get_arc_roles", "brel/networks/i_network_node.py: INetworkNode.get_arc_role", "brel/parsers/XML/networks/xml_extended_link_parser.py: XMLExtendedLinkParser", "brel/parsers/XML/networks/xml_networks_parser.py: parse_networks_from_xmls"]}
{"id": "C119", "title": "The aspects of a fact are what their names say", "statement": "For every filing that was read, XML or inline, and every fact of it: get_characteristic(aspect) gives a concept just for Aspect.CONCEPT, a period just for Aspect.PERIOD, an entity just for Aspect.ENTITY and a unit just for Aspect.UNIT; for any other aspect it gives a dimension characteristic whose dimension has the name of the aspect, written with prefix or in Clark notation. get_aspects() lists just the aspects for which there is a characteristic. Every fact has a concept. No dimension, whatever it is called and wherever its namespace is the default one, takes the place of one of the four.", "quantifier": "for all sets of documents that can be read (inline facts with the prefix ix), all facts, aspects, date readers and orders of sets", "why_tests_cant": "Contexts drop a characteristic if one with the same aspect name is there already, in an order that differs between XML and inline reading; a test with some names of dimensions cannot show that no name collides with the four built-in ones.", "anchors": ["brel/brel_context.py: Context._add_characteristic, get_characteristic, get_aspects", "brel/characteristics/brel_aspect.py: Aspect.__eq__, Aspect.CONCEPT", "brel/parsers/XML/characteristics/xml_parse_explicit_dimension.py: parse_explicit_dimension_from_xml", "brel/parsers/XML/characteristics/xml_parse_typed_dimension.py", "brel/qnames/qname_utils.py: qname_from_str"]}
{"id": "C120", "title": "The arc name of a network is the name of its arcs", "statement": "get_arc_name() of a network built from an extended link gives the name of the arc elements of the link: always the name of an arc that starts at a root of the network, so the name of all arcs if they have one name and every locator has an arc. It is link:unknown only if a root has no arc. The documented 'all arcs in the network have the same arc name' is not checked: names of arcs further down may differ, and with a locator without arcs the answer depends on the iteration order of a set. Networks of footnotes always answer link:unknown. get_arc_name() of a node below another is the name of an arc that leads to it.", "quantifier": "for all extended links with any number of arcs, locators and names, and all iteration orders of the set of roots", "why_tests_cant": "links are unbounded; iteration orders of sets differ between runs", "anchors": ["brel/networks/i_network.py:INetwork.get_arc_name", "brel/parsers/XML/networks/xml_extended_link_parser.py:parse_xml_link", "brel/parsers/XML/networks/xml_calculation_network_factory.py:CalculationNetworkFactory.create_node", "brel/parsers/XML/networks/xml_footnote_network_factory.py:create_node"]}
{"id": "C121", "title": "points_to says which accessor of a node answers", "statement": "For every node of every network of a filing, points_to() answers 'report element', 'resource' or 'fact'; get_report_element(), get_resource() or get_fact(), respectively, gives the object the node was made for, and the other two raise ValueError. points_to() itself never raises.", "quantifier": "for all extended links and all XML and inline filings whose links use the usual prefix of xlink", "why_tests_cant": "every kind of network, every kind of object behind a locator, before and after networks are combined", "anchors": ["brel/networks/i_network_node.py:INetworkNode.points_to", "brel/networks/footnote_network_node.py:FootnoteNetworkNode.get_fact", "brel/networks/label_network_node.py:LabelNetworkNode.get_resource", "brel/parsers/XML/networks/xml_label_network_factory.py:create_node"]}
{"id": "C122", "title": "Every network of a filing has a root", "statement": "Every network of a filing, of any kind and combined or not, has at least one root node, as its documentation says. get_root() gives the root if there is just one, and then every node of the network is below it; with several roots it raises ValueError, and it never raises anything else.", "quantifier": "for all XML and inline filings whose links use the usual prefix of xlink", "why_tests_cant": "unbounded links; networks are combined in orders that differ between runs; links whose arcs go in circles have no root and must not become networks", "anchors": ["brel/networks/i_network.py:INetwork.get_root", "brel/networks/i_network.py:INetwork.get_roots", "brel/parsers/XML/networks/xml_extended_link_parser.py:parse_xml_link", "brel/parsers/utils/network_utils.py:combine_networks"]}
