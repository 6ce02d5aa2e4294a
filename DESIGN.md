# Formal model of brel in Rocq (Coq 8.16.1)

The plan of the first twenty properties and the method come first; the trusted base, what is modelled, what is not
and the findings follow. Statuses are in `MANIFEST.json`.

## Method

* `/repo` is read as text only. Each Python function becomes a total Gallina function with the same branches;
  exceptions are values (`Raise e`), error recording is an explicit error list, mutation returns the new state.
* Strings are lists of Unicode code points (`str := list N`), literals are written in UTF-8 and decoded by `u`.
* Tables of the transformation registry (regular expressions, month names, legacy names) are generated from the
  source text by `tools/gen_registry.py`, which only parses the text (Python `ast`), it does not import or run it.
* Regular expressions are run by a small backtracking matcher with capture groups (`Regex.v`), the semantics of
  Python's `re` for the constructs that occur.
* External calls (file system, network, lxml, dateutil, convertdate) are function arguments.
* Layout per area `X`: `XModel.v` (model, with source citations), `XSpec.v` (independent specification),
  `XProofs.v` (proofs), `XProps.v` (the property theorems, each closed by a lemma, with an example
  that its hypotheses are satisfiable and `Print Assumptions`).
* A property that is false of the code is kept at full strength in `properties.jsonl`; the development then has a
  `_refuted` theorem with a witness, and a theorem for the exact domain on which it does hold.

## Plan per property

| id | model | proof |
|---|---|---|
| C01 | `apply_scale` on digit lists | value function into Q / integers with exponent, case analysis on lengths |
| C02, C03, C04, C05, C06, C07 | `Regex` + number pipeline | characterise the match of the two-group patterns; value and canonical form lemmas; refutation for zero |
| C08 | `process_non_fraction_value` | case analysis, reuse of C02..C06 |
| C09, C11, C12, C13 | date pipeline over generated regexes | symbolic matching lemmas for the numeric formats; calendar spec; refutations by computation |
| C10 | generated tables | finite sweep over all spellings of the patterns lifted with `forallb_forall` |
| C14 | XML trees with text/tail; extraction | induction on trees against a document-order text spec |
| C15 | chain builder with fuel | acyclic => terminates with the spec chain; cyclic => every fuel is exhausted |
| C16 | replacements on strings | left inverse |
| C17 | append + stable sort | invariant by induction over additions |
| C18 | worklist with fuel on finite graphs | reachability; measure on acyclic graphs |
| C19, C20, C21 | two-pass link parser | edge-set equality with the arc list; refutation with an element under two parents |
| C22 | `combine_networks` on trees | induction |
| C23, C24 | recursive checks on trees | equivalence with an edge/subtree quantified spec |
| C25, C26 | context and fact records | invariants by induction over additions |
| C27, C33, C42, C43, C49 | repositories and filing queries | refinement to lists/maps |
| C28, C31 | language and parameter selection | list lemmas |
| C29, C30 | translation, main label | first-match specs |
| C32 | QName text conversions | regex-free string lemmas |
| C34 | namespace normaliser | invariant over the folding of bindings |
| C35 | recursive loader with visited set | reachability, termination measure |
| C36, C37 | URI helpers | refutation / first-match spec |
| C38, C39, C40, C41 | characteristic parsers with caches | invariant over parse sequences; refutations |
| C44 | footnote network builder | case analysis |
| C45 | table definition trees | induction |
| C46, C47 | concept type lists, concept parser | finite sweeps, case analysis |
| C48 | fact parser | case analysis per element, induction over documents |
| C50 | edgar selection | stable descending sort spec |

C51 to C79 and later extend the areas above; the files are listed under "What is modelled".

## Trusted base

* **Coq's kernel** (8.16.1) with the `vm_compute` conversion machine, which is part of it. No `native_compute`.
* **Assumptions.** Every `XProps.v` ends with `Print Assumptions` for each theorem; each of them prints
  "Closed under the global context": no axiom is used, neither of the standard library nor of this development.
  A listing of the axioms *in the loaded modules* (`coqchk -o`, `vcheck`) names seven of `Coq.ssr.ssrunder.Under_rel`;
  they are the functor parameters of a module of the standard library that is loaded with Ltac's `ssr` files, and no
  theorem depends on them.
* **The reading of the source.** The models were written by hand from the text of `/repo`; nothing checks them against
  running code. The exceptions are the generated tables: `Registry.v` (regular expressions, month names, legacy names)
  by `tools/gen_registry.py`, and `ErrTable.v` (error codes, error registry, all places that record an error) by
  `tools/gen_errors.py`. Both parse the Python text with `ast` and are trusted to copy it faithfully.
* **Semantics of Python and libraries that the models build in**: `re.match` for the constructs that occur
  (`Regex.v`), `int()` on strings and the decimal digits of Unicode (`PyNum.v`), `str` methods (`Base.v`), dictionaries
  as insertion-ordered association lists, `list.sort` as stable insertion sort, `lxml` elements as trees
  (`CtxModel.xml`, `TextModel`), comments having a tag that is no text.
* **Parameters.** What is outside brel is a function argument over which the theorems quantify, so that nothing is
  assumed of it unless a hypothesis says so: `dateutil.parser.parse`, `float()` and float arithmetic, `str.lower`,
  `urljoin`/`urlparse`, the file system, archives, the network, the XML parsers, `str()` of objects that show a memory
  address, and the order in which Python iterates sets.

## What is modelled

Each definition carries the file and lines it models, each `XModel.v` begins with its simplifications.

| model | code | properties |
|---|---|---|
| `NumModel`, `DateModel` (+ `Registry`, `Regex`, `PyNum`) | `parsers/XHMTL/xhtml_parse_transformation_registry.py`, number part of `elements/parse_non_fraction.py` | C01-C13 |
| `TextModel` | `elements/parse_continuation_chain.py`, content part of `elements/parse_non_numeric.py` | C14-C16 |
| `NetModel` | `networks/*_node.py`, `networks/i_network.py`, passes of `xml_extended_link_parser.py`, the six `xml_*_network_factory.py`, `network_utils.py`; the arc roles a network lists are in `ArcRoleProps`, its arc name in `ArcNameProps`, the accessors of nodes in `NodePointsProps` | C17-C22, C115, C120-C122 |
| `CalcModel` | `networks/calculation_network.py` | C23, C24, C116 |
| `CtxModel` | `brel_context.py`, `brel_fact.py`, `characteristics/`, `parsers/XML/characteristics/`, `xml_context_parser.py`, `xml_facts_parser.py`, repositories of facts, characteristics, aspects | C25-C27, C38-C41, C48, C97 |
| `LangModel` | language lists, `brel_config.py`, `translation_service.py`, labels of elements and aspects, data-frame rows | C28-C31, C52, C53 |
| `QNameModel` | `qnames/`, `report_element_service.py`, report element and namespace repositories, `xml_namespace_normalizer.py` | C32-C34, C58 |
| `DtsModel` | `xml_service.py`, `file_service.py`, file and XML repositories, URI rewriting, catalogs | C35-C37, C54, C55, C71 |
| `ErrModel` (+ `ErrTable`) | `errors/`, error repository, error getters | C42, C43, C51 |
| `FootModel` | `xhtml_parse_footnote_network.py:80-370` | C44, C63, C107 |
| `TableModel` | structure of `table_linkbases/` and `xml_table_linkbase_parser.py` | C45, C59 |
| `RuleModel` | `formula/`, `parsers/XML/formula/`, contents of nodes in `xml_table_linkbase_parser.py`, `definition_model/` | C80-C84 |
| `PrintModel` | `utils/print_networks.py`, `utils/print_facts.py`, `convert_to_dict` of networks and nodes | C85-C88 |
| `PPrintModel` | `utils/pprint.py`, `utils/print_component.py`, `utils/print_table.py` | C113 |
| `EqModel` | the `__eq__` and `__hash__` of `brel_context.py`, `reportelements/concept.py`, `characteristics/` | C114 |
| `FilingModel` | `parsers/filing_parser.py`, `parsers/xml_filing_parser.py`, the getters of `brel_filing.py`: the stages of reading put together | C89-C96, C106, C116-C119 |
| `ConceptModel` | `reportelements/concept.py`, `dimension.py`, `xml_report_element_factory.py`, `xml_report_element_parser.py` | C46, C47, C56-C58 |
| `CompModel` | `brel_component.py`, `xml_component_parser.py`, component and network repositories, filing queries | C49, C60 |
| `EdgarModel` | `utils/edgar.py` | C50, C61 |
| `ValueModel` | typed values of `brel_fact.py` | C62 |
| `InlineModel` | `xhtml_parse_facts.py`, `elements/parse_*.py`, context repository | C64-C67, C79, C104, C105 |
| `InlineFilingModel` | `xhtml_filing_parser.py`, `xhtml_parse_footnote_network.py:29-77, 373-449`, the stages of reading an inline filing put together | C98-C103, C108, C116-C119 |
| `OpenModel` | `Filing.open`, `path_loaders/`, `filing_parser_factory.py` | C68-C70 |
| `OpenFilingModel` | `Filing.open` from the path to the filing read (loader, catalog, cache, documents, parser) | C110, C111, C71 |
| `SessionModel` | what a session leaves in the cache directory, whether opening succeeds or fails | C112 |
| `LinkModel` | `xml_networks_parser.py`, `xml_extended_link_parser.py`, `xml_resource_parser.py`, `xml_label_network_factory.py` | C72-C78 |

Proof files without a model of their own: `FilingStages` and `LinkFrame` (what follows from the way a filing is put
together, for XML and inline filings), `OrderProofs`, `InlineOrderProofs` (documents in another order, C109), `CacheProofs` (opening again from the cache, C110), `InlineFrame` (reading after other errors), `InlineFootProofs`, `InlineContProofs`
(footnotes, continuations), `InlineSameProofs` (two readings), `ConceptOpen`, `CombineOpenProofs`, `LinkCombineProofs`,
`LinkReadProofs`, `FilingOpenProofs` (which declarations, networks, links and filings can be read to their end), `InlineOrderOpenProps`
(opening inline documents in another order), `NamesProps` (which name a text stands for), `ShownProps` (dates and texts shown),
`ReferProps` (where a reference leads), `NumberProps` (accuracy, numbers without a format), `SearchProps` (which elements a search finds),
`TableOpenProps` (which table linkbases can be read), `FindProps` (which child or declaration is looked up).

## What is not modelled

* What `rich` makes of markup (colours, styles), borders and alignment of printed tables.
* `contexts/factory.py`, `data/factory.py`, `services/factory.py`: object wiring only.
* The comparisons of the sort in `combine_networks`, whose result is dropped: they fail for networks with circles, and
  which networks are compared is a matter of CPython's sort (see `NetModel.combine_networks`).
* CPython's recursion limit for recursions that end, memory, time, concurrency.
* Encodings: files are texts, decoded once.

## Findings

Where the code does not do what its documentation or XBRL says, the property is kept at full strength in
`properties.jsonl`, refuted by a theorem with a concrete input (`…_refuted`), and its status is `partial`; the theorems
beside it give the exact behaviour or the domain on which it holds. The note of each claim in `MANIFEST.json` names the
finding in one sentence; `grep -h "Theorem .*_refuted" rocq/theories/*.v` lists all of them.

## Testing the theorems

`seeded/mutants*.py` hold lists of wrong programs: edits of the models that a programmer could make by mistake.
`tools/mutate.py` applies each in a scratch copy and rebuilds; `seeded/LOG.jsonl` records the outcome of each, which
theorems failed, and which were tightened because they did not.
