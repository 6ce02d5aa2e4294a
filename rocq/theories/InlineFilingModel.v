(** Model of reading a whole inline filing: brel/parsers/xhtml_filing_parser.py (XP),
    brel/parsers/XHMTL/networks/xhtml_parse_footnote_network.py (FN) and
    brel/parsers/XHMTL/xhtml_parse_facts.py (PF).  Documents are trees with tails, from which what
    the parts (InlineModel, TextModel, FootModel, FilingModel) see is derived.

    Simplifications:
    - [etree.tostring] is the parameter [tostring]; it sees prefixes, not namespaces;
    - an element whose tag has a namespace without prefix in scope stops the reading of a text like a
      comment (with a TypeError);
    - elements are known by their position in document order;
    - the footnotes and relationships are given to FootModel as the texts of their attributes; what
      FootModel reports about one is reported about its element;
    - the networks of footnotes are known to components by numbers after those of the links;
    - see the models of the parts for what is simplified there. *)
From Coq Require Import QArith.
From Verif Require Import Base QNameModel ErrBase ErrTable ErrModel NumModel DateModel CtxModel InlineModel.
From Verif Require TextModel FootModel NetModel LinkModel ConceptModel CompModel FilingModel.
Local Open Scope nat_scope.

(** ** Documents *)

(** An element of lxml with its tail; the tag of a comment is [None]. *)
Inductive tree := Tree (tag : option str) (attrs : list (str * str)) (sc : scope) (text : option str) (kids : list tree) (tail : option str).
Definition t_tag (t : tree) := let 'Tree a _ _ _ _ _ := t in a.
Definition t_scope (t : tree) := let 'Tree _ _ c _ _ _ := t in c.
Definition t_kids (t : tree) := let 'Tree _ _ _ _ k _ := t in k.
Definition t_tail (t : tree) := let 'Tree _ _ _ _ _ l := t in l.

(** The element as CtxModel and InlineModel see it: without tails *)
Fixpoint plain (t : tree) : xml :=
  let 'Tree tag attrs sc text kids _ := t in Xml tag attrs sc text (map plain kids).

(** The element as TextModel sees it: with its prefix *)
Fixpoint marked (t : tree) : TextModel.xml :=
  let 'Tree tag attrs sc text kids tail := t in
  match tag_name (Xml tag attrs sc None []) with
  | Ok name => TextModel.Node false name attrs text (map marked kids) tail
  | Raise _ => TextModel.Node true [] attrs text (map marked kids) tail
  end.

(** The elements below an element in document order, with those around them *)
Fixpoint below (above : list tree) (t : tree) : list (tree * list tree) :=
  let 'Tree _ _ _ _ kids _ := t in
  flat_map (fun k => (k, t :: above) :: below (t :: above) k) kids.

(** An element of the documents: its number, itself, and those around it *)
Record place := Place { p_key : nat; p_tree : tree; p_above : list tree }.
Definition p_xml (p : place) : xml := plain (p_tree p).
Definition number_places (n : nat) (l : list (tree * list tree)) : list place :=
  map (fun q => Place (fst q) (fst (snd q)) (snd (snd q))) (combine (seq n (length l)) l).
(** The documents with their elements *)
Fixpoint pages (n : nat) (roots : list tree) : list (tree * list place) :=
  match roots with
  | [] => []
  | r :: rs => (r, number_places n (below [] r)) :: pages (n + length (below [] r)) rs
  end.
Definition all_places (roots : list tree) : list place := flat_map snd (pages 0 roots).

(** PF 140-157: [find_elements(root, ".//ix:...")] (see [InlineModel.fact_nodes]) *)
Definition ix_places (names : list string) (page : tree * list place) : list place :=
  match dict_get key_eqb (t_scope (fst page)) (Some (u "ix")) with
  | None => []
  | Some uri => filter (fun p => existsb (fun n => has_tag (to_clark uri (u n)) (p_xml p)) names) (snd page)
  end.
Definition fact_places (roots : list tree) : list place := flat_map (ix_places ["nonNumeric"; "nonFraction"]%string) (pages 0 roots).
Definition note_places (roots : list tree) : list place := flat_map (ix_places ["footnote"%string]) (pages 0 roots).
Definition cont_places (roots : list tree) : list place := flat_map (ix_places ["continuation"%string]) (pages 0 roots).

(** ** Continuation chains *)

(** parse_continuation_chain.py:103 [iterdescendants("{*}continuation", element.tag)]: the elements
    below one are those that follow it in number *)
Definition inner_keys (all : list place) (p : place) : list nat :=
  map p_key (filter (fun q => Nat.ltb (p_key p) (p_key q) && Nat.leb (p_key q) (p_key p + length (below [] (p_tree p))) &&
                              (has_local (u "continuation") (p_xml q) || is_some (t_tag (p_tree q)) && opt_eqb str_eqb (t_tag (p_tree q)) (t_tag (p_tree p)))) all).
Definition celem_of (all : list place) (p : place) : TextModel.celem :=
  TextModel.CElem (p_key p) (match tag_name (p_xml p) with Ok t => t | Raise _ => [] end)
    (attr (p_xml p) (u "id")) (attr (p_xml p) (u "continuedAt")) (inner_keys all p).

Definition place_at (all : list place) (k : nat) : option place := find (fun p => Nat.eqb (p_key p) k) all.
Definition xml_at (all : list place) (k : nat) : xml :=
  match place_at all k with Some p => p_xml p | None => Xml None [] [] None [] end.

(** PF 299-305 *)
Definition chains (fuel : nat) (roots : list tree) (taken : list str)
  : option (list (TextModel.celem * list TextModel.celem) * list TextModel.cerr * list str) :=
  let all := all_places roots in
  TextModel.create_continuation_chains fuel (map (celem_of all) (fact_places roots)) (map (celem_of all) (note_places roots))
    (map (celem_of all) (cont_places roots)) taken.

(** [continuation_chains.get(element) or []] *)
Definition chain_keys (cs : list (TextModel.celem * list TextModel.celem)) (k : nat) : list nat :=
  match find (fun c => Nat.eqb (TextModel.ce_key (fst c)) k) cs with
  | Some c => map TextModel.ce_key (snd c)
  | None => []
  end.
Definition chain_trees (all : list place) (cs : list (TextModel.celem * list TextModel.celem)) (k : nat) : list tree :=
  flat_map (fun k => match place_at all k with Some p => [p_tree p] | None => [] end) (chain_keys cs k).

Section Inline.
(** [is_valid_uri], [float] of an order, [set] and [str] of a list: see FootModel *)
Variable e : FootModel.env.
Variable tostring : TextModel.xml -> str.
Variable fuel : nat.

(** parse_continuation_chain.py:23-122: the errors with their elements; the set difference is listed
    in some order *)
Definition chain_report (all : list place) (conts : list place) (r : TextModel.cerr) : list (string * xml * list (str * str)) :=
  match r with
  | TextModel.WithoutId k => [("IXBRL_CONTINUATION_WITHOUT_ID"%string, xml_at all k, [])]
  | TextModel.DuplicateId k id => [("IXBRL_DUPLICATE_ELEMENT_ID"%string, xml_at all k, [(u "id", id)])]
  | TextModel.Reused k id =>
      [("IXBRL_REUSED_CONTINUATION"%string, xml_at all k, [(u "id", id); (u "element_id", str_opt (attr (xml_at all k) (u "id")))])]
  | TextModel.InvalidId k id =>
      [("IXBRL_INVALID_CONTINUATION_ID"%string, xml_at all k, [(u "id", id); (u "element_id", str_opt (attr (xml_at all k) (u "id")))])]
  | TextModel.InvalidDescendant k parent =>
      [("IXBRL_INVALID_DESCENDANT_IN_CONTINUATION_CHAIN"%string, xml_at all k,
        [(u "descendant_id", str_opt (attr (xml_at all k) (u "id"))); (u "parent_id", str_opt parent)])]
  | TextModel.Unused ids =>
      match FootModel.e_set e ids with
      | [] => []
      | id :: rest =>
          match dict_get str_eqb (TextModel.continuation_index (map (celem_of all) conts)) id with
          | Some c => [("IXBRL_UNUSED_CONTINUATION_ELEMENTS"%string, xml_at all (TextModel.ce_key c), [(u "element_ids", FootModel.e_repr e (id :: rest))])]
          | None => []
          end
      end
  end.
Definition continuations (roots : list tree) (taken : list str) : option (list (string * xml * list (str * str)) * list str) :=
  match chains fuel roots taken with
  | None => None
  | Some (_, errs, taken') => Some (flat_map (chain_report (all_places roots) (cont_places roots)) errs, taken')
  end.

(** The chains, which do not depend on the identifiers taken *)
Definition chains_of (roots : list tree) : list (TextModel.celem * list TextModel.celem) :=
  match chains fuel roots [] with Some (cs, _, _) => cs | None => [] end.

(** parse_non_numeric.py:104-111 *)
Definition text_content (all : list place) (cs : list (TextModel.celem * list TextModel.celem)) (p : place) (escape : bool) : res str :=
  do! c <- TextModel.extract_relevant_content_from_continuation_chain (map marked (p_tree p :: chain_trees all cs (p_key p))) ;
  Ok (if escape then TextModel.escape_content tostring c else TextModel.extract_text_content c).

(** What InlineModel sees of an element *)
Definition node_of (all : list place) (cs : list (TextModel.celem * list TextModel.celem)) (p : place) : node :=
  Node (p_xml p) (option_map plain (hd_error (p_above p))) (map t_tail (t_kids (p_tree p)))
    (match t_kids (p_tree p) with k :: _ => tostring (marked k) | [] => [] end)
    (text_content all cs p).
Definition documents (roots : list tree) : list document :=
  let all := all_places roots in
  let cs := chains_of roots in
  map (fun page => Document (plain (fst page)) (map (node_of all cs) (snd page))) (pages 0 roots).

(** PF 267-274 *)
Definition instance_roots (trees : list tree) : list tree := filter (fun t => is_instance (plain t)) trees.

(** ** Role references *)

(** FN 373-408; the type is looked up under a name that XLink does not have *)
Definition parse_role_reference (x : xml) : M unit :=
  let! link_type := lift (attr_prefixed x (u "xlink:linktype")) in
  let! _ := when (negb (opt_str_eqb link_type (Some (u "simple"))))
              (report "ROLEREF_INVALID_LINKTYPE" x [(u "linktype", str_opt link_type)]) in
  let! href := lift (attr_prefixed x (u "xlink:href")) in
  let! _ := (match FootModel.given href with
             | None => report "ROLEREF_MISSING_HREF_ATTRIBUTE" x []
             | Some h => when (negb (FootModel.e_uri e h)) (report "ROLEREF_INVALID_HREF_ATTRIBUTE" x [(u "href", h)])
             end) in
  let! _ := (match FootModel.given (attr x (u "roleURI")) with
             | None => report "ROLEREF_MISSING_ROLE_URI_ATTRIBUTE" x []
             | Some r => when (negb (FootModel.e_uri e r)) (report "ROLEREF_INVALID_ROLE_URI_ATTRIBUTE" x [(u "role_uri", r)])
             end) in
  let! role := lift (attr_prefixed x (u "xlink:role")) in
  when (opt_str_eqb role (Some [])) (report "ROLEREF_EMPTY_ROLE_ATTRIBUTE" x []).
(** FN 411-417 *)
Definition parse_role_references (r : resources) : M unit := for_each parse_role_reference (r_roles r ++ r_arcroles r).

(** ** Footnotes *)

(** An error about another element *)
Definition about {A B} (x : B) (er : error A) : error B :=
  Error (er_severity er) (er_area er) (er_code er) (er_message er) (er_xbrl er) (Some x).
Definition add_errors (es : list (error xml)) : M unit :=
  fun s => Ok (tt, State (s_errors s ++ es) (s_chars s) (s_aspects s) (s_facts s)).

(** FN 29-77: the content is taken only from a footnote with an identifier. *)
Definition note_of (all : list place) (cs : list (TextModel.celem * list TextModel.celem)) (p : place) : res FootModel.note_elem :=
  let x := p_xml p in
  do! content <- match FootModel.given (attr x (u "id")) with
                 | None => Ok []
                 | Some _ => do! c <- TextModel.extract_relevant_content_from_continuation_chain (map marked (p_tree p :: chain_trees all cs (p_key p))) ;
                             Ok (tostring c)
                 end ;
  Ok (FootModel.NoteElem (attr x (u "id")) (attr x (u "footnoteRole")) (LinkModel.elem_lang (map plain (p_tree p :: p_above p))) content (attr x (u "title"))).
(** FN 80-98 *)
Fixpoint read_notes (all : list place) (cs : list (TextModel.celem * list TextModel.celem)) (ps : list place) (ns : FootModel.notes) (taken : list str)
  : M FootModel.notes :=
  match ps with
  | [] => ret ns
  | p :: ps =>
      let! n := lift (note_of all cs p) in
      let! r := lift (FootModel.parse_footnote e n [] taken) in
      let! _ := add_errors (map (about (p_xml p)) (snd (fst r))) in
      read_notes all cs ps (match fst (fst r) with Some (id, n) => dict_set str_eqb ns id n | None => ns end) (snd r)
  end.

(** ** Relationships *)

Definition rel_of (x : xml) : FootModel.rel :=
  FootModel.Rel (attr x (u "fromRefs")) (attr x (u "toRefs")) (attr x (u "arcrole")) (attr x (u "linkRole")) (attr x (u "order")).
Definition texts_of (fs : ifacts) : FootModel.facts := map (fun p => (fst p, f_value (if_fact (snd p)))) (by_id fs).
(** FN 353-370 *)
Fixpoint read_arcs (ns : FootModel.notes) (fs : FootModel.facts) (xs : list xml) : M (list FootModel.arc) :=
  match xs with
  | [] => ret []
  | x :: xs =>
      let! r := lift (FootModel.parse_relationship e ns fs (rel_of x) []) in
      let! _ := add_errors (map (about x) (snd r)) in
      let! arcs := read_arcs ns fs xs in
      ret (fst r :: arcs)
  end.

(** FN 420-449 *)
Definition read_footnotes (roots : list tree) (r : resources) (taken : list str) (fs : ifacts) : M (FootModel.notes * list FootModel.network) :=
  let! _ := parse_role_references r in
  let! ns := read_notes (all_places roots) (chains_of roots) (note_places roots) [] taken in
  let! arcs := read_arcs ns (texts_of fs) (r_relationships r) in
  let! nws := lift (FootModel.build_networks e ns (texts_of fs) arcs) in
  ret (ns, nws).

(** ** The filing *)

Variable parse_date : str -> res date.
Variable py_float : str -> option bool.
Variable era_valid : list (part * str) -> res bool.
Variable element_str : xml -> str.
Variable number : str -> Q.
Variable edge_order : nat -> list NetModel.edge -> list NetModel.edge.
Variable root_order : nat -> list nat -> list nat.
Variable shuffle : list nat -> list nat.

(** The facts without decimals and precision, as FilingModel sees them *)
Definition plain_facts (fs : ifacts) : fact_repo :=
  FactRepo (map (fun p => (fst p, if_fact (snd p))) (by_id fs)) (map if_fact (without_id fs)).

(** networks/footnote_network.py:13-22, FN 328, 446-448 *)
Definition note_networks (n : nat) (nws : list FootModel.network) : list CompModel.network :=
  map (fun p => CompModel.Network (CompModel.NOther (u "FootnoteNetwork")) true (FootModel.nw_linkrole (snd p)) (fst p))
    (combine (seq n (length nws)) nws).
Definition store_all (nws : list FootModel.network) (ws : list LinkModel.net) : CompModel.nrepo :=
  CompModel.networks_after (map CompModel.OpUpsert (note_networks (length ws) nws ++ FilingModel.networks_of ws)).

(** XP 35-48 *)
Definition inline_namespaces (docs : list xml) : namespaces :=
  fold_left (fun n sc => fold_left (fun n kv => match fst kv with Some p => ns_upsert n p (snd kv) | None => n end) sc n)
    (flat_map (fun d => x_scope d :: map x_scope (descendants d)) docs)
    (ns_upsert (ns_upsert [] (u "xml") xml_ns) (u "html") (u "http://www.w3.org/1999/xhtml")).

(** The filing: what FilingModel has of it, the facts, the footnotes and their networks *)
Record inline_filing := InlineFiling {
  il_filing : FilingModel.filing; il_facts : ifacts; il_contexts : contexts; il_notes : FootModel.notes; il_networks : list FootModel.network }.

(** filing_parser.py:42-50, XP 50-66 *)
Definition parse_inline_filing (trees : list (str * tree)) (es : repo xml) : res inline_filing :=
  let docs := map plain (dict_values trees) in
  let roots := instance_roots (dict_values trees) in
  do! r <- ConceptModel.parse_report_elements (map (fun p => (fst p, plain (snd p))) trees) (ConceptModel.empty_rrepo, es) ;
  do! f <- parse_inline parse_date (FilingModel.repository_of (fst r)) py_float era_valid (continuations roots) (documents roots)
             (State (snd r) [] [] empty_facts) ;
  let '(res, (taken, cs, fs)) := fst f in
  do! g <- read_footnotes roots res taken fs (snd f) ;
  do! n <- FilingModel.read_networks element_str number edge_order root_order fuel shuffle (fst r) (plain_facts fs) docs (s_errors (snd g)) ;
  do! t <- FilingModel.read_tables fuel (fst r) (dict_keys (s_aspects (snd g))) docs ;
  let nets := store_all (snd (fst g)) (fst n) in
  do! c <- CompModel.parse_components nets docs (LinkModel.ls_errors (snd n)) ;
  Ok (InlineFiling
        (FilingModel.Filing (fst r) (plain_facts fs) (fst n) (snd n) nets t (fst c) (inline_namespaces docs) (snd c))
        fs cs (fst (fst g)) (snd (fst g))).
End Inline.
