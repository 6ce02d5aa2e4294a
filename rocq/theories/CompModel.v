(** Model of components and of the queries of a filing that go by component or by concept:
    brel/brel_component.py, brel/parsers/XML/xml_component_parser.py,
    brel/data/component/in_memory_component_repository.py,
    brel/data/network/in_memory_network_repository.py and brel/brel_filing.py:350-410.

    Simplifications:
    - a network is known by its class, its link role and a number that names the object; its nodes
      are modelled in NetModel;
    - [Component] has no [__eq__], so that [component in components] compares objects; the parser
      stores only objects it has just made, hence the removal in [upsert] never takes place. *)
From Verif Require Import Base QNameModel ErrBase ErrTable ErrModel CtxModel DtsModel.

(** ** Networks *)

(** The class of a network; [is_physical] of a definition network
    (networks/definition_network.py). *)
Inductive nclass := NPresentation | NCalculation | NDefinition | NOther (name : str).
Record network := Network { n_class : nclass; n_physical : bool; n_role : str; n_object : nat }.

Definition nclass_eqb (a b : nclass) : bool :=
  match a, b with
  | NPresentation, NPresentation | NCalculation, NCalculation | NDefinition, NDefinition => true
  | NOther x, NOther y => str_eqb x y
  | _, _ => false
  end.

(** in_memory_network_repository.py:18-19: a [defaultdict(list)] *)
Definition nrepo := list (nclass * list network).

(** in_memory_network_repository.py:21-22: looking up a class enters it *)
Definition get_by_type (r : nrepo) (c : nclass) : list network * nrepo :=
  match dict_get nclass_eqb r c with
  | Some l => (l, r)
  | None => ([], dict_set nclass_eqb r c [])
  end.

(** in_memory_network_repository.py:24-30 *)
Definition get_by_linkrole (r : nrepo) (role : str) : list network :=
  flat_map (fun e => filter (fun n => str_eqb (n_role n) role) (snd e)) r.

(** in_memory_network_repository.py:37-38 *)
Definition upsert_network (r : nrepo) (n : network) : nrepo :=
  let (l, r') := get_by_type r (n_class n) in dict_set nclass_eqb r' (n_class n) (l ++ [n]).

(** Any use of the repository before the components are parsed. *)
Inductive nop := OpUpsert (n : network) | OpGetByType (c : nclass).
Definition nstep (r : nrepo) (o : nop) : nrepo :=
  match o with OpUpsert n => upsert_network r n | OpGetByType c => snd (get_by_type r c) end.
Definition networks_after (ops : list nop) : nrepo := fold_left nstep ops [].

(** ** Components *)

(** brel_component.py:77-91 *)
Record component := Component {
  c_uri : str; c_info : str;
  c_presentation : option network; c_calculation : option network; c_definition : option network }.

(** brel_component.py:94-125 *)
Definition get_URI (c : component) : str := c_uri c.
Definition get_info (c : component) : str := c_info c.
Definition get_presentation_network (c : component) : option network := c_presentation c.
Definition get_calculation_network (c : component) : option network := c_calculation c.
Definition get_definition_network (c : component) : option network := c_definition c.

Definition is_some {A} (x : option A) : bool := match x with Some _ => true | None => false end.

(** brel_component.py:128-144 *)
Definition has_presentation_network (c : component) : bool := is_some (c_presentation c).
Definition has_calculation_network (c : component) : bool := is_some (c_calculation c).
Definition has_definition_network (c : component) : bool := is_some (c_definition c).

(** brel_component.py:160-171 *)
Definition get_networks (c : component) : list network :=
  let l := [] in
  let l := match c_presentation c with Some n => l ++ [n] | None => l end in
  let l := match c_calculation c with Some n => l ++ [n] | None => l end in
  match c_definition c with Some n => l ++ [n] | None => l end.

(** brel_component.py:182-195; a value is a text or a truth value *)
Definition component_to_dict (c : component) : list (str * (str + bool)) :=
  [ (u "network-identifier", inl (c_uri c)); (u "info", inl (c_info c));
    (u "presentation-network", inr (is_some (c_presentation c)));
    (u "calculation-network", inr (is_some (c_calculation c)));
    (u "definintion-network", inr (is_some (c_definition c))) ].

(** ** Parsing *)

Definition text_in (text : str) (l : list (option str)) : bool := existsb (opt_eqb str_eqb (Some text)) l.
Definition is_class (c : nclass) (n : network) : bool := nclass_eqb (n_class n) c.
Definition is_logical_definition (n : network) : bool := is_class NDefinition n && negb (n_physical n).

(** [error_repository.insert(code, xml_element, linkrole_uri=role_uri)] under a condition *)
Definition report_if (cond : bool) (code : string) (x : xml) (role : str) (es : repo xml) : res (repo xml) :=
  if cond then insert es code (Some x) [(u "linkrole_uri", role)] else Ok es.

(** [children with the tag link:name]: the prefix is looked up in the scope of the element *)
Definition link_kids (uri name : str) (x : xml) : list xml :=
  filter (fun k => opt_eqb str_eqb (x_tag k) (Some (to_clark uri name))) (x_kids x).

(** xml_component_parser.py:34-123.  [find] raises a SyntaxError for an unknown prefix
    (lxml/_elementpath.py). *)
Definition parse_component (nets : nrepo) (x : xml) (es : repo xml) : res (component * repo xml) :=
  do! role <- get_str_attribute x (u "roleURI");
  match dict_get key_eqb (x_scope x) (Some (u "link")) with
  | None => Raise SyntaxError
  | Some uri =>
      let info := match link_kids uri (u "definition") x with
                  | k :: _ => match x_text k with Some t => t | None => [] end
                  | [] => []
                  end in
      let used_ons := map x_text (link_kids uri (u "usedOn") x) in
      let ns := get_by_linkrole nets role in
      do! es <- report_if (negb (text_in (u "link:presentationLink") used_ons) && existsb (is_class NPresentation) ns)
                  "PRESENTATION_NETWORK_IN_COMPONENT_WITHOUT_USEDON_ELEMENT" x role es;
      do! es <- report_if (negb (text_in (u "link:calculationLink") used_ons) && existsb (is_class NCalculation) ns)
                  "CALCULATION_NETWORK_IN_COMPONENT_WITHOUT_USEDON_ELEMENT" x role es;
      do! es <- report_if (negb (text_in (u "link:definitionLink") used_ons) && existsb (is_class NDefinition) ns)
                  "DEFINITION_NETWORK_IN_COMPONENT_WITHOUT_USEDON_ELEMENT" x role es;
      let ps := filter (is_class NPresentation) ns in
      let cs := filter (is_class NCalculation) ns in
      let ds := filter is_logical_definition ns in
      do! es <- report_if (Nat.ltb 1 (length ps)) "MULTIPLE_PRESENTATION_NETWORKS_IN_COMPONENT" x role es;
      do! es <- report_if (Nat.ltb 1 (length cs)) "MULTIPLE_CALCULATION_NETWORKS_IN_COMPONENT" x role es;
      do! es <- report_if (Nat.ltb 1 (length ds)) "MULTIPLE_DEFINITION_NETWORKS_IN_COMPONENT" x role es;
      Ok (Component role info (hd_error ps) (hd_error cs) (hd_error ds), es)
  end.

Definition link_ns : str := u "http://www.xbrl.org/2003/linkbase".

(** [find_elements(schema, ".//link:roleType", ...)] *)
Definition role_types (root : xml) : list xml :=
  filter (fun k => opt_eqb str_eqb (x_tag k) (Some (to_clark link_ns (u "roleType")))) (descendants root).

(** xml_component_parser.py:126-138; in_memory_component_repository.py:22-26 *)
Fixpoint parse_role_types (nets : nrepo) (l : list xml) (st : list component * repo xml)
  : res (list component * repo xml) :=
  match l with
  | [] => Ok st
  | x :: rest =>
      do! r <- parse_component nets x (snd st);
      parse_role_types nets rest (fst st ++ [fst r], snd r)
  end.
Definition parse_components (nets : nrepo) (roots : list xml) (es : repo xml)
  : res (list component * repo xml) :=
  parse_role_types nets (flat_map role_types roots) ([], es).

(** ** The filing *)

(** brel_filing.py:393-397 *)
Definition get_all_component_uris (cs : list component) : list str := map get_URI cs.

(** brel_filing.py:399-410 *)
Definition get_component (cs : list component) (uri : str) : res component :=
  match find (fun c => str_eqb (get_URI c) uri) cs with Some c => Ok c | None => Raise ValueError end.

(** brel_fact.py:160-172: a fact without a concept (which the parser does not make) would fail *)
Definition fact_concept (f : fact) : res element :=
  match get_characteristic (f_context f) a_concept with
  | Some (ChConcept c) => Ok c
  | _ => Raise AttributeError
  end.

(** reportelements/concept.py:177-182: concepts are equal when their names are *)
Definition concept_eqb (a b : element) : bool := qname_eqb (e_name a) (e_name b).

(** brel_filing.py:350-361 *)
Fixpoint collect_concepts (facts : list fact) (reported : list element) : res (list element) :=
  match facts with
  | [] => Ok reported
  | f :: rest =>
      do! c <- fact_concept f;
      collect_concepts rest (if existsb (concept_eqb c) reported then reported else reported ++ [c])
  end.
Definition get_all_reported_concepts (facts : list fact) : res (list element) := collect_concepts facts [].

Fixpoint filter_concept (c : element) (facts : list fact) : res (list fact) :=
  match facts with
  | [] => Ok []
  | f :: rest =>
      do! c' <- fact_concept f;
      do! l <- filter_concept c rest;
      Ok (if concept_eqb c' c then f :: l else l)
  end.

(** brel_filing.py:363-383 for a text and for a QName *)
Definition get_facts_by_concept_text (ord : list str -> list str) (n : namespaces) (r : repository)
  (facts : list fact) (name : str) : res (list fact) :=
  do! c <- get_concept_by_name ord n r name; filter_concept c facts.
Definition get_facts_by_concept_name (r : repository) (facts : list fact) (name : qname) : res (list fact) :=
  do! c <- get_typed_by_qname is_concept r name; filter_concept c facts.

(** brel_filing.py:385-391 *)
Definition get_facts_by_concept (r : repository) (facts : list fact) (c : element) : res (list fact) :=
  get_facts_by_concept_name r facts (e_name c).
