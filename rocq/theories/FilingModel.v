(** Model of reading a whole XML filing: brel/parsers/filing_parser.py (FP),
    brel/parsers/xml_filing_parser.py (XP) and the getters of brel/brel_filing.py (BF).  The four
    stages are ConceptModel, CtxModel, LinkModel and CompModel; here they are put together.

    Simplifications:
    - [trees] are the documents that discovery has loaded (DtsModel), by URI, [es] what was recorded
      before (the catalog); both come from [DtsModel] and [OpenModel];
    - the numbers by which networks know report elements and facts are their positions in the
      repositories; a network is known to components by its position among the networks;
    - the tables of table linkbases are known by their numbers (RuleModel, TableModel);
    - see the models of the stages for what is simplified there. *)
From Coq Require Import QArith.
From Verif Require Import Base QNameModel ErrBase ErrTable ErrModel CtxModel.
From Verif Require ConceptModel NetModel LangModel LinkModel TableModel RuleModel CompModel.
Local Open Scope nat_scope.

(** ** Report elements as the later stages see them *)

Definition kind_of_body (b : ConceptModel.body) : ekind :=
  match b with
  | ConceptModel.BConcept _ => KConcept
  | ConceptModel.BAbstract => KAbstract
  | ConceptModel.BLineItems => KLineItems
  | ConceptModel.BHypercube => KHypercube
  | ConceptModel.BDimension _ => KDimension
  | ConceptModel.BMember => KMember
  end.

Fixpoint index_of {A} (eqb : A -> A -> bool) (x : A) (l : list A) : nat :=
  match l with
  | [] => 0
  | y :: l' => if eqb x y then 0 else S (index_of eqb x l')
  end.

(** The position of a report element in the repository. *)
Definition number_of (r : ConceptModel.rrepo) (q : qname) : nat :=
  index_of qname_eqb q (dict_keys (ConceptModel.rr_by_qname r)).

Definition element_of (r : ConceptModel.rrepo) (e : ConceptModel.relement) : element :=
  Element (ConceptModel.r_name e) (ConceptModel.r_id e) (kind_of_body (ConceptModel.r_body e))
    (number_of r (ConceptModel.r_name e)).

(** The repository of QNameModel and CtxModel *)
Definition repository_of (r : ConceptModel.rrepo) : repository :=
  Repo (map (fun p => (fst p, element_of r (snd p))) (ConceptModel.rr_by_qname r))
       (map (fun p => (fst p, element_of r (snd p))) (ConceptModel.rr_by_id r)).

(** reportelements/concept.py:261-266 is_nillable *)
Definition nillable_in (r : ConceptModel.rrepo) (e : element) : bool :=
  match ConceptModel.rr_get_by_qname r (e_name e) with
  | Ok (ConceptModel.RElement _ _ (ConceptModel.BConcept c)) => ConceptModel.c_nillable c
  | _ => false
  end.

(** reportelements/dimension.py:66-71 is_explicit *)
Definition explicit_in (r : ConceptModel.rrepo) (e : element) : bool :=
  match ConceptModel.rr_get_by_qname r (e_name e) with
  | Ok (ConceptModel.RElement _ _ (ConceptModel.BDimension None)) => true
  | _ => false
  end.

(** parsers/XML/networks/xml_extended_link_parser.py:60-63 *)
Definition find_in (r : ConceptModel.rrepo) (fs : fact_repo) (i : str) : option LinkModel.found :=
  if ConceptModel.rr_has_id r i then
    match ConceptModel.rr_get_by_id r i with
    | Ok e =>
        let n := number_of r (ConceptModel.r_name e) in
        match ConceptModel.r_body e with
        | ConceptModel.BConcept _ => Some (LinkModel.FConcept n)
        | _ => Some (LinkModel.FElement n)
        end
    | Raise _ => None
    end
  else if facts_has_id fs i then Some (LinkModel.FFact (index_of str_eqb i (dict_keys (fr_by_id fs))))
  else None.

(** ** Networks as components see them *)

Definition nclass_of (k : NetModel.kind) : CompModel.nclass :=
  match LinkModel.class_of_kind k with
  | LinkModel.WPresentation => CompModel.NPresentation
  | LinkModel.WCalculation => CompModel.NCalculation
  | LinkModel.WDefinition => CompModel.NDefinition
  | LinkModel.WLabel => CompModel.NOther (u "LabelNetwork")
  | LinkModel.WReference => CompModel.NOther (u "ReferenceNetwork")
  | LinkModel.WFootnote => CompModel.NOther (u "FootnoteNetwork")
  end.

Definition network_of (p : nat * LinkModel.net) : CompModel.network :=
  CompModel.Network (nclass_of (LinkModel.w_kind (snd p))) (NetModel.is_physical (LinkModel.w_kind (snd p)))
    (LinkModel.w_role (snd p)) (fst p).
Definition networks_of (ws : list LinkModel.net) : list CompModel.network :=
  map network_of (combine (seq 0 (length ws)) ws).

(** ** The filing *)

(** contexts/filing_context.py: the repositories of a filing that is read *)
Record filing := Filing {
  fl_elements : ConceptModel.rrepo;
  fl_facts : fact_repo;
  fl_nets : list LinkModel.net;
  fl_links : LinkModel.lstate;       (* the nodes of the networks and the labels *)
  fl_networks : CompModel.nrepo;
  fl_tables : list (str * list nat);
  fl_components : list CompModel.component;
  fl_namespaces : namespaces;
  fl_errors : repo xml }.

(** XP 32-41 *)
Definition namespaces_of (docs : list xml) : namespaces :=
  create_nsmap (flat_map (fun d => x_scope d :: map x_scope (descendants d)) docs).

Section Filing.
(** [dateutil], [str(element)], [float] and the orders of sets: see CtxModel and LinkModel. *)
Variable parse_date : str -> res date.
Variable element_str : xml -> str.
Variable number : str -> Q.
Variable edge_order : nat -> list NetModel.edge -> list NetModel.edge.
Variable root_order : nat -> list nat -> list nat.
Variable fuel : nat.
Variable shuffle : list nat -> list nat.

(** xml_networks_parser.py 44-131 (with the networks going to their repository, 124-131) *)
Definition read_networks (r : ConceptModel.rrepo) (fs : fact_repo) (docs : list xml) (es : repo xml)
  : res (list LinkModel.net * LinkModel.lstate) :=
  LinkModel.parse_networks element_str number (find_in r fs) edge_order root_order fuel shuffle docs es.
Definition store_networks (ws : list LinkModel.net) : CompModel.nrepo :=
  CompModel.networks_after (map CompModel.OpUpsert (networks_of ws)).

(** xml_networks_parser.py 133, xml_table_linkbase_parser.py 656-787 *)
Definition read_tables (r : ConceptModel.rrepo) (aspects : list str) (docs : list xml) : res (list (str * list nat)) :=
  TableModel.parse_table_linkbases
    (fun x => do! t <- RuleModel.parse_table_linkbase_element fuel (repository_of r) (explicit_in r) aspects x ;
              Ok (map (fun n => (RuleModel.attr_or x (RuleModel.xlink_prefix (u "role")) [], n)) (RuleModel.tl_tables t)))
    docs.

(** FP 42-50, XP 43-53 *)
Definition parse_filing (trees : list (str * xml)) (es : repo xml) : res filing :=
  let docs := dict_values trees in
  do! r <- ConceptModel.parse_report_elements trees (ConceptModel.empty_rrepo, es) ;
  do! f <- parse_facts parse_date (repository_of (fst r)) (nillable_in (fst r)) docs (State (snd r) [] [] empty_facts) ;
  do! n <- read_networks (fst r) (s_facts (snd f)) docs (s_errors (snd f)) ;
  do! t <- read_tables (fst r) (dict_keys (s_aspects (snd f))) docs ;
  let nets := store_networks (fst n) in
  do! c <- CompModel.parse_components nets docs (LinkModel.ls_errors (snd n)) ;
  Ok (Filing (fst r) (s_facts (snd f)) (fst n) (snd n) nets t (fst c) (namespaces_of docs) (snd c)).
End Filing.

(** ** Getters *)

(** BF 151-155 *)
Definition get_all_facts (f : filing) : list fact := facts_get_all (fl_facts f).
(** BF 157-161 *)
Definition get_all_report_elements (f : filing) : list element := QNameModel.get_all (repository_of (fl_elements f)).
(** BF 163-168 *)
Definition get_all_components (f : filing) : list CompModel.component := fl_components f.
(** BF 170-179, data/network/in_memory_network_repository.py:32-35 *)
Definition get_all_networks (f : filing) : list CompModel.network := concat (map snd (fl_networks f)).
Definition get_all_physical_networks (f : filing) : list CompModel.network :=
  filter CompModel.n_physical (get_all_networks f).
(** BF 225-229 *)
Definition get_all_core_facts (f : filing) : list fact := filter fact_is_core (get_all_facts f).
(** BF 231-304 *)
Definition is_kind (k : ekind) (e : element) : bool :=
  match k, e_kind e with
  | KConcept, KConcept | KAbstract, KAbstract | KLineItems, KLineItems | KHypercube, KHypercube
  | KDimension, KDimension | KMember, KMember => true
  | _, _ => false
  end.
Definition get_all_concepts (f : filing) : list element := filter (is_kind KConcept) (get_all_report_elements f).
Definition get_all_abstracts (f : filing) : list element := filter (is_kind KAbstract) (get_all_report_elements f).
Definition get_all_line_items (f : filing) : list element := filter (is_kind KLineItems) (get_all_report_elements f).
Definition get_all_hypercubes (f : filing) : list element := filter (is_kind KHypercube) (get_all_report_elements f).
Definition get_all_dimensions (f : filing) : list element := filter (is_kind KDimension) (get_all_report_elements f).
Definition get_all_members (f : filing) : list element := filter (is_kind KMember) (get_all_report_elements f).

(** The labels of a report element (reportelements/i_report_element.py get_labels) *)
Definition labels_in (f : filing) (e : element) : list LangModel.label := LinkModel.labels_of (fl_links f) (e_tag e).
(** The network that a component knows by number *)
Definition net_of (f : filing) (n : CompModel.network) : option LinkModel.net := nth_error (fl_nets f) (CompModel.n_object n).

(** BF 465-477, resource/brel_label.py:57-62; a value is a text or the name of a report element *)
Definition label_to_dict (l : LangModel.label) : list (str * (str + qname)) :=
  [ (u "text", inl (LangModel.l_text l)); (u "language", inl (LangModel.l_lang l)); (u "label_role", inl (LangModel.l_role l)) ].
Definition get_all_labels (f : filing) : list (list (str * (str + qname))) :=
  flat_map (fun e => map (fun l => dict_set str_eqb (label_to_dict l) (u "report_element") (inr (e_name e))) (labels_in f e))
    (get_all_report_elements f).
