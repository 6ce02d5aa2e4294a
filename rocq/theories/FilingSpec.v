(** What the theorems about whole filings (C89-C96) mean. *)
From Coq Require Import QArith List.
From Verif Require Import Base QNameModel ErrBase ErrTable ErrModel CtxModel.
From Verif Require QNameSpec ConceptModel ConceptSpec CtxSpec NetModel NetSpec LangModel LinkModel LinkSpec CompModel FilingModel.
Import FilingModel.
Local Open Scope nat_scope.

(** ** C89 *)

(** The filing has the report element, of this kind. *)
Definition has_element (f : filing) (k : ekind) (e : element) : Prop := In e (get_all_report_elements f) /\ e_kind e = k.
(** The report elements of a characteristic are in the filing. *)
Definition has_characteristic_elements (f : filing) (c : characteristic) : Prop :=
  match c with
  | ChConcept e => has_element f KConcept e
  | ChExplicit d m _ => has_element f KDimension d /\ has_element f KMember m
  | ChTyped d _ _ => has_element f KDimension d
  | _ => True
  end.

(** What a node points to is in the filing (a resource is in the link). *)
Definition has_object (f : filing) (o : NetModel.obj) : Prop :=
  match NetModel.o_type o with
  | NetModel.OConcept => exists e, nth_error (get_all_report_elements f) (NetModel.o_key o) = Some e /\ e_kind e = KConcept
  | NetModel.OElement => exists e, nth_error (get_all_report_elements f) (NetModel.o_key o) = Some e /\ e_kind e <> KConcept
  | NetModel.OFact => exists x, nth_error (get_all_facts f) (NetModel.o_key o) = Some x
  | NetModel.OLabel | NetModel.OReference | NetModel.OFootnote => True
  end.
(** What can be in a network: concepts in calculations, report elements in presentations and
    definitions, and resources of its kind. *)
Definition belongs (k : NetModel.kind) (t : NetModel.otype) : Prop :=
  match k with
  | NetModel.KPresentation | NetModel.KPhysicalDefinition | NetModel.KLogicalDefinition => t = NetModel.OConcept \/ t = NetModel.OElement
  | NetModel.KCalculation => t = NetModel.OConcept
  | NetModel.KLabel => t = NetModel.OConcept \/ t = NetModel.OElement \/ t = NetModel.OLabel
  | NetModel.KReference => t = NetModel.OConcept \/ t = NetModel.OElement \/ t = NetModel.OReference
  | NetModel.KFootnote => t = NetModel.OConcept \/ t = NetModel.OElement \/ t = NetModel.OFact \/ t = NetModel.OFootnote
  end.

(** ** C91 *)

Definition of_kind (f : filing) (k : NetModel.kind) (role : str) (w : LinkModel.net) : Prop :=
  In w (fl_nets f) /\ LinkModel.w_kind w = k /\ LinkModel.w_role w = role.
(** The network of a component: the only one of the kind and role; none if there is none. *)
Definition the_network (f : filing) (k : NetModel.kind) (role : str) (n : option CompModel.network) : Prop :=
  match n with
  | Some n => In n (get_all_networks f) /\
      exists w, net_of f n = Some w /\ of_kind f k role w /\
        forall i w', nth_error (fl_nets f) i = Some w' -> LinkModel.w_kind w' = k -> LinkModel.w_role w' = role -> i = CompModel.n_object n
  | None => forall w, ~ of_kind f k role w
  end.

(** The last report element with the id. *)
Definition last_id (l : list element) (i : str) (e : element) : Prop :=
  exists before after, l = before ++ e :: after /\ e_id e = Some i /\ forall z, In z after -> e_id z <> Some i.
(** The locator has the id of the report element. *)
Definition leads_to (es : list element) (loc : xml) (e : element) : Prop :=
  exists href, LinkSpec.xl "href" loc = Some href /\ last_id es (LinkSpec.fragment href) e.
(** In the link there is a locator of the report element; there is an arc from a locator of the first
    to one of the second. *)
Definition mentioned (es : list element) (link : xml) (outside : list xml) (e : element) : Prop :=
  exists loc al, LinkSpec.element_of link outside "locator" loc al /\ leads_to es loc e.
Definition put_below (es : list element) (link : xml) (outside : list xml) (e e' : element) : Prop :=
  exists arc aa from af to at', LinkSpec.element_of link outside "arc" arc aa /\
    LinkSpec.element_of link outside "locator" from af /\ LinkSpec.element_of link outside "locator" to at' /\
    LinkSpec.xl "from" arc = LinkSpec.xl "label" from /\ LinkSpec.xl "to" arc = LinkSpec.xl "label" to /\
    leads_to es from e /\ leads_to es to e'.
(** The labels of locators of report elements that no arc leads to, and from these those of locators of
    report elements that arcs lead to. *)
Definition named (es : list element) (link : xml) (outside : list xml) (s : str) : Prop :=
  exists loc al e, LinkSpec.element_of link outside "locator" loc al /\ leads_to es loc e /\ LinkSpec.xl "label" loc = Some s.
Inductive arrives (es : list element) (link : xml) (outside : list xml) : str -> Prop :=
| arrive_first s : named es link outside s ->
    (forall arc aa, LinkSpec.element_of link outside "arc" arc aa -> LinkSpec.xl "to" arc <> Some s) -> arrives es link outside s
| arrive_next s t arc aa : arrives es link outside s -> LinkSpec.element_of link outside "arc" arc aa ->
    LinkSpec.xl "from" arc = Some s -> LinkSpec.xl "to" arc = Some t -> named es link outside t -> arrives es link outside t.
(** [mentioned] and [put_below] at such locators. *)
Definition mentioned_there (es : list element) (link : xml) (outside : list xml) (e : element) : Prop :=
  exists loc al s, LinkSpec.element_of link outside "locator" loc al /\ leads_to es loc e /\ LinkSpec.xl "label" loc = Some s /\ arrives es link outside s.
Definition put_below_there (es : list element) (link : xml) (outside : list xml) (e e' : element) : Prop :=
  exists arc aa from af to at' s, LinkSpec.element_of link outside "arc" arc aa /\
    LinkSpec.element_of link outside "locator" from af /\ LinkSpec.element_of link outside "locator" to at' /\
    LinkSpec.xl "from" arc = Some s /\ LinkSpec.xl "label" from = Some s /\ LinkSpec.xl "to" arc = LinkSpec.xl "label" to /\
    leads_to es from e /\ leads_to es to e' /\ arrives es link outside s.
(** Every arc starts at a locator of a report element. *)
Definition all_anchored (es : list element) (link : xml) (outside : list xml) : Prop :=
  forall arc aa, LinkSpec.element_of link outside "arc" arc aa ->
    exists loc al e, LinkSpec.element_of link outside "locator" loc al /\ leads_to es loc e /\ LinkSpec.xl "label" loc = LinkSpec.xl "from" arc.
(** The network shows the report element; shows the second right under the first. *)
Definition in_network (f : filing) (w : LinkModel.net) (e : element) : Prop :=
  exists r n x, In r (LinkModel.w_roots w) /\ NetSpec.reach (LinkModel.ls_heap (fl_links f)) r n /\
    nth_error (LinkModel.ls_heap (fl_links f)) n = Some x /\ nth_error (get_all_report_elements f) (NetModel.o_key (NetModel.n_obj x)) = Some e.
Definition below_in (f : filing) (w : LinkModel.net) (e e' : element) : Prop :=
  exists r n x m y, In r (LinkModel.w_roots w) /\ NetSpec.reach (LinkModel.ls_heap (fl_links f)) r n /\
    In m (NetModel.get_children (LinkModel.ls_heap (fl_links f)) n) /\
    nth_error (LinkModel.ls_heap (fl_links f)) n = Some x /\ nth_error (get_all_report_elements f) (NetModel.o_key (NetModel.n_obj x)) = Some e /\
    nth_error (LinkModel.ls_heap (fl_links f)) m = Some y /\ nth_error (get_all_report_elements f) (NetModel.o_key (NetModel.n_obj y)) = Some e'.

(** ** C92 *)

(** In one of the documents, a label link with a role has a locator with the id of the element, a
    label, and an arc from one to the other. *)
Definition labelled (docs : list xml) (es : list element) (e : element) (l : LangModel.label) : Prop :=
  exists link outside loc al res ar href role,
    LinkSpec.extended_link docs link outside /\ LinkSpec.xl "role" link <> None /\ LinkSpec.label_link link /\
    LinkSpec.element_of link outside "locator" loc al /\ LinkSpec.element_of link outside "resource" res ar /\
    LinkSpec.xl "href" loc = Some href /\ last_id es (LinkSpec.fragment href) e /\
    LinkSpec.written_label res ar l /\ LinkSpec.arc_leads link outside role loc res.

(** ** C93 *)

(** Names can be written: the target namespace has a prefix at the declaration and is not the default
    namespace there. *)
Definition names_usual (trees : list (str * xml)) : Prop :=
  forall root tns x name, In (root, tns, x) (ConceptSpec.all_decls trees) -> attr x (u "name") = Some name ->
    tns <> [] /\ QNameSpec.without (ch "}") tns /\ name <> [] /\ QNameSpec.without (ch "{") name /\
    (exists p, In (Some p, tns) (x_scope x)) /\ ~ In (None, tns) (x_scope x).
(** A report element of this name, id and kind is declared: by the first declaration of the name that
    makes anything. *)
Definition declared (trees : list (str * xml)) (q : qname) (id : option str) (k : ekind) : Prop :=
  exists before after root tns x, ConceptSpec.all_decls trees = before ++ (root, tns, x) :: after /\
    ConceptSpec.named (root, tns, x) q /\ id = attr x (u "id") /\ ConceptSpec.declares x k /\ ~ ConceptSpec.makes_nothing (root, tns, x) /\
    forall d, In d before -> ConceptSpec.named d q -> ConceptSpec.makes_nothing d.
(** The declaration that makes the report element of a name. *)
Definition declaration_of (trees : list (str * xml)) (q : qname) (x : xml) : Prop :=
  exists before after root tns, ConceptSpec.all_decls trees = before ++ (root, tns, x) :: after /\
    ConceptSpec.named (root, tns, x) q /\ ~ ConceptSpec.makes_nothing (root, tns, x) /\
    forall d, In d before -> ConceptSpec.named d q -> ConceptSpec.makes_nothing d.
(** The only one with the property. *)
Definition only {A} (l : list A) (P : A -> Prop) (e : A) : Prop := In e l /\ P e /\ forall x, In x l -> P x -> x = e.

(** [l'] are the members of [l] with the property, in order. *)
Inductive those {A} (P : A -> Prop) : list A -> list A -> Prop :=
| those_nil : those P [] []
| those_in x l l' : P x -> those P l l' -> those P (x :: l) (x :: l')
| those_out x l l' : ~ P x -> those P l l' -> those P (x :: l) l'.

(** ** C95 *)

(** What an id stands for: the last report element with the id, else the fact with the id. *)
Inductive stands_for (es : list element) (xs : list fact) (i : str) : option LinkModel.found -> Prop :=
| for_concept e n : last_id es i e -> e_kind e = KConcept -> nth_error es n = Some e -> stands_for es xs i (Some (LinkModel.FConcept n))
| for_element e n : last_id es i e -> e_kind e <> KConcept -> nth_error es n = Some e -> stands_for es xs i (Some (LinkModel.FElement n))
| for_fact x n : (forall e, In e es -> e_id e <> Some i) -> nth_error xs n = Some x -> f_id x = Some i -> stands_for es xs i (Some (LinkModel.FFact n))
| for_nothing : (forall e, In e es -> e_id e <> Some i) -> (forall x, In x xs -> f_id x <> Some i) -> stands_for es xs i None.
(** The ids of fact elements are different. *)
Definition fact_ids_distinct (docs : list xml) : Prop :=
  forall a ix b ix' c i, CtxSpec.all_fact_elements docs = a ++ ix :: b ++ ix' :: c ->
    attr (snd ix) (u "id") = Some i -> attr (snd ix') (u "id") <> Some i.
(** Nothing is wrong with the link: it has a role and a known kind, its locators lead to report elements
    or facts of the filing, its labels and footnotes have a language, and no arc is there twice. *)
Definition sound_link (f : filing) (link : xml) (outside : list xml) : Prop :=
  LinkSpec.xl "role" link <> None /\ (exists k, LinkSpec.link_kind link k) /\
  (forall loc al, LinkSpec.element_of link outside "locator" loc al ->
     (exists e, leads_to (get_all_report_elements f) loc e) \/
     (exists href x, LinkSpec.xl "href" loc = Some href /\ facts_get_by_id (fl_facts f) (LinkSpec.fragment href) = Ok x /\ In x (get_all_facts f))) /\
  (forall res ar t, LinkSpec.element_of link outside "resource" res ar -> x_tag res = Some t ->
     LinkSpec.part_of (u "label") t \/ LinkSpec.part_of (u "footnote") t -> exists lang, LinkSpec.speaks res ar lang) /\
  ForallOrdPairs (fun x y => ~ LinkSpec.same_arc y x) (map fst (LinkSpec.elements_of link outside ["arc"%string])).
