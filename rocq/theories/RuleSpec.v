(** What the nodes, rules and filters of a table linkbase say, stated over their elements. *)
From Verif Require Import Base PyNum QNameModel CtxModel TableModel RuleModel.
Local Open Scope nat_scope.

(** The element has this name (in Clark notation). *)
Inductive el (name : string) (x : xml) : Prop := has_name : x_tag x = Some (u name) -> el name x.

(** The element contains this text. *)
Definition says (x : xml) (t : str) : Prop := x_text x = Some t \/ x_text x = None /\ t = [].

(** The text of the element is this qualified name. *)
Definition names (x : xml) (q : qname) : Prop := exists t, says x t /\ qname_from_str t (x_scope x) = Ok q.

Definition attr_is (x : xml) (name value : string) : Prop := attr x (u name) = Some (u value).

(** The last child of this name. *)
Definition last_in (P : xml -> Prop) (kids : list xml) (c : xml) : Prop :=
  exists pre post, kids = pre ++ c :: post /\ P c /\ forall k, In k post -> ~ P k.
Definition last_child (P : xml -> Prop) (x c : xml) : Prop := last_in P (x_kids x) c.
Definition no_child (P : xml -> Prop) (x : xml) : Prop := forall k, In k (x_kids x) -> ~ P k.

(** [l] lists what the elements give, in document order. *)
Inductive listed {A} (gives : xml -> A -> Prop) : list xml -> list A -> Prop :=
| listed_nil : listed gives [] []
| listed_gives x a xs l : gives x a -> listed gives xs l -> listed gives (x :: xs) (a :: l)
| listed_silent x xs l : (forall a, ~ gives x a) -> listed gives xs l -> listed gives (x :: xs) l.

(** ** Rules of rule nodes (Formula 1.0) *)

Definition rule_el (name : string) : xml -> Prop := el (String.append "{http://xbrl.org/2008/formula}" name).

(** A name or an expression, given by one of two elements. *)
Definition value_in (x : xml) (v : name_or_expr) : Prop :=
  rule_el "qname" x /\ (exists q, v = Name q /\ names x q) \/
  rule_el "qnameExpression" x /\ (exists t, v = Expr t /\ says x t).

Inductive states (x : xml) : formula -> Prop :=
| states_concept pre c post v : rule_el "concept" x -> x_kids x = pre ++ c :: post ->
    (forall k, In k pre -> ~ rule_el "qname" k /\ ~ rule_el "qnameExpression" k) -> value_in c v ->
    states x (FConcept v)
| states_entity : rule_el "entityIdentifier" x ->
    attr x (u "scheme") <> None \/ attr x (u "value") <> None ->
    states x (FEntity (attr x (u "scheme")) (attr x (u "value")))
| states_forever c : rule_el "period" x -> x_kids x = [c] -> rule_el "forever" c -> states x FForever
| states_instant c : rule_el "period" x -> x_kids x = [c] -> rule_el "instant" c ->
    states x (FInstant (attr c (u "value")))
| states_duration c : rule_el "period" x -> x_kids x = [c] -> rule_el "duration" c ->
    states x (FDuration (attr c (u "start")) (attr c (u "end")))
| states_member t d c g v : rule_el "explicitDimension" x -> attr x (u "dimension") = Some t -> t <> [] ->
    qname_from_str t (x_scope x) = Ok d -> x_kids x = [c] -> rule_el "member" c -> x_kids c = [g] ->
    value_in g v -> states x (FDimension d (Some v))
| states_omit t d c : rule_el "explicitDimension" x -> attr x (u "dimension") = Some t -> t <> [] ->
    qname_from_str t (x_scope x) = Ok d -> x_kids x = [c] -> rule_el "omit" c -> states x (FDimension d None).

Definition table_el (name : string) : xml -> Prop := el (String.append "{http://xbrl.org/2014/table}" name).

(** A rule set with this tag. *)
Definition tagged (t : str) (x : xml) : Prop := table_el "ruleSet" x /\ attr x (u "tag") = Some t /\ t <> [].

(** The written parent-child order. *)
Definition order_written (x : xml) (o : porder) : Prop :=
  match o with
  | ParentFirst => attr_is x "parentChildOrder" "parent-first"
  | ChildrenFirst => attr_is x "parentChildOrder" "children-first"
  | Unspecified => attr x (u "parentChildOrder") = None \/ attr x (u "parentChildOrder") = Some []
  end.

(** ** Relationship nodes *)

(** The number of generations that the text gives: a positive integer, or else 0. *)
Definition generations_of (t : str) (n : Z) : Prop :=
  (exists z, py_int t = Some z /\ (0 < z)%Z /\ n = z) \/
  (n = 0%Z /\ forall z, py_int t = Some z -> (z <= 0)%Z).

(** What is read from a relationship node whose sources are known concepts and that has no axis. *)
Record relation_written (rep : repository) (dimensional : bool) (x : xml) (r : relationship) : Prop := {
  rw_order : order_written x (rl_order r);
  rw_axis : no_child (table_el "formulaAxis") x /\ rl_axis r = DescendantOrSelf;
  rw_sources : exists l, listed (fun k q => table_el "relationshipSource" k /\ names k q) (x_kids x) l /\
    (forall q, In q l -> exists e, dict_get qname_eqb (by_qname rep) q = Some e /\ e_kind e = KConcept) /\
    rl_sources r = match l, dimensional with [], false => [SourceRoot] | _, _ => map SourceName l end;
  rw_linkrole : (exists c, last_child (table_el "linkrole") x c /\ says c (rl_linkrole r)) \/
    no_child (table_el "linkrole") x /\ rl_linkrole r = u "http://www.xbrl.org/2003/role/link";
  rw_generations : (exists c t, last_child (table_el "generations") x c /\ says c t /\ generations_of t (rl_generations r)) \/
    no_child (table_el "generations") x /\ rl_generations r = 0%Z;
  rw_selector : rl_selector r = attr x (u "tagSelector");
  rw_id : rl_id r = attr x (u "id");
  rw_label : rl_label r = attr x (u "{http://www.w3.org/1999/xlink}label") }.

(** ** Aspect nodes *)

(** The child names an aspect; dimensions are known by prefix and local name. *)
Inductive aspect_named (aspects : list str) (x : xml) : str -> Prop :=
| named_concept : table_el "conceptAspect" x -> aspect_named aspects x (u "concept")
| named_entity : table_el "entityIdentifierAspect" x -> aspect_named aspects x (u "entity")
| named_period : table_el "periodAspect" x -> aspect_named aspects x (u "period")
| named_unit : table_el "unitAspect" x -> aspect_named aspects x (u "unit")
| named_dimension q : table_el "dimensionAspect" x -> names x q ->
    In (q_prefix q ++ u ":" ++ q_local q) aspects ->
    aspect_named aspects x (q_prefix q ++ u ":" ++ q_local q).

Definition is_aspect_child (x : xml) : Prop :=
  table_el "conceptAspect" x \/ table_el "entityIdentifierAspect" x \/ table_el "periodAspect" x \/
  table_el "unitAspect" x \/ table_el "dimensionAspect" x.

Record aspect_written (aspects : list str) (x : xml) (n : aspect_node) : Prop := {
  aw_known : forall k, In k (x_kids x) -> is_aspect_child k -> exists a, aspect_named aspects k a;
  aw_aspect : exists c, last_child is_aspect_child x c /\ aspect_named aspects c (an_aspect n);
  aw_unreported : an_unreported n = true <->
    exists c, last_child (table_el "dimensionAspect") x c /\ attr_is c "includeUnreportedValue" "true";
  aw_id : an_id n = attr x (u "id");
  aw_label : an_label n = attr x (u "{http://www.w3.org/1999/xlink}label") }.

(** ** Filters *)

Definition filter_el (kind name : string) : xml -> Prop :=
  el (String.append "{http://xbrl.org/2014/filter/" (String.append kind (String.append "}" name))).

(** The filters that are read. *)
Inductive filter_kind_of (x : xml) : filter_kind -> Prop :=
| fk_names l exprs : filter_el "concept" "conceptName" x ->
    (forall k, In k (x_kids x) -> filter_el "concept" "concept" k /\
       (x_kids k = [] \/ exists g, x_kids k = [g] /\
          (filter_el "concept" "qname" g \/ x_text g = Some (u "{http://xbrl.org/2014/filter/concept}qnameExpression")))) ->
    listed (fun k q => exists g, x_kids k = [g] /\ filter_el "concept" "qname" g /\ names g q) (x_kids x) l ->
    listed (fun k t => exists g, x_kids k = [g] /\ ~ filter_el "concept" "qname" g /\ x_text g = Some t) (x_kids x) exprs ->
    filter_kind_of x (KConceptName l exprs)
| fk_period t : filter_el "period" "period" x -> attr x (u "test") = Some t -> filter_kind_of x (KPeriod t)
| fk_start d : filter_el "period" "periodStart" x -> attr x (u "date") = Some d -> d <> [] ->
    filter_kind_of x (KDateTime BStart d (attr x (u "time")))
| fk_end d : filter_el "period" "periodEnd" x -> attr x (u "date") = Some d -> d <> [] ->
    filter_kind_of x (KDateTime BEnd d (attr x (u "time")))
| fk_instant d : filter_el "period" "periodInstant" x -> attr x (u "date") = Some d -> d <> [] ->
    filter_kind_of x (KDateTime BInstant d (attr x (u "time")))
| fk_forever : filter_el "period" "forever" x -> filter_kind_of x KForever.

(** ** Whole nodes *)

Definition xlink_label (x : xml) : option str := attr x (u "{http://www.w3.org/1999/xlink}label").

Record rule_node_written (x : xml) (n : rule_node) : Prop := {
  nw_abstract : rn_abstract n = true <-> attr_is x "abstract" "true";
  nw_merge : rn_merge n = true <-> attr_is x "merge" "true";
  nw_order : order_written x (rn_order n);
  nw_selector : rn_selector n = attr x (u "tagSelector");
  nw_id : rn_id n = attr x (u "id");
  nw_label : rn_label n = xlink_label x;
  nw_tagged t s : dict_get key_eqb (rn_sets n) (Some t) = Some s <->
    exists c, last_child (tagged t) x c /\ rs_tag s = Some t /\ listed states (x_kids c) (rs_rules s);
  nw_default s : dict_get key_eqb (rn_sets n) None = Some s <->
    rs_tag s = None /\ listed states (x_kids x) (rs_rules s) /\
    (rs_rules s <> [] \/ no_child (fun k => exists t, tagged t k) x) }.

(** The element names a known explicit dimension. *)
Definition names_explicit (rep : repository) (explicit : element -> bool) (x : xml) (d : element) : Prop :=
  exists q, names x q /\ dict_get qname_eqb (by_qname rep) q = Some d /\ e_kind d = KDimension /\ explicit d = true.

Record dimension_written (rep : repository) (explicit : element -> bool) (x : xml) (n : dimension_relationship) : Prop := {
  dw_base : relation_written rep true x (dr_base n);
  dw_all : forall k, In k (x_kids x) -> table_el "dimension" k -> exists d, names_explicit rep explicit k d;
  dw_dimension : exists c, last_child (table_el "dimension") x c /\ names_explicit rep explicit c (dr_dimension n) }.

Record concept_written (rep : repository) (x : xml) (n : concept_relationship) : Prop := {
  cw_base : relation_written rep false x (cr_base n);
  cw_arcrole : exists c, last_child (table_el "arcrole") x c /\ says c (cr_arcrole n) /\ cr_arcrole n <> [];
  cw_arcname : exists c, last_child (table_el "arcname") x c /\ names c (cr_arcname n);
  cw_linkname : exists c, last_child (table_el "linkname") x c /\ names c (cr_linkname n) }.

(** The attributes of an arc. *)
Definition arc_written (x : xml) (a : arc) : Prop :=
  (a_kind a = TableBreakdown /\ table_el "tableBreakdownArc" x \/
   a_kind a = BreakdownTree /\ table_el "breakdownTreeArc" x \/
   a_kind a = NodeSubtree /\ table_el "definitionNodeSubtreeArc" x) /\
  a_from a = attr x (u "{http://www.w3.org/1999/xlink}from") /\
  a_to a = attr x (u "{http://www.w3.org/1999/xlink}to") /\
  a_axis a = attr x (u "axis") /\ a_order a = attr x (u "order").

(** What a child of the link is: the object or arc, and what the object holds. *)
Inductive written (rep : repository) (explicit : element -> bool) (aspects : list str) (role : str) (x : xml)
  : item * option node_data -> Prop :=
| w_table o : table_el "table" x -> order_written x o ->
    written rep explicit aspects role x (IResource (Resource CTable o (xlink_label x)), Some (DTable role (attr x (u "id"))))
| w_breakdown o : table_el "breakdown" x -> order_written x o ->
    written rep explicit aspects role x (IResource (Resource CBreakdown o (xlink_label x)), Some (DBreakdown (attr x (u "id"))))
| w_rule n : table_el "ruleNode" x -> rule_node_written x n ->
    written rep explicit aspects role x (IResource (Resource CRule (rn_order n) (xlink_label x)), Some (DRule n))
| w_relationship n : table_el "dimensionRelationshipNode" x \/ table_el "conceptRelationshipNode" x ->
    dimension_written rep explicit x n ->
    written rep explicit aspects role x
      (IResource (Resource CRelationship (rl_order (dr_base n)) (xlink_label x)), Some (DRelationship n))
| w_aspect n : table_el "aspectNode" x -> aspect_written aspects x n ->
    written rep explicit aspects role x (IResource (Resource CAspect Unspecified (xlink_label x)), Some (DAspect n))
| w_arc a : arc_written x a -> written rep explicit aspects role x (IArc a, None).

(** The child of a link stops the reading. *)
Definition has_order_attr (x : xml) : Prop :=
  table_el "table" x \/ table_el "breakdown" x \/ table_el "ruleNode" x \/
  table_el "conceptRelationshipNode" x \/ table_el "dimensionRelationshipNode" x.
Definition stops (x : xml) (e : exn) : Prop :=
  e = AttributeError /\ x_tag x = None \/
  e = ValueError /\ has_order_attr x /\ forall o, ~ order_written x o.

(** What the children of a member of a dimension filter say. *)
Definition member_value (x : xml) (v : name_or_expr) : Prop :=
  (filter_el "dimension" "qname" x \/ filter_el "dimension" "variable" x) /\ (exists q, v = Name q /\ names x q) \/
  filter_el "dimension" "qnameExpression" x /\ (exists t, v = Expr t /\ says x t).
Definition is_member_value (x : xml) : Prop :=
  filter_el "dimension" "qname" x \/ filter_el "dimension" "variable" x \/ filter_el "dimension" "qnameExpression" x.
Definition member_axis_written (x : xml) (a : member_axis) : Prop :=
  says x match a with
         | MChild => u "child" | MChildOrSelf => u "child-or-self" | MDescendant => u "descendant"
         | MDescendantOrSelf => u "descendant-or-self" | MUnspecified => []
         end.
Record member_written (x : xml) (m : filter_member) : Prop := {
  mw_value : exists c, last_child is_member_value x c /\ member_value c (fm_member m);
  mw_linkrole : (exists c t, last_child (filter_el "dimension" "linkrole") x c /\ says c t /\ fm_linkrole m = Some t) \/
    no_child (filter_el "dimension" "linkrole") x /\ fm_linkrole m = None;
  mw_arcrole : (exists c t, last_child (filter_el "dimension" "arcrole") x c /\ says c t /\ fm_arcrole m = Some t) \/
    no_child (filter_el "dimension" "arcrole") x /\ fm_arcrole m = None;
  mw_axes : forall k, In k (x_kids x) -> filter_el "dimension" "axis" k -> exists a, member_axis_written k a;
  mw_axis : (exists c, last_child (filter_el "dimension" "axis") x c /\ member_axis_written c (fm_axis m)) \/
    no_child (filter_el "dimension" "axis") x /\ fm_axis m = MUnspecified }.
