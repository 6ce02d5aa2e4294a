(** Model of what the nodes and filters of table linkbases contain:
    brel/parsers/XML/formula/xml_aspect_formula_parser.py (AF), xml_filter_parser.py (FP),
    brel/formula, brel/table_linkbases/definition_model and the parsers of resources in
    brel/parsers/XML/table_linkbase/xml_table_linkbase_parser.py (TP).

    Simplifications:
    - an XPath expression is its text; a source of a relationship is a name (QName), the text that
      stands for the root is [SourceRoot];
    - [Dimension.is_explicit] is the parameter [explicit], the names in the aspect repository are
      the parameter [aspects];
    - the sort number of arcs is as in TableModel; the filters of tables and aspect nodes are kept
      in a list of pairs beside the objects. *)
From Verif Require Import Base Regex PyNum QNameModel CtxModel TableModel.
Local Open Scope nat_scope.

(** [child.text or ""] *)
Definition text_of (x : xml) : str := match x_text x with Some t => t | None => [] end.

(** [get_str_attribute(element, name, default)] *)
Definition attr_or (x : xml) (name default : str) : str :=
  match attr x name with Some v => v | None => default end.

(** [qname_from_str(text, element)] for the text of an element *)
Definition name_in (x : xml) : res qname := qname_from_str (text_of x) (x_scope x).

(** AF 19, FP 27, TP 44-48 *)
Definition formula_prefix (x : str) : str := u "{http://xbrl.org/2008/formula}" ++ x.
Definition filter_prefix (kind x : str) : str :=
  u "{http://xbrl.org/2014/filter/" ++ kind ++ u "}" ++ x.
Definition table_prefix (x : str) : str := u "{http://xbrl.org/2014/table}" ++ x.
Definition xlink_prefix (x : str) : str := u "{http://www.w3.org/1999/xlink}" ++ x.

(** [QName | XPathExpression] *)
Inductive name_or_expr := Name (q : qname) | Expr (text : str).

(** ** Formula rules *)

(** brel/formula/aspects: ConceptFormula, EntityIdentifierFormula, PeriodForeverFormula,
    PeriodInstantFormula, PeriodDurationFormula, ExplicitDimensionFormula *)
Inductive formula :=
| FConcept (x : name_or_expr)
| FEntity (scheme value : option str)
| FForever
| FInstant (value : option str)
| FDuration (start end_ : option str)
| FDimension (dimension : qname) (member : option name_or_expr).

(** [AspectFormula.get_aspect().get_name()]: brel_aspect.py:170-173, the constructors of the
    formulas, dimension_formula.py:9 *)
Definition formula_aspect (f : formula) : str :=
  match f with
  | FConcept _ => u "concept"
  | FEntity _ _ => u "entity"
  | FForever | FInstant _ | FDuration _ _ => u "period"
  | FDimension d _ => clark_notation d
  end.

(** AF 22-38 *)
Fixpoint first_concept (kids : list xml) : res (option formula) :=
  match kids with
  | [] => Ok None
  | child :: rest =>
      if tag_is (formula_prefix (u "qname")) child then
        do! q <- name_in child; Ok (Some (FConcept (Name q)))
      else if tag_is (formula_prefix (u "qnameExpression")) child then
        Ok (Some (FConcept (Expr (text_of child))))
      else first_concept rest
  end.
Definition parse_concept_formula_element (element : xml) : res (option formula) :=
  match x_kids element with [] => Ok None | kids => first_concept kids end.

(** AF 40-53 *)
Definition parse_entity_identifier_formula_element (element : xml) : res (option formula) :=
  match attr element (u "scheme"), attr element (u "value") with
  | None, None => Ok None
  | scheme, value => Ok (Some (FEntity scheme value))
  end.

(** AF 56-85 *)
Definition parse_period_formula_element (element : xml) : res (option formula) :=
  match x_kids element with
  | [child] =>
      if tag_is (formula_prefix (u "forever")) child then Ok (Some FForever)
      else if tag_is (formula_prefix (u "instant")) child then Ok (Some (FInstant (attr child (u "value"))))
      else if tag_is (formula_prefix (u "duration")) child then
        Ok (Some (FDuration (attr child (u "start")) (attr child (u "end"))))
      else Ok None
  | _ => Ok None
  end.

(** AF 88-122 *)
Definition parse_explicit_dimension_formula_element (element : xml) : res (option formula) :=
  match attr element (u "dimension") with
  | None | Some [] => Ok None
  | Some text =>
      do! dimension <- qname_from_str text (x_scope element);
      match x_kids element with
      | [child] =>
          if tag_is (formula_prefix (u "member")) child then
            match x_kids child with
            | [grandchild] =>
                if tag_is (formula_prefix (u "qname")) grandchild then
                  do! q <- name_in grandchild; Ok (Some (FDimension dimension (Some (Name q))))
                else if tag_is (formula_prefix (u "qnameExpression")) grandchild then
                  Ok (Some (FDimension dimension (Some (Expr (text_of grandchild)))))
                else Ok None
            | _ => Ok None
            end
          else if tag_is (formula_prefix (u "omit")) child then Ok (Some (FDimension dimension None))
          else Ok None
      | _ => Ok None
      end
  end.

(** AF 125-142 *)
Definition parse_formula_aspect_element (rule : xml) : res (option formula) :=
  if tag_is (formula_prefix (u "concept")) rule then parse_concept_formula_element rule
  else if tag_is (formula_prefix (u "period")) rule then parse_period_formula_element rule
  else if tag_is (formula_prefix (u "explicitDimension")) rule then parse_explicit_dimension_formula_element rule
  else if tag_is (formula_prefix (u "entityIdentifier")) rule then parse_entity_identifier_formula_element rule
  else if tag_is (formula_prefix (u "typedDimension")) rule then Ok None
  else if tag_is (formula_prefix (u "unit")) rule then Ok None
  else Ok None.

(** ** Rule nodes *)

(** definition_nodes/rule_set.py *)
Record rule_set := RuleSet { rs_tag : option str; rs_rules : list formula }.

Definition add_rule (s : rule_set) (f : formula) : rule_set := RuleSet (rs_tag s) (rs_rules s ++ [f]).

(** TP 141-144 *)
Fixpoint add_rules (s : rule_set) (kids : list xml) : res rule_set :=
  match kids with
  | [] => Ok s
  | k :: rest =>
      do! rule <- parse_formula_aspect_element k;
      add_rules (match rule with Some f => add_rule s f | None => s end) rest
  end.

(** TP 132-146 *)
Definition parse_rule_set_element (element : xml) : res (option rule_set) :=
  match attr element (u "tag") with
  | None | Some [] => Ok None
  | Some tag => do! s <- add_rules (RuleSet (Some tag) []) (x_kids element); Ok (Some s)
  end.

(** TP 152-165: the default rule set and the tagged ones *)
Fixpoint rule_sets_loop (default : rule_set) (sets : list rule_set) (kids : list xml)
  : res (rule_set * list rule_set) :=
  match kids with
  | [] => Ok (default, sets)
  | child :: rest =>
      if tag_is (table_prefix (u "ruleSet")) child then
        do! s <- parse_rule_set_element child;
        rule_sets_loop default (match s with Some s => sets ++ [s] | None => sets end) rest
      else
        do! rule <- parse_formula_aspect_element child;
        rule_sets_loop (match rule with Some f => add_rule default f | None => default end) sets rest
  end.

(** TP 149-170 *)
Definition parse_rule_sets (element : xml) : res (list rule_set) :=
  do! r <- rule_sets_loop (RuleSet None []) [] (x_kids element);
  let '(default, sets) := r in
  Ok match rs_rules default with
     | [] => match sets with [] => [default] | _ => sets end
     | _ => sets ++ [default]
     end.

(** definition_nodes/rule_node.py; the sets are a dictionary by tag *)
Record rule_node := RuleNode {
  rn_abstract : bool; rn_merge : bool; rn_order : porder; rn_selector : option str;
  rn_id : option str; rn_label : option str; rn_sets : list (option str * rule_set) }.

(** TP 104-109 *)
Definition parse_label (x : xml) : option str := attr x (xlink_prefix (u "label")).
Definition parse_id (x : xml) : option str := attr x (u "id").

(** TP 173-195 *)
Definition parse_rule_node_element (element : xml) : res rule_node :=
  let abstract := str_eqb (attr_or element (u "abstract") (u "false")) (u "true") in
  let merge := str_eqb (attr_or element (u "merge") (u "false")) (u "true") in
  do! order <- parse_parent_child_order element;
  do! sets <- parse_rule_sets element;
  Ok (RuleNode abstract merge order (attr element (u "tagSelector")) (parse_id element) (parse_label element)
       (fold_left (fun d s => dict_set key_eqb d (rs_tag s) s) sets [])).

(** ** Relationship nodes *)

(** table_linkbases/formula_axis.py *)
Inductive axis := Descendant | Child | Sibling | SiblingOrDescendant | DescendantOrSelf | ChildOrSelf
  | SiblingOrSelf | SiblingOrDescendantOrSelf.
Definition axis_value (a : axis) : str :=
  match a with
  | Descendant => u "descendant" | Child => u "child" | Sibling => u "sibling"
  | SiblingOrDescendant => u "sibling-or-descendant" | DescendantOrSelf => u "descendant-or-self"
  | ChildOrSelf => u "child-or-self" | SiblingOrSelf => u "sibling-or-self"
  | SiblingOrDescendantOrSelf => u "sibling-or-descendant-or-self"
  end.

(** Values that Python compares: a member of an enumeration never equals a text. *)
Inductive pyval := PAxis (a : axis) | PStr (s : str).
Definition axis_eqb (a b : axis) : bool := str_eqb (axis_value a) (axis_value b).
Definition pyval_eqb (a b : pyval) : bool :=
  match a, b with
  | PAxis x, PAxis y => axis_eqb x y
  | PStr x, PStr y => str_eqb x y
  | _, _ => false
  end.
Definition all_axes : list axis :=
  [Descendant; Child; Sibling; SiblingOrDescendant; DescendantOrSelf; ChildOrSelf; SiblingOrSelf;
   SiblingOrDescendantOrSelf].

(** [FormulaAxis(text)] *)
Definition axis_of (text : str) : res axis :=
  match find (fun a => str_eqb (axis_value a) text) all_axes with
  | Some a => Ok a
  | None => Raise ValueError
  end.

Inductive source := SourceName (q : qname) | SourceRoot.

(** definition_nodes/relationship_node.py with the two classes below it *)
Record relationship := Relationship {
  rl_sources : list source; rl_linkrole : str; rl_axis : axis; rl_generations : Z; rl_order : porder;
  rl_selector : option str; rl_id : option str; rl_label : option str }.

Record rel_state := RelState { st_sources : list source; st_linkrole : str; st_axis : axis; st_generations : Z }.

Definition default_linkrole : str := u "http://www.xbrl.org/2003/role/link".
Definition root_tag : str := u "{http://www.xbrl.org/2008/function/instance}root".

(** TP 214-250: [None] where the function returns None *)
Fixpoint relationship_loop (rep : repository) (is_dimension_relationship : bool) (st : rel_state)
    (kids : list xml) : res (option rel_state) :=
  match kids with
  | [] => Ok (Some st)
  | child :: rest =>
      let go st := relationship_loop rep is_dimension_relationship st rest in
      if tag_is (table_prefix (u "relationshipSource")) child then
        do! q <- name_in child;
        if negb (has_typed_qname is_concept rep q) && negb (tag_is root_tag child) then Ok None
        else go (RelState (st_sources st ++ [SourceName q]) (st_linkrole st) (st_axis st) (st_generations st))
      else if tag_is (table_prefix (u "linkrole")) child then
        go (RelState (st_sources st) (text_of child) (st_axis st) (st_generations st))
      else if tag_is (table_prefix (u "formulaAxis")) child then
        if negb (existsb (pyval_eqb (PAxis (st_axis st))) (map (fun a => PStr (axis_value a)) all_axes)) then Ok None
        else if is_dimension_relationship && contains (u "sibling") (axis_value (st_axis st)) then Ok None
        else do! a <- axis_of (text_of child);
             go (RelState (st_sources st) (st_linkrole st) a (st_generations st))
      else if tag_is (table_prefix (u "generations")) child then
        let n := match py_int (text_of child) with
                 | Some z => if (0 <? z)%Z then z else 0%Z
                 | None => 0%Z
                 end in
        go (RelState (st_sources st) (st_linkrole st) (st_axis st) n)
      else go st
  end.

(** TP 198-277 *)
Definition parse_relationship_element (rep : repository) (is_dimension_relationship : bool) (element : xml)
  : res (option relationship) :=
  do! order <- parse_parent_child_order element;
  do! r <- relationship_loop rep is_dimension_relationship
             (RelState [] default_linkrole DescendantOrSelf 0%Z) (x_kids element);
  match r with
  | None => Ok None
  | Some st =>
      if negb (contains (u "descendant") (axis_value (st_axis st))) && (1 <? st_generations st)%Z then Ok None
      else
        let sources := if negb is_dimension_relationship && is_nil (st_sources st) then [SourceRoot]
                       else st_sources st in
        Ok (Some (Relationship sources (st_linkrole st) (st_axis st) (st_generations st) order
                    (attr element (u "tagSelector")) (parse_id element) (parse_label element)))
  end.

(** ConceptRelationshipNode after [set_arcrole], [set_arcname], [set_linkname] *)
Record concept_relationship := ConceptRelationship {
  cr_base : relationship; cr_arcrole : str; cr_arcname : qname; cr_linkname : qname }.

(** TP 296-305 *)
Fixpoint concept_loop (arcrole : option str) (arcname linkname : option qname) (kids : list xml)
  : res (option str * option qname * option qname) :=
  match kids with
  | [] => Ok (arcrole, arcname, linkname)
  | child :: rest =>
      if tag_is (table_prefix (u "arcrole")) child then concept_loop (Some (text_of child)) arcname linkname rest
      else if tag_is (table_prefix (u "arcname")) child then
        do! q <- name_in child; concept_loop arcrole (Some q) linkname rest
      else if tag_is (table_prefix (u "linkname")) child then
        do! q <- name_in child; concept_loop arcrole arcname (Some q) rest
      else concept_loop arcrole arcname linkname rest
  end.

(** TP 280-323 *)
Definition parse_concept_relationship_node_element (rep : repository) (element : xml)
  : res (option concept_relationship) :=
  do! base <- parse_relationship_element rep false element;
  match base with
  | None => Ok None
  | Some base =>
      do! r <- concept_loop None None None (x_kids element);
      match r with
      | (Some ((_ :: _) as arcrole), Some arcname, Some linkname) =>
          Ok (Some (ConceptRelationship base arcrole arcname linkname))
      | _ => Ok None
      end
  end.

(** DimensionRelationshipNode after [set_dimension] *)
Record dimension_relationship := DimensionRelationship { dr_base : relationship; dr_dimension : element }.

(** TP 342-360: [Ok None] where the function returns None inside the loop *)
Fixpoint dimension_loop (rep : repository) (explicit : element -> bool) (dimension : option element)
    (kids : list xml) : res (option (option element)) :=
  match kids with
  | [] => Ok (Some dimension)
  | child :: rest =>
      if tag_is (table_prefix (u "dimension")) child then
        do! q <- name_in child;
        if negb (has_typed_qname is_dimension rep q) then Ok None
        else
          do! d <- get_typed_by_qname is_dimension rep q;
          if negb (explicit d) then Ok None else dimension_loop rep explicit (Some d) rest
      else dimension_loop rep explicit dimension rest
  end.

(** TP 326-369 *)
Definition parse_dimension_relationship_node_element (rep : repository) (explicit : element -> bool) (element : xml)
  : res (option dimension_relationship) :=
  do! base <- parse_relationship_element rep true element;
  match base with
  | None => Ok None
  | Some base =>
      do! r <- dimension_loop rep explicit None (x_kids element);
      match r with
      | Some (Some d) => Ok (Some (DimensionRelationship base d))
      | _ => Ok None
      end
  end.

(** ** Aspect nodes *)

(** definition_nodes/aspect_node.py; the aspect is known by its name *)
Record aspect_node := AspectNode {
  an_aspect : str; an_unreported : bool; an_id : option str; an_label : option str }.

(** TP 382-404 *)
Fixpoint aspect_loop (aspects : list str) (aspect : option str) (unreported : bool) (kids : list xml)
  : res (option (option str * bool)) :=
  match kids with
  | [] => Ok (Some (aspect, unreported))
  | child :: rest =>
      if tag_is (table_prefix (u "conceptAspect")) child then aspect_loop aspects (Some (u "concept")) unreported rest
      else if tag_is (table_prefix (u "entityIdentifierAspect")) child then aspect_loop aspects (Some (u "entity")) unreported rest
      else if tag_is (table_prefix (u "periodAspect")) child then aspect_loop aspects (Some (u "period")) unreported rest
      else if tag_is (table_prefix (u "unitAspect")) child then aspect_loop aspects (Some (u "unit")) unreported rest
      else if tag_is (table_prefix (u "dimensionAspect")) child then
        let unreported' := str_eqb (attr_or child (u "includeUnreportedValue") (u "false")) (u "true") in
        do! q <- name_in child;
        if negb (existsb (str_eqb (prefix_local_notation q)) aspects) then Ok None
        else aspect_loop aspects (Some (prefix_local_notation q)) unreported' rest
      else aspect_loop aspects aspect unreported rest
  end.

(** TP 372-410 *)
Definition parse_aspect_node_element (aspects : list str) (element : xml) : res (option aspect_node) :=
  do! r <- aspect_loop aspects None false (x_kids element);
  match r with
  | Some (Some a, unreported) => Ok (Some (AspectNode a unreported (parse_id element) (parse_label element)))
  | _ => Ok None
  end.

(** ** Filters *)

(** filters/dimension/member_axis.py *)
Inductive member_axis := MChild | MChildOrSelf | MDescendant | MDescendantOrSelf | MUnspecified.
Definition member_axis_of (text : str) : option member_axis :=
  if str_eqb text (u "child") then Some MChild
  else if str_eqb text (u "child-or-self") then Some MChildOrSelf
  else if str_eqb text (u "descendant") then Some MDescendant
  else if str_eqb text (u "descendant-or-self") then Some MDescendantOrSelf
  else if str_eqb text [] then Some MUnspecified
  else None.

(** filters/dimension/explicit_dimension_filter_member.py *)
Record filter_member := FilterMember {
  fm_member : name_or_expr; fm_linkrole : option str; fm_arcrole : option str; fm_axis : member_axis }.

Inductive boundary := BStart | BEnd | BInstant.

(** brel/formula/filters: what is selected *)
Inductive filter_kind :=
| KConceptName (names : list qname) (expressions : list str)
| KExplicitDimension (dimension : name_or_expr) (members : list filter_member)
| KTypedDimension (dimension : name_or_expr) (test : option str)
| KPeriod (test : str)
| KDateTime (b : boundary) (date : str) (time : option str)
| KForever.

(** filters/filter.py *)
Record table_filter := TFilter {
  tf_kind : filter_kind; tf_label : option str; tf_id : option str }.

(** FP 56-65: the children of one [concept] element *)
Fixpoint concept_names (names : list qname) (exprs : list str) (kids : list xml)
  : res (option (list qname * list str)) :=
  match kids with
  | [] => Ok (Some (names, exprs))
  | g :: rest =>
      if tag_is (filter_prefix (u "concept") (u "qname")) g then
        do! q <- name_in g; concept_names (names ++ [q]) exprs rest
      else if opt_eqb str_eqb (x_text g) (Some (filter_prefix (u "concept") (u "qnameExpression"))) then
        concept_names names (exprs ++ [text_of g]) rest
      else Ok None
  end.

(** FP 47-65 *)
Fixpoint concept_filter_loop (names : list qname) (exprs : list str) (kids : list xml)
  : res (option (list qname * list str)) :=
  match kids with
  | [] => Ok (Some (names, exprs))
  | child :: rest =>
      if negb (tag_is (filter_prefix (u "concept") (u "concept")) child) then Ok None
      else if 1 <? length (x_kids child) then Ok None
      else
        do! r <- concept_names names exprs (x_kids child);
        match r with
        | Some (names', exprs') => concept_filter_loop names' exprs' rest
        | None => Ok None
        end
  end.

(** FP 38-67 *)
Definition parse_concept_name_filter_element (element : xml) : res (option table_filter) :=
  do! r <- concept_filter_loop [] [] (x_kids element);
  Ok match r with
     | Some (names, exprs) =>
         Some (TFilter (KConceptName names exprs) (attr element (u "label")) (attr element (u "id")))
     | None => None
     end.

(** FP 78-83 *)
Fixpoint dimension_names (dimension : option name_or_expr) (kids : list xml) : res (option name_or_expr) :=
  match kids with
  | [] => Ok dimension
  | child :: rest =>
      if tag_is (filter_prefix (u "concept") (u "qname")) child then
        do! q <- name_in child; dimension_names (Some (Name q)) rest
      else if opt_eqb str_eqb (x_text child) (Some (filter_prefix (u "concept") (u "qnameExpression"))) then
        dimension_names (Some (Expr (text_of child))) rest
      else dimension_names dimension rest
  end.

(** FP 70-88 *)
Definition parse_dimension_element (element : xml) : res (option name_or_expr) :=
  if 0 <? length (x_kids element) then Ok None else dimension_names None (x_kids element).

(** FP 99-121: [None] where the function returns None inside the loop *)
Fixpoint member_loop (member : option name_or_expr) (linkrole arcrole : option str) (ax : member_axis)
    (kids : list xml) : res (option (option name_or_expr * option str * option str * member_axis)) :=
  match kids with
  | [] => Ok (Some (member, linkrole, arcrole, ax))
  | child :: rest =>
      if tag_is (filter_prefix (u "dimension") (u "qname")) child then
        do! q <- name_in child; member_loop (Some (Name q)) linkrole arcrole ax rest
      else if tag_is (filter_prefix (u "dimension") (u "qnameExpression")) child then
        member_loop (Some (Expr (text_of child))) linkrole arcrole ax rest
      else if tag_is (filter_prefix (u "dimension") (u "variable")) child then
        do! q <- name_in child; member_loop (Some (Name q)) linkrole arcrole ax rest
      else if tag_is (filter_prefix (u "dimension") (u "linkrole")) child then
        member_loop member (Some (text_of child)) arcrole ax rest
      else if tag_is (filter_prefix (u "dimension") (u "arcrole")) child then
        member_loop member linkrole (Some (text_of child)) ax rest
      else if tag_is (filter_prefix (u "dimension") (u "axis")) child then
        match member_axis_of (text_of child) with
        | Some ax' => member_loop member linkrole arcrole ax' rest
        | None => Ok None
        end
      else member_loop member linkrole arcrole ax rest
  end.

(** FP 91-134 *)
Definition parse_member_element (element : xml) : res (option filter_member) :=
  do! r <- member_loop None None None MUnspecified (x_kids element);
  Ok match r with
     | Some (Some m, linkrole, arcrole, ax) => Some (FilterMember m linkrole arcrole ax)
     | _ => None
     end.

(** FP 145-168: [Ok None] where the function returns None *)
Fixpoint explicit_loop (f : option (name_or_expr * list filter_member)) (kids : list xml)
  : res (option (name_or_expr * list filter_member)) :=
  match kids with
  | [] => Ok f
  | child :: rest =>
      if tag_is (filter_prefix (u "dimension") (u "dimension")) child then
        match f with
        | Some _ => Ok None
        | None =>
            do! d <- parse_dimension_element child;
            match d with
            | None => Ok None
            | Some d => explicit_loop (Some (d, [])) rest
            end
        end
      else if tag_is (filter_prefix (u "dimension") (u "member")) child then
        match f with
        | None => Ok None
        | Some (d, members) =>
            do! m <- parse_member_element child;
            explicit_loop (Some (d, match m with Some m => members ++ [m] | None => members end)) rest
        end
      else explicit_loop f rest
  end.

(** FP 137-174 *)
Definition parse_explicit_dimension_filter_element (element : xml) : res (option table_filter) :=
  do! r <- explicit_loop None (x_kids element);
  Ok match r with
     | Some (d, members) =>
         Some (TFilter (KExplicitDimension d members) (attr element (u "label")) (attr element (u "id")))
     | None => None
     end.

(** FP 177-202 *)
Definition parse_typed_dimension_filter_element (element : xml) : res (option table_filter) :=
  match find (tag_is (filter_prefix (u "dimension") (u "dimension"))) (x_kids element) with
  | None => Ok None
  | Some child =>
      do! d <- parse_dimension_element child;
      Ok match d with
         | None => None
         | Some d => Some (TFilter (KTypedDimension d (attr element (u "test"))) (attr element (u "label")) (attr element (u "id")))
         end
  end.

(** FP 205-217 *)
Definition parse_period_filter_element (element : xml) : option table_filter :=
  match attr element (u "test") with
  | None => None
  | Some t => Some (TFilter (KPeriod t) (attr element (u "label")) (attr element (u "id")))
  end.

(** FP 220-252 *)
Definition parse_period_date_time_filter_element (element : xml) (b : boundary) : option table_filter :=
  match attr element (u "date") with
  | None | Some [] => None
  | Some d => Some (TFilter (KDateTime b d (attr element (u "time"))) (attr element (u "label")) (attr element (u "id")))
  end.

(** FP 255-261 *)
Definition parse_forever_filter_element (element : xml) : option table_filter :=
  Some (TFilter KForever (attr element (u "label")) (attr element (u "id"))).

(** FP 264-291 *)
Definition parse_filter_element (element : xml) : res (option table_filter) :=
  if tag_is (filter_prefix (u "concept") (u "conceptName")) element then parse_concept_name_filter_element element
  else if tag_is (filter_prefix (u "dimension") (u "explicitDimension")) element then
    parse_explicit_dimension_filter_element element
  else if tag_is (filter_prefix (u "dimension") (u "typedDimension")) element then
    parse_typed_dimension_filter_element element
  else if tag_is (filter_prefix (u "period") (u "period")) element then Ok (parse_period_filter_element element)
  else if tag_is (filter_prefix (u "period") (u "periodStart")) element then
    Ok (parse_period_date_time_filter_element element BStart)
  else if tag_is (filter_prefix (u "period") (u "periodEnd")) element then
    Ok (parse_period_date_time_filter_element element BEnd)
  else if tag_is (filter_prefix (u "period") (u "periodInstant")) element then
    Ok (parse_period_date_time_filter_element element BInstant)
  else if tag_is (filter_prefix (u "period") (u "forever")) element then Ok (parse_forever_filter_element element)
  else Ok None.

(** ** The extended link *)

(** What an object of the link holds besides its class, order and label. *)
Inductive node_data :=
| DTable (linkrole : str) (id : option str)
| DBreakdown (id : option str)
| DRule (n : rule_node)
| DRelationship (n : dimension_relationship)
| DAspect (n : aspect_node).

(** What one child of the link gives in the first pass. *)
Inductive entry := ENode (r : resource) (d : node_data) | EFilter (f : table_filter) | ENothing.

(** TP 704-750; a comment has no tag that is a text, so that [tag.startswith] raises. *)
Definition parse_resource (rep : repository) (explicit : element -> bool) (aspects : list str) (linkrole : str)
    (element : xml) : res entry :=
  let relationship :=
    do! n <- parse_dimension_relationship_node_element rep explicit element;
    Ok match n with
       | Some n => ENode (Resource CRelationship (rl_order (dr_base n)) (rl_label (dr_base n))) (DRelationship n)
       | None => ENothing
       end in
  if tag_is (table_prefix (u "table")) element then
    do! order <- parse_parent_child_order element;
    Ok (ENode (Resource CTable order (parse_label element)) (DTable linkrole (parse_id element)))
  else if tag_is (table_prefix (u "breakdown")) element then
    do! order <- parse_parent_child_order element;
    Ok (ENode (Resource CBreakdown order (parse_label element)) (DBreakdown (parse_id element)))
  else if tag_is (table_prefix (u "ruleNode")) element then
    do! n <- parse_rule_node_element element;
    Ok (ENode (Resource CRule (rn_order n) (rn_label n)) (DRule n))
  else if tag_is (table_prefix (u "conceptRelationshipNode")) element then relationship
  else if tag_is (table_prefix (u "dimensionRelationshipNode")) element then relationship
  else if tag_is (table_prefix (u "aspectNode")) element then
    do! n <- parse_aspect_node_element aspects element;
    Ok match n with
       | Some n => ENode (Resource CAspect Unspecified (an_label n)) (DAspect n)
       | None => ENothing
       end
  else
    match x_tag element with
    | None => Raise AttributeError
    | Some tag =>
        if starts_with (u "http://xbrl.org/2008/filter") tag then
          do! f <- parse_filter_element element;
          Ok match f with Some f => EFilter f | None => ENothing end
        else Ok ENothing
    end.

(** The arcs that link objects: TP 752-762, with the attributes the three functions read. *)
Definition read_arc (kind : arc_kind) (x : xml) : arc :=
  Arc kind (attr x (xlink_prefix (u "from"))) (attr x (xlink_prefix (u "to"))) (attr x (u "axis")) (attr x (u "order")).
Definition arc_of (x : xml) : option arc :=
  if tag_is (table_prefix (u "tableBreakdownArc")) x then Some (read_arc TableBreakdown x)
  else if tag_is (table_prefix (u "breakdownTreeArc")) x then Some (read_arc BreakdownTree x)
  else if tag_is (table_prefix (u "definitionNodeSubtreeArc")) x then Some (read_arc NodeSubtree x)
  else None.

(** The objects and arcs of the link in document order, and the filters by label. *)
Fixpoint read_children (rep : repository) (explicit : element -> bool) (aspects : list str) (linkrole : str)
    (filters : list (str * table_filter)) (kids : list xml)
  : res (list (item * option node_data) * list (str * table_filter)) :=
  match kids with
  | [] => Ok ([], filters)
  | x :: rest =>
      do! e <- parse_resource rep explicit aspects linkrole x;
      let filters' :=
        match e with
        | EFilter f => match tf_label f with
                       | None | Some [] => filters
                       | Some l => dict_set str_eqb filters l f
                       end
        | _ => filters
        end in
      do! r <- read_children rep explicit aspects linkrole filters' rest;
      let '(l, fs) := r in
      Ok (match e with
          | ENode r d => (IResource r, Some d) :: l
          | _ => match arc_of x with Some a => (IArc a, None) :: l | None => l end
          end, fs)
  end.

(** A filter of a table or of an aspect node, with the complement flag of its arc (the flag is
    stored in the filter: the last arc decides, filters/filter.py:12-13). *)
Record attached := Attached { at_owner : nat; at_filter : table_filter; at_complement : bool }.

(** TP 565-605, 608-653 *)
Definition attach (L : labels) (c : nat -> cls) (filters : list (str * table_filter)) (x : xml) : list attached :=
  let complement := str_eqb (attr_or x (u "complement") (u "false")) (u "true") in
  let to_filter := match attr x (xlink_prefix (u "to")) with
                   | None | Some [] => None
                   | Some l => dict_get str_eqb filters l
                   end in
  if tag_is (table_prefix (u "tableFilterArc")) x then
    match lookup (attr x (xlink_prefix (u "from"))) (l_tables L), to_filter with
    | Some t, Some f => [Attached t f complement]
    | _, _ => []
    end
  else if tag_is (table_prefix (u "aspectNodeFilterArc")) x then
    match lookup (attr x (xlink_prefix (u "from"))) (l_nodes L), to_filter with
    | Some n, Some f => match c n with CAspect => [Attached n f complement] | _ => [] end
    | _, _ => []
    end
  else [].

(** What is known of a link: the tables, the objects with their data, the final orders and the
    filters of tables and aspect nodes. *)
Record table_link := TableLink {
  tl_tables : list nat; tl_items : list item; tl_data : nat -> option node_data;
  tl_heap : heap; tl_orders : orders; tl_filters : list attached }.

(** TP 656-772 *)
Definition parse_table_linkbase_element (fuel : nat) (rep : repository) (explicit : element -> bool)
    (aspects : list str) (element : xml) : res table_link :=
  let linkrole := attr_or element (xlink_prefix (u "role")) [] in
  do! r <- read_children rep explicit aspects linkrole [] (x_kids element);
  let '(l, filters) := r in
  let items := map fst l in
  do! t <- TableModel.parse_link fuel items;
  let '(tables, h, st) := t in
  Ok (TableLink tables items (fun n => match nth_error l n with Some (_, d) => d | None => None end) h st
       (flat_map (attach (collect items 0 (Labels [] [] [])) (h_class h) filters) (x_kids element))).
