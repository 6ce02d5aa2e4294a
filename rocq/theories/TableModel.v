(** Model of the table linkbases: brel/table_linkbases/** and
    brel/parsers/XML/table_linkbase/xml_table_linkbase_parser.py.

    Modelled: finding the table linkbases, linking tables, breakdowns and definition nodes by arcs,
    handing the parent-child order down, storing the tables.

    Simplifications:
    - the resources (tables, breakdowns, rule nodes, relationship nodes, aspect nodes) of one
      extended link are given by class, parent-child order and label; the other data of a node
      (rule sets, formulas, aspects, filters) is left out, and so are filter and parameter arcs;
    - an object is named by the position of its element in the link; objects are mutable in Python,
      so the fields that change ([parent_child_order], [roots], [children], [breakdowns]) are maps
      from names;
    - the sort numbers kept beside breakdowns, roots and children are checked to be integers and
      then dropped;
    - recursion is bounded by fuel; running out of every fuel stands for the RecursionError of an
      endless recursion (CPython's limit on the depth of a finite recursion is not modelled). *)
From Verif Require Import Base PyNum CtxModel.
Local Open Scope nat_scope.

(** table_linkbases/parent_child_order.py:4-7 *)
Inductive porder := ParentFirst | ChildrenFirst | Unspecified.

(** [ParentChildOrder(text)] *)
Definition porder_of (text : str) : res porder :=
  if str_eqb text (u "parent-first") then Ok ParentFirst
  else if str_eqb text (u "children-first") then Ok ChildrenFirst
  else if str_eqb text [] then Ok Unspecified
  else Raise ValueError.

(** xml_table_linkbase_parser.py:84-93 *)
Definition parse_parent_child_order (element : xml) : res porder :=
  porder_of (match attr element (u "parentChildOrder") with Some v => v | None => [] end).

Definition is_unspecified (o : porder) : bool :=
  match o with Unspecified => true | _ => false end.

(** The classes of the resources.  RuleNode and RelationshipNode are ClosedDefinitionNodes,
    AspectNode is an OpenDefinitionNode (definition_model/definition_nodes/*.py). *)
Inductive cls := CTable | CBreakdown | CRule | CRelationship | CAspect.

Definition is_node (c : cls) : bool :=
  match c with CRule | CRelationship | CAspect => true | _ => false end.

Record resource := Resource { r_class : cls; r_order : porder; r_label : option str }.

Inductive arc_kind := TableBreakdown | BreakdownTree | NodeSubtree.
Record arc := Arc { a_kind : arc_kind; a_from : option str; a_to : option str;
                    a_axis : option str; a_order : option str }.

(** The children of an extended link, in document order. *)
Inductive item := IResource (r : resource) | IArc (a : arc).

(** ** Propagation *)

(** The objects: classes and references are fixed while the orders are handed down. *)
Record heap := Heap { h_class : nat -> cls; h_kids : nat -> list nat;
                      h_x : nat -> list nat; h_y : nat -> list nat; h_z : nat -> list nat }.
Definition orders := nat -> porder.

Definition upd {A} (f : nat -> A) (n : nat) (v : A) : nat -> A :=
  fun m => if Nat.eqb m n then v else f m.

(** [for k in l: body] *)
Fixpoint each {S} (body : S -> nat -> res S) (s : S) (l : list nat) : res S :=
  match l with [] => Ok s | k :: r => do! s' <- body s k; each body s' r end.

(** definition_model/breakdown.py:31-36, definition_nodes/closed_definition_node.py:19-25 (own order,
    then the children with the order the object has now) and definition_nodes/definition_node.py:27-29
    (an aspect node hands on what it is given). *)
Fixpoint propagate (fuel : nat) (h : heap) (st : orders) (n : nat) (given : porder) : res orders :=
  match fuel with
  | O => Raise OutOfFuel
  | S f =>
      match h_class h n with
      | CAspect => each (fun s k => propagate f h s k given) st (h_kids h n)
      | _ =>
          let st1 := if is_unspecified (st n) then upd st n given else st in
          each (fun s k => propagate f h s k (s n)) st1 (h_kids h n)
      end
  end.

(** definition_model/table.py:41-47 *)
Definition table_propagate (fuel : nat) (h : heap) (st : orders) (t : nat) : res orders :=
  let st1 := if is_unspecified (st t) then upd st t ParentFirst else st in
  each (fun s k => propagate fuel h s k (s t)) st1 (h_x h t ++ h_y h t ++ h_z h t).

(** xml_table_linkbase_parser.py:768-770 *)
Definition propagate_all (fuel : nat) (h : heap) (st : orders) (tables : list nat) : res orders :=
  each (table_propagate fuel h) st tables.

(** ** Linking *)

Record labels := Labels { l_tables : list (str * nat); l_breakdowns : list (str * nat);
                          l_nodes : list (str * nat) }.

(** xml_table_linkbase_parser.py:683-697 *)
Definition add_unique (label : option str) (n : nat) (d : list (str * nat)) : list (str * nat) :=
  match label with
  | None | Some [] => d
  | Some l => dict_set str_eqb d l n
  end.

(** xml_table_linkbase_parser.py:704-750 *)
Fixpoint collect (items : list item) (n : nat) (L : labels) : labels :=
  match items with
  | [] => L
  | IArc _ :: rest => collect rest (S n) L
  | IResource r :: rest =>
      collect rest (S n)
        match r_class r with
        | CTable => Labels (add_unique (r_label r) n (l_tables L)) (l_breakdowns L) (l_nodes L)
        | CBreakdown => Labels (l_tables L) (add_unique (r_label r) n (l_breakdowns L)) (l_nodes L)
        | _ => Labels (l_tables L) (l_breakdowns L) (add_unique (r_label r) n (l_nodes L))
        end
  end.

(** [d.get(label)] for a label that was found truthy *)
Definition lookup (label : option str) (d : list (str * nat)) : option nat :=
  match label with None | Some [] => None | Some l => dict_get str_eqb d l end.

(** [int(get_str_attribute(arc, "order", "1.0"))] *)
Definition arc_order (a : arc) : res Z :=
  match py_int (match a_order a with Some o => o | None => u "1.0" end) with
  | Some z => Ok z
  | None => Raise ValueError
  end.

Definition snoc_at (f : nat -> list nat) (n k : nat) : nat -> list nat := upd f n (f n ++ [k]).

(** definition_model/table.py:37-39 with [Axis(axis)] (table_linkbases/axis.py:4-7) *)
Definition add_breakdown (h : heap) (t b : nat) (axis : option str) : res heap :=
  match axis with
  | None => Raise ValueError
  | Some s =>
      if str_eqb s (u "x") then Ok (Heap (h_class h) (h_kids h) (snoc_at (h_x h) t b) (h_y h) (h_z h))
      else if str_eqb s (u "y") then Ok (Heap (h_class h) (h_kids h) (h_x h) (snoc_at (h_y h) t b) (h_z h))
      else if str_eqb s (u "z") then Ok (Heap (h_class h) (h_kids h) (h_x h) (h_y h) (snoc_at (h_z h) t b))
      else Raise ValueError
  end.

(** [add_root] (definition_model/breakdown.py:28-29), [add_child] (definition_nodes/definition_node.py:24-25) *)
Definition add_kid (h : heap) (n k : nat) : heap :=
  Heap (h_class h) (snoc_at (h_kids h) n k) (h_x h) (h_y h) (h_z h).

(** xml_table_linkbase_parser.py:428-472, 475-516, 519-562 *)
Definition parse_arc (L : labels) (h : heap) (a : arc) : res heap :=
  match a_kind a with
  | TableBreakdown =>
      match lookup (a_from a) (l_tables L), lookup (a_to a) (l_breakdowns L) with
      | Some t, Some b => do! h' <- add_breakdown h t b (a_axis a); do! _ <- arc_order a; Ok h'
      | _, _ => Ok h
      end
  | BreakdownTree =>
      match lookup (a_from a) (l_breakdowns L), lookup (a_to a) (l_nodes L) with
      | Some b, Some k => do! _ <- arc_order a; Ok (add_kid h b k)
      | _, _ => Ok h
      end
  | NodeSubtree =>
      match lookup (a_from a) (l_nodes L), lookup (a_to a) (l_nodes L) with
      | Some n, Some k =>
          match h_class h n with
          | CRelationship => Ok h
          | _ => do! _ <- arc_order a; Ok (add_kid h n k)
          end
      | _, _ => Ok h
      end
  end.

(** xml_table_linkbase_parser.py:752-766 *)
Fixpoint link_arcs (L : labels) (h : heap) (items : list item) : res heap :=
  match items with
  | [] => Ok h
  | IResource _ :: rest => link_arcs L h rest
  | IArc a :: rest => do! h' <- parse_arc L h a; link_arcs L h' rest
  end.

Definition class_at (items : list item) (n : nat) : cls :=
  match nth_error items n with Some (IResource r) => r_class r | _ => CTable end.
Definition order_at (items : list item) (n : nat) : porder :=
  match nth_error items n with Some (IResource r) => r_order r | _ => Unspecified end.

Definition empty_heap (items : list item) : heap :=
  Heap (class_at items) (fun _ => []) (fun _ => []) (fun _ => []) (fun _ => []).

(** xml_table_linkbase_parser.py:656-772: the tables, the objects and the final orders *)
Definition parse_link (fuel : nat) (items : list item) : res (list nat * heap * orders) :=
  let L := collect items 0 (Labels [] [] []) in
  do! h <- link_arcs L (empty_heap items) items;
  let tables := map snd (l_tables L) in
  do! st <- propagate_all fuel h (order_at items) tables;
  Ok (tables, h, st).

(** ** Finding and storing *)

Definition tag_is (name : str) (x : xml) : bool := opt_eqb str_eqb (x_tag x) (Some name).

(** xml_table_linkbase_parser.py:51-81 *)
Definition find_table_linkbase_elements (roots : list xml) : list xml :=
  flat_map (fun root =>
    if tag_is (u "{http://xbrl.org/2003/linkbase}linkbase") root then
      filter (fun child => tag_is (u "{http://xbrl.org/2008/generic}link") child &&
                           existsb (tag_is (u "{http://xbrl.org/2014/table}table")) (x_kids child))
             (x_kids root)
    else []) roots.

(** data/table_linkbase/in_memory_table_linkbase_repository.py:8-11, 25-26: the dictionary makes the
    list of a new link role by calling [List[Table]], which cannot be instantiated. *)
Definition upsert_definition_table {T} (repo : list (str * list T)) (role : str) (t : T)
  : res (list (str * list T)) :=
  match dict_get str_eqb repo role with
  | Some l => Ok (dict_set str_eqb repo role (l ++ [t]))
  | None => Raise TypeError
  end.

(** xml_table_linkbase_parser.py:775-787; [parse_element] is [parse_table_linkbase_element]; [T] the
    tables, given with their link role. *)
Fixpoint upsert_all {T} (repo : list (str * list T)) (l : list (str * T)) : res (list (str * list T)) :=
  match l with
  | [] => Ok repo
  | (role, t) :: rest => do! repo' <- upsert_definition_table repo role t; upsert_all repo' rest
  end.

Definition parse_table_linkbases {T} (parse_element : xml -> res (list (str * T))) (roots : list xml)
  : res (list (str * list T)) :=
  do! sets <- map_res parse_element (find_table_linkbase_elements roots);
  upsert_all [] (concat sets).
