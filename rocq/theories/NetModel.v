(** Networks: nodes, traversal, extended links, combination.
    NN = /repo/brel/networks/*_network_node.py, IN = /repo/brel/networks/i_network_node.py,
    IW = /repo/brel/networks/i_network.py,
    EL = /repo/brel/parsers/XML/networks/xml_extended_link_parser.py,
    XF = /repo/brel/parsers/XML/networks/xml_*_network_factory.py,
    NU = /repo/brel/parsers/utils/network_utils.py. *)
From Coq Require Export QArith Qround.
From Verif Require Import Base.
Open Scope list_scope.
Local Open Scope nat_scope.

(** ** Nodes *)

(** What a node can point to. *)
Inductive otype := OConcept | OElement | OLabel | OReference | OFootnote | OFact.
Record obj := Obj { o_key : nat; o_type : otype }.

(** Node objects live in a heap and are named by their position, so that sharing and mutation are
    visible.  Orders and weights are floats in the code, rational numbers here (an order that is
    no number makes float() raise; NaN is left out).  [n_loc] is not in the code: the position of
    the link element the node was made for.  Arc name, link role and link name are left out. *)
Record node := Node {
  n_loc : nat; n_obj : obj; n_role : str; n_order : Q; n_weight : Q; n_pref : option str; n_kids : list nat }.
Definition heap := list node.

Definition get_children (h : heap) (i : nat) : list nat :=
  match nth_error h i with Some n => n_kids n | None => [] end.
Definition get_order (h : heap) (i : nat) : Q :=
  match nth_error h i with Some n => n_order n | None => 0%Q end.
Definition set_children (n : node) (k : list nat) : node :=
  Node (n_loc n) (n_obj n) (n_role n) (n_order n) (n_weight n) (n_pref n) k.
Definition update (h : heap) (i : nat) (f : node -> node) : heap :=
  firstn i h ++ match nth_error h i with Some n => f n :: skipn (S i) h | None => [] end.

(** presentation_network_node.py 131-141, calculation_network_node.py 125-134,
    definition_network_node.py 80-89, reference_network_node.py 89-94,
    footnote_network_node.py 101-109: append, then sort by order.  All nodes of a heap are of one
    class, so the isinstance test is left out.  label_network_node.py 89-94 only appends; the order
    of a label node is always 1 (label_network_node.py 73-74), so the sort would change nothing. *)
Definition order_leb (h : heap) (x y : nat) : bool := Qle_bool (get_order h x) (get_order h y).
Definition add_child (h : heap) (p c : nat) : heap :=
  update h p (fun n => set_children n (stable_sort (order_leb h) (n_kids n ++ [c]))).
Definition add_all (h : heap) (adds : list (nat * nat)) : heap :=
  fold_left (fun h p => add_child h (fst p) (snd p)) adds h.

(** ** Traversal *)

Definition nmem (x : nat) (l : list nat) : bool := existsb (Nat.eqb x) l.
Definition set_add (x : nat) (l : list nat) : list nat := if nmem x l then l else l ++ [x].

(** IN 124-136 get_all_descendants; the worklist is a stack with its top at the end.  [None]: not
    finished within [fuel] rounds.  A set is a list without repetition. *)
Fixpoint descendants_loop (fuel : nat) (h : heap) (work : list nat) (seen : list nat) : option (list nat) :=
  match rev work with
  | [] => Some seen
  | n :: rest =>
      match fuel with
      | O => None
      | S fuel => descendants_loop fuel h (rev rest ++ get_children h n) (set_add n seen)
      end
  end.
Definition get_all_descendants (fuel : nat) (h : heap) (i : nat) : option (list nat) :=
  descendants_loop fuel h [i] [].

(** IW 115-136 get_all_nodes: recursion over the children; [fuel] bounds its depth *)
Fixpoint add_children (fuel : nat) (h : heap) (i : nat) (nodes : list nat) : option (list nat) :=
  match fuel with
  | O => None
  | S fuel =>
      fold_left (fun acc c => match acc with Some l => add_children fuel h c l | None => None end)
                (get_children h i) (Some (set_add i nodes))
  end.
Definition get_all_nodes (fuel : nat) (h : heap) (roots : list nat) : option (list nat) :=
  fold_left (fun acc r => match acc with Some l => add_children fuel h r l | None => None end) roots (Some []).

(** IN 141-145 *)
Definition is_leaf (h : heap) (i : nat) : bool := Nat.eqb (length (get_children h i)) 0.

(** IW 103-113 get_root *)
Definition get_root (roots : list nat) : res nat :=
  if Nat.ltb 1 (length roots) then Raise ValueError
  else match roots with r :: _ => Ok r | [] => Raise IndexError end.

(** ** Extended links *)

(** An arc with the attributes the code reads.  Missing from, to or arcrole make the code raise a
    ValueError and are left out. *)
Record arc := Arc {
  a_from : str; a_to : str; a_role : str; a_order : option Q; a_weight : option Q; a_pref : option str }.
(** A locator or resource with the object it stands for; [None]: not found (reported, EL 63-70) or
    of unsupported type (reported, EL 74-81), or a resource that is reported and dropped. *)
Record loc := Loc { l_label : str; l_obj : option obj }.

(** Definition links are parsed twice, EL 102-105. *)
Inductive kind := KPresentation | KCalculation | KPhysicalDefinition | KLogicalDefinition | KLabel | KReference | KFootnote.
Definition is_physical (k : kind) : bool :=
  match k with KPresentation | KCalculation | KLogicalDefinition => false | _ => true end.

(** Python's float.__round__: nearest integer, ties to the even one *)
Definition round_half_even (q : Q) : Z :=
  let f := Qfloor q in
  match Qcompare (q - inject_Z f)%Q (1#2)%Q with
  | Lt => f
  | Gt => (f + 1)%Z
  | Eq => if Z.even f then f else (f + 1)%Z
  end.

(** The order of a node without incoming arc (XF: presentation 82 and 95, calculation 69 and 75,
    definition 65, 70, 139 and 143, reference 68 and 80, footnote 72 and 84, label node 73-74). *)
Definition default_order (k : kind) : Q :=
  match k with KPhysicalDefinition | KLogicalDefinition => 0%Q | _ => 1%Q end.
(** The order of a node with an incoming arc (XF: presentation 112, calculation 80, definition 75
    and 147, reference 92, footnote 96; label nodes do not look at it). *)
Definition arc_order (k : kind) (a : arc) : Q :=
  match k with
  | KLabel => 1%Q
  | KLogicalDefinition => inject_Z (round_half_even (match a_order a with Some o => o | None => 0%Q end))
  | _ => match a_order a with Some o => o | None => default_order k end
  end.
Definition STANDARD_LABEL_ROLE : str := u "http://www.xbrl.org/2003/role/label".
(** Only calculation nodes have a weight (XF calculation 78), only presentation nodes a preferred
    label (XF presentation 104-108). *)
Definition arc_weight (k : kind) (a : arc) : Q :=
  match k with KCalculation => match a_weight a with Some w => w | None => 0%Q end | _ => 0%Q end.
Definition arc_pref (k : kind) (a : arc) : option str :=
  match k with
  | KPresentation => Some (match a_pref a with Some p => p | None => STANDARD_LABEL_ROLE end)
  | _ => None
  end.

Definition is_element (t : otype) : bool := match t with OConcept | OElement => true | _ => false end.
(** The type tests: XF presentation 125-128, calculation 93-94 (and calculation_network_node.py
    45-48), definition 88-91 and 158-161, label 84-89, reference 104-109, footnote 108-111 *)
Definition accepts (k : kind) (t : otype) : option exn :=
  match k with
  | KPresentation | KPhysicalDefinition | KLogicalDefinition => if is_element t then None else Some TypeError
  | KCalculation => match t with OConcept => None | _ => Some TypeError end
  | KLabel => match t with OConcept | OElement | OLabel => None | _ => Some TypeError end
  | KReference => match t with OConcept | OElement | OReference => None | _ => Some TypeError end
  | KFootnote => match t with OLabel | OReference => Some ValueError | _ => None end
  end.

(** XF create_node of all seven factories *)
Definition create_node (k : kind) (i : nat) (label : str) (xml_arc : option arc) (o : obj) : res node :=
  do! attrs <-
    match xml_arc with
    | None => Ok (u "unknown", default_order k, 0%Q, None)
    | Some a =>
        if str_eqb (a_from a) label then Ok (a_role a, default_order k, 0%Q, None)
        else if str_eqb (a_to a) label then Ok (a_role a, arc_order k a, arc_weight k a, arc_pref k a)
        else Raise ValueError
    end ;
  let '(role, order, weight, pref) := attrs in
  match accepts k (o_type o) with
  | Some e => Raise e
  | None => Ok (Node i o role order weight pref [])
  end.

Definition edge := (str * str * str)%type.
Definition edge_of (a : arc) : edge := (a_from a, a_to a, a_role a).
Definition edge_eqb (x y : edge) : bool :=
  str_eqb (fst (fst x)) (fst (fst y)) && str_eqb (snd (fst x)) (snd (fst y)) && str_eqb (snd x) (snd y).

(** EL 123-139: first pass over the arcs; the arcs kept and the duplicates reported *)
Definition arc_pass (arcs : list arc) : list arc * list arc :=
  fold_left (fun '(kept, dups) a =>
    if existsb (fun b => edge_eqb (edge_of a) (edge_of b)) kept then (kept, dups ++ [a]) else (kept ++ [a], dups))
    arcs ([], []).
(** EL 138-139: node_to_arcs[label]; a loop is there twice *)
Definition node_to_arcs (kept : list arc) (label : str) : list arc :=
  concat (map (fun a => (if str_eqb (a_from a) label then [a] else []) ++ (if str_eqb (a_to a) label then [a] else [])) kept).

Definition dedup (l : list str) : list str :=
  fold_left (fun acc s => if existsb (str_eqb s) acc then acc else acc ++ [s]) l [].

(** EL 166-218: one node for every arc role around the label; the roles are a set, their order
    only determines the positions of the nodes in our heap.  EL 191-194 is a stable sort with
    reverse=True on a boolean key. *)
Definition physical_nodes (k : kind) (kept : list arc) (i : nat) (label : str) (o : obj) : res (list (node * bool)) :=
  let node_arcs := node_to_arcs kept label in
  let to := filter (fun a => str_eqb (a_to a) label) node_arcs in
  let from := filter (fun a => str_eqb (a_from a) label) node_arcs in
  match to, from with
  | [], [] => do! n <- create_node k i label None o ; Ok [(n, true)]
  | _, _ =>
      let sorted := to ++ filter (fun a => negb (str_eqb (a_to a) label)) node_arcs in
      map_res (fun role =>
        do! n <- create_node k i label (find (fun a => str_eqb (a_role a) role) sorted) o ;
        Ok (n, negb (existsb (str_eqb role) (map a_role to))))
        (dedup (map a_role to ++ map a_role from))
  end.
(** EL 220-247: one node *)
Definition logical_nodes (k : kind) (kept : list arc) (i : nat) (label : str) (o : obj) : res (list (node * bool)) :=
  let node_arcs := node_to_arcs kept label in
  let to := filter (fun a => str_eqb (a_to a) label) node_arcs in
  let from := filter (fun a => str_eqb (a_from a) label) node_arcs in
  let xml_arc := match to, from with a :: _, _ => Some a | [], a :: _ => Some a | [], [] => None end in
  do! n <- create_node k i label xml_arc o ;
  Ok [(n, match to with [] => true | _ => false end)].

(** EL 141-247: the nodes in the order of creation, each with "is a root" *)
Fixpoint node_pass (k : kind) (kept : list arc) (i : nat) (locs : list loc) : res (list (node * bool)) :=
  match locs with
  | [] => Ok []
  | l :: locs' =>
      do! ns <- match l_obj l with
                | None => Ok []
                | Some o => (if is_physical k then physical_nodes else logical_nodes) k kept i (l_label l) o
                end ;
      do! rest <- node_pass k kept (S i) locs' ;
      Ok (ns ++ rest)
  end.

(** nodes_lookup[label]: positions of the nodes made for link elements with the label *)
Definition nodes_lookup (locs : list loc) (h : heap) (label : str) : list nat :=
  filter (fun n => match nth_error h n with
                   | Some x => match nth_error locs (n_loc x) with Some l => str_eqb (l_label l) label | None => false end
                   | None => false
                   end) (seq 0 (length h)).
(** EL 250-264: the parent-child pairs for one edge *)
Definition edge_adds (k : kind) (locs : list loc) (h : heap) (e : edge) : list (nat * nat) :=
  let '(from, to, role) := e in
  let has_role n := match nth_error h n with Some x => str_eqb (n_role x) role | None => false end in
  let pick l := if is_physical k then filter has_role l else l in
  list_prod (pick (nodes_lookup locs h from)) (pick (nodes_lookup locs h to)).

(** EL 116-291 for one factory.  [edge_order] and [root_order]: the iteration orders of the sets
    edges and roots, which are not determined by the document.  The result: heap, networks (each a
    list of roots), and the duplicate arcs reported. *)
Definition parse_link (k : kind) (edge_order : list edge -> list edge) (root_order : list nat -> list nat)
  (arcs : list arc) (locs : list loc) : res (heap * list (list nat) * list arc) :=
  let '(kept, dups) := arc_pass arcs in
  do! ns <- node_pass k kept 0 locs ;
  let h0 := map fst ns in
  let h := add_all h0 (concat (map (edge_adds k locs h0) (edge_order (map edge_of kept)))) in
  let roots := root_order (map fst (filter (fun p => snd (snd p)) (combine (seq 0 (length ns)) ns))) in
  let role_of n := match nth_error h n with Some x => n_role x | None => [] end in
  Ok (h,
      (if is_physical k then map (fun role => filter (fun n => str_eqb (role_of n) role) roots) (dedup (map role_of roots))
       else match roots with [] => [] | _ => [roots] end),
      dups).

(** ** Combination *)

(** NU 7-28: nodes of one class point to the same thing *)
Definition nodes_equal (h : heap) (a b : nat) : bool :=
  match nth_error h a, nth_error h b with
  | Some x, Some y => Nat.eqb (o_key (n_obj x)) (o_key (n_obj y))
  | _, _ => false
  end.

Fixpoint all_descendants (fuel : nat) (h : heap) (roots : list nat) : option (list nat) :=
  match roots with
  | [] => Some []
  | r :: roots' =>
      match get_all_descendants fuel h r, all_descendants fuel h roots' with
      | Some a, Some b => Some (a ++ b)
      | _, _ => None
      end
  end.

(** NU 88-94: the roots of one network.  [agg] are the nodes found at NU 87. *)
Fixpoint combine_roots (h : heap) (agg : list nat) (agg_roots : list nat) (roots : list nat) : heap * list nat :=
  match roots with
  | [] => (h, agg_roots)
  | r :: roots' =>
      match find (fun n => nodes_equal h n r) agg with
      | None => combine_roots h agg (agg_roots ++ [r]) roots'
      | Some p => combine_roots (add_all h (map (fun c => (p, c)) (get_children h r))) agg agg_roots roots'
      end
  end.
(** NU 85-94; [shuffle]: the order in which the sets of descendants are listed *)
Fixpoint combine_loop (fuel : nat) (shuffle : list nat -> list nat) (h : heap) (agg_roots : list nat)
  (networks : list (list nat)) : option (heap * list nat) :=
  match networks with
  | [] => Some (h, agg_roots)
  | roots :: networks' =>
      match all_descendants fuel h agg_roots with
      | None => None
      | Some agg =>
          let '(h, agg_roots) := combine_roots h (shuffle agg) agg_roots roots in
          combine_loop fuel shuffle h agg_roots networks'
      end
  end.
(** NU 31-96 combine_networks: networks are popped from the end; the result of sorted() at NU 69 is
    dropped, so is_prerequisite has no effect on the result.  It does call get_all_nodes of the left of
    the two networks compared, which fails for one with a circle.  The sort of CPython up to 3.12 has, for
    fewer than 64 networks, every network but the first on the left once; these are also the ones whose
    descendants are listed at NU 87, so that it stops for the same networks, but with a RecursionError
    where the model, like i_network_node.py 124-136, does not end.  With no networks: ValueError.  get_children returns the list itself for some node classes; as nodes of
    different networks are different objects, the loop at NU 93 does not change the list it runs
    over, and the children are taken here before the first is added. *)
Definition combine_networks (fuel : nat) (shuffle : list nat -> list nat) (h : heap) (networks : list (list nat))
  : res (heap * list nat) :=
  match rev networks with
  | [] => Raise ValueError
  | [n] => Ok (h, n)
  | agg :: rest => match combine_loop fuel shuffle h agg rest with Some r => Ok r | None => Raise OutOfFuel end
  end.
