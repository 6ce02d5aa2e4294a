(** What the parent-child order of a table linkbase should be, stated by paths. *)
From Verif Require Import Base PyNum CtxModel TableModel.
Local Open Scope nat_scope.

(** What an object says about the order itself; aspect nodes cannot say anything. *)
Definition own_order (h : heap) (o : orders) (n : nat) : porder :=
  match h_class h n with CAspect => Unspecified | _ => o n end.

Definition breakdowns_of (h : heap) (t : nat) : list nat := h_x h t ++ h_y h t ++ h_z h t.

(** [path h o tables n l]: the object [n] is reached from one of the tables, and [l] lists what [n],
    its parent, ..., the table on this path say about the order. *)
Inductive path (h : heap) (o : orders) (tables : list nat) : nat -> list porder -> Prop :=
| path_breakdown t b : In t tables -> In b (breakdowns_of h t) ->
    path h o tables b [own_order h o b; o t]
| path_kid n k l : path h o tables n l -> In k (h_kids h n) ->
    path h o tables k (own_order h o k :: l).

(** The nearest one that says something, parent-first if none does. *)
Fixpoint nearest (l : list porder) : porder :=
  match l with
  | [] => ParentFirst
  | Unspecified :: r => nearest r
  | o :: _ => o
  end.

(** [k] is a direct child of [n]. *)
Definition child (h : heap) (k n : nat) : Prop := In k (h_kids h n).

(** No object contains itself. *)
Definition acyclic (h : heap) : Prop := well_founded (child h).

(** A forest: every object has at most one parent. *)
Definition forest (h : heap) (tables : list nat) : Prop :=
  (forall n n' k, child h k n -> child h k n' -> n = n') /\
  (forall t t' b, In t tables -> In t' tables -> In b (breakdowns_of h t) -> In b (breakdowns_of h t') ->
     t = t') /\
  (forall t b n, In t tables -> In b (breakdowns_of h t) -> ~ child h b n).

(** What linking guarantees: tables have breakdowns, the children of all others are nodes. *)
Definition well_typed (h : heap) : Prop :=
  (forall t b, In b (breakdowns_of h t) -> h_class h b = CBreakdown) /\
  (forall n k, child h k n -> is_node (h_class h k) = true).

(** The object has an order of its own that can be set. *)
Definition has_order (h : heap) (n : nat) : Prop :=
  match h_class h n with CBreakdown | CRule | CRelationship => True | _ => False end.

(** ** Links *)

(** The label stands for the last of the resources of these classes that bears it. *)
Definition stands_for (items : list item) (among : cls -> bool) (label : option str) (n : nat) : Prop :=
  exists l r, label = Some l /\ l <> [] /\ nth_error items n = Some (IResource r) /\
    among (r_class r) = true /\ r_label r = Some l /\
    forall m r', n < m -> nth_error items m = Some (IResource r') -> among (r_class r') = true -> r_label r' <> Some l.
Definition is_table (c : cls) : bool := match c with CTable => true | _ => false end.
Definition is_breakdown (c : cls) : bool := match c with CBreakdown => true | _ => false end.

(** The arc puts the breakdown [b] on this axis of the table [t]. *)
Definition puts_on_axis (items : list item) (axis : string) (t : nat) (a : arc) (b : nat) : Prop :=
  a_kind a = TableBreakdown /\ a_axis a = Some (u axis) /\
  stands_for items is_table (a_from a) t /\ stands_for items is_breakdown (a_to a) b.
(** The arc puts the node [k] below the object [n]. *)
Definition puts_below (items : list item) (n : nat) (a : arc) (k : nat) : Prop :=
  stands_for items is_node (a_to a) k /\
  (a_kind a = BreakdownTree /\ stands_for items is_breakdown (a_from a) n \/
   a_kind a = NodeSubtree /\ stands_for items is_node (a_from a) n /\ class_at items n <> CRelationship).

(** [l] lists what the arcs say, in document order. *)
Inductive arcs_list (says : arc -> nat -> Prop) : list item -> list nat -> Prop :=
| arcs_nil : arcs_list says [] []
| arcs_resource r items l : arcs_list says items l -> arcs_list says (IResource r :: items) l
| arcs_says a k items l : says a k -> arcs_list says items l -> arcs_list says (IArc a :: items) (k :: l)
| arcs_silent a items l : (forall k, ~ says a k) -> arcs_list says items l -> arcs_list says (IArc a :: items) l.
