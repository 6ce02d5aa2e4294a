(** Specification vocabulary for networks. *)
From Verif Require Import Base NetModel.
Local Open Scope nat_scope.

(** [reach h i j]: from [i] one gets to [j] through children, in any number of steps. *)
Inductive reach (h : heap) (i : nat) : nat -> Prop :=
| reach_refl : reach h i i
| reach_step j k : reach h i j -> In k (get_children h j) -> reach h i k.
(** At least one step. *)
Definition below (h : heap) (i j : nat) : Prop := exists k, In k (get_children h i) /\ reach h k j.
(** No node met from [i] is below itself. *)
Definition acyclic (h : heap) (i : nat) : Prop := forall j, reach h i j -> ~ below h j j.

(** The list of [l] sorted by a number: same members, ascending, and members with the same number
    in the order they had. *)
Definition sorted_by (num : nat -> Q) (l l' : list nat) : Prop :=
  Permutation l l' /\
  StronglySorted (fun x y => num x <= num y)%Q l' /\
  forall q, filter (fun x => Qeq_bool (num x) q) l' = filter (fun x => Qeq_bool (num x) q) l.

(** There is an arc of the role between the labels. *)
Definition has_arc (arcs : list arc) (from to role : str) : Prop :=
  exists a, In a arcs /\ a_from a = from /\ a_to a = to /\ a_role a = role.
Definition touches (arcs : list arc) (label role : str) : Prop :=
  exists a, In a arcs /\ (a_from a = label \/ a_to a = label) /\ a_role a = role.
(** The first arc of the document with the property. *)
Definition first_arc (arcs : list arc) (P : arc -> Prop) (a : arc) : Prop :=
  exists pre post, arcs = pre ++ a :: post /\ P a /\ forall b, In b pre -> ~ P b.

(** [sets_order f]: [f] lists the members of a set in some order. *)
Definition some_order {A} (f : list A -> list A) : Prop := forall l, Permutation l (f l).

(** Node [n] of heap [h] is [x], made for link element [l]. *)
Definition made_for (h : heap) (locs : list loc) (n : nat) (x : node) (l : loc) : Prop :=
  nth_error h n = Some x /\ nth_error locs (n_loc x) = Some l.

(** The arcs that repeat an earlier one. *)
Definition same_edge (a b : arc) : bool :=
  str_eqb (a_from a) (a_from b) && str_eqb (a_to a) (a_to b) && str_eqb (a_role a) (a_role b).
Fixpoint repeats (before arcs : list arc) : list arc :=
  match arcs with
  | [] => []
  | a :: arcs' => (if existsb (same_edge a) before then [a] else []) ++ repeats (before ++ [a]) arcs'
  end.

(** The arc that determines the attributes of a node: the first that leads to the label, if not a
    loop. *)
Definition into (label : str) (a : arc) : bool := str_eqb (a_to a) label.
Definition out_of (label : str) (a : arc) : bool := str_eqb (a_from a) label.
Definition with_role (role : str) (a : arc) : bool := str_eqb (a_role a) role.

(** The arcs that matter to a node: in physical networks those of its role. *)
Definition relevant (k : kind) (arcs : list arc) (x : node) : list arc :=
  if is_physical k then filter (with_role (n_role x)) arcs else arcs.
(** A chain of arcs. *)
Inductive arc_path (arcs : list arc) (s : str) : str -> Prop :=
| ap_one a : In a arcs -> a_from a = s -> arc_path arcs s (a_to a)
| ap_more t a : arc_path arcs s t -> In a arcs -> a_from a = t -> arc_path arcs s (a_to a).

(** The labels one comes to: those of found link elements that no arc leads to, and from these those of
    found link elements that arcs lead to. *)
Definition found_label (locs : list loc) (s : str) : Prop := exists l o, In l locs /\ l_label l = s /\ l_obj l = Some o.
Inductive comes (arcs : list arc) (locs : list loc) : str -> Prop :=
| comes_first s : found_label locs s -> (forall a, In a arcs -> a_to a <> s) -> comes arcs locs s
| comes_next a : comes arcs locs (a_from a) -> In a arcs -> found_label locs (a_to a) -> comes arcs locs (a_to a).

(** The object of a node. *)
Definition object (h : heap) (n : nat) : option nat := option_map (fun x => o_key (n_obj x)) (nth_error h n).
(** A network (heap and roots) shows the object; shows the second object right under the first. *)
Definition shows (h : heap) (roots : list nat) (o : nat) : Prop := exists r n, In r roots /\ reach h r n /\ object h n = Some o.
Definition relates (h : heap) (roots : list nat) (o o' : nat) : Prop :=
  exists r n m, In r roots /\ reach h r n /\ In m (get_children h n) /\ object h n = Some o /\ object h m = Some o'.
(** The object is that of a link element one comes to; the second is that of a link element that an arc
    leads to from such a one. *)
Definition comes_to (arcs : list arc) (locs : list loc) (o : nat) : Prop :=
  exists l ob, In l locs /\ l_obj l = Some ob /\ o_key ob = o /\ comes arcs locs (l_label l).
Definition leads (arcs : list arc) (locs : list loc) (o o' : nat) : Prop :=
  exists a l ob l' ob', In a arcs /\ In l locs /\ l_obj l = Some ob /\ o_key ob = o /\ a_from a = l_label l /\ comes arcs locs (l_label l) /\
    In l' locs /\ l_obj l' = Some ob' /\ o_key ob' = o' /\ a_to a = l_label l'.
(** Children are listed by order everywhere. *)
Definition ascending (h : heap) : Prop :=
  forall n, StronglySorted (fun a b => get_order h a <= get_order h b)%Q (get_children h n).
(** No node is reached from two of the networks. *)
Definition disjoint (h : heap) (networks : list (list nat)) : Prop :=
  forall i j a b r s n, nth_error networks i = Some a -> nth_error networks j = Some b -> In r a -> In s b -> reach h r n -> reach h s n -> i = j.
