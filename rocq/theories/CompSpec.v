(** What the theorems about components (C49) and reported concepts (C60) mean. *)
From Verif Require Import Base QNameModel ErrBase ErrTable ErrModel CtxModel CompModel.

(** [r] is the first element of [l] with the property, if there is one. *)
Definition first_such {A} (P : A -> Prop) (l : list A) (r : option A) : Prop :=
  match r with
  | Some a => exists l1 l2, l = l1 ++ a :: l2 /\ P a /\ Forall (fun b => ~ P b) l1
  | None => Forall (fun b => ~ P b) l
  end.

(** Two different places of [l] have the property. *)
Definition twice {A} (P : A -> Prop) (l : list A) : Prop :=
  exists l1 a l2 b l3, l = l1 ++ a :: l2 ++ b :: l3 /\ P a /\ P b.

(** The networks a filing has, in the order in which they were stored. *)
Definition stored (ops : list nop) : list network :=
  flat_map (fun o => match o with OpUpsert n => [n] | OpGetByType _ => [] end) ops.

Definition of_class (c : nclass) (role : str) (n : network) : Prop := n_class n = c /\ n_role n = role.
Definition logical_definition (role : str) (n : network) : Prop :=
  of_class NDefinition role n /\ n_physical n = false.

Definition tagged (uri name : str) (k : xml) : Prop := x_tag k = Some (u "{" ++ uri ++ u "}" ++ name).

(** The namespace that the prefix [link] stands for at [x]. *)
Definition link_at (x : xml) (uri : str) : Prop := dict_get key_eqb (x_scope x) (Some (u "link")) = Some uri.

Definition text_of (k : option xml) : str :=
  match k with Some k => match x_text k with Some t => t | None => [] end | None => [] end.

(** The component declared by the element [x] in a filing with the networks [ns]. *)
Definition declares (ns : list network) (x : xml) (c : component) : Prop :=
  attr x (u "roleURI") = Some (c_uri c) /\
  (exists uri k, link_at x uri /\ first_such (tagged uri (u "definition")) (x_kids x) k /\ c_info c = text_of k) /\
  first_such (of_class NPresentation (c_uri c)) ns (c_presentation c) /\
  first_such (of_class NCalculation (c_uri c)) ns (c_calculation c) /\
  first_such (logical_definition (c_uri c)) ns (c_definition c).

(** The element [x] has a child link:usedOn with that text. *)
Definition used_on (x : xml) (text : string) : Prop :=
  exists uri k, link_at x uri /\ In k (x_kids x) /\ tagged uri (u "usedOn") k /\ x_text k = Some (u text).

(** The warnings about the element [x]. *)
Inductive warned (ns : list network) (x : xml) (role : str) : string -> Prop :=
| warn_presentation : (exists n, In n ns /\ of_class NPresentation role n) -> ~ used_on x "link:presentationLink" ->
    warned ns x role "PRESENTATION_NETWORK_IN_COMPONENT_WITHOUT_USEDON_ELEMENT"
| warn_calculation : (exists n, In n ns /\ of_class NCalculation role n) -> ~ used_on x "link:calculationLink" ->
    warned ns x role "CALCULATION_NETWORK_IN_COMPONENT_WITHOUT_USEDON_ELEMENT"
| warn_definition : (exists n, In n ns /\ of_class NDefinition role n) -> ~ used_on x "link:definitionLink" ->
    warned ns x role "DEFINITION_NETWORK_IN_COMPONENT_WITHOUT_USEDON_ELEMENT"
| warn_presentations : twice (of_class NPresentation role) ns ->
    warned ns x role "MULTIPLE_PRESENTATION_NETWORKS_IN_COMPONENT"
| warn_calculations : twice (of_class NCalculation role) ns ->
    warned ns x role "MULTIPLE_CALCULATION_NETWORKS_IN_COMPONENT"
| warn_definitions : twice (logical_definition role) ns ->
    warned ns x role "MULTIPLE_DEFINITION_NETWORKS_IN_COMPONENT".

(** [x] is an element somewhere inside [root]. *)
Inductive inside (root : xml) : xml -> Prop :=
| inside_kid k : In k (x_kids root) -> inside root k
| inside_deep k x : In k (x_kids root) -> inside k x -> inside root x.

(** The fact reports against the concept with that name. *)
Definition reports (f : fact) (name : qname) : Prop := exists c, get_characteristic (f_context f) (u "concept") = Some (ChConcept c) /\ e_name c = name.
