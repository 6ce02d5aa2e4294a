(** Specification vocabulary: what the parts of a filing need to be read to their end. *)
From Verif Require Import Base QNameModel ErrBase ErrModel CtxModel CtxSpec.
From Verif Require CtxReportSpec NetModel LinkModel LinkSpec LinkReadSpec CompModel CompSpec.
From Verif Require Import FilingSpec.

(** A role type names its role, and knows the prefix [link]. *)
Definition announces (x : xml) : Prop := attr x (u "roleURI") <> None /\ exists uri, CompSpec.link_at x uri.

(** What an identifier stands for: the last report element that has it or else, if there is one, a fact;
    the numbers are of no importance. *)
Inductive points (els : list element) (of_fact : str -> Prop) (i : str) : option LinkModel.found -> Prop :=
| at_concept e n : last_id els i e -> e_kind e = KConcept -> points els of_fact i (Some (LinkModel.FConcept n))
| at_element e n : last_id els i e -> e_kind e <> KConcept -> points els of_fact i (Some (LinkModel.FElement n))
| at_fact n : (forall e, In e els -> e_id e <> Some i) -> of_fact i -> points els of_fact i (Some (LinkModel.FFact n))
| at_nothing : (forall e, In e els -> e_id e <> Some i) -> ~ of_fact i -> points els of_fact i None.

(** The links of the documents can be read, each for itself and with those of its role before it. *)
Definition links_fine (docs : list xml) (els : list element) (of_fact : str -> Prop) : Prop :=
  forall find, (forall i, points els of_fact i (find i)) ->
    (forall link outside k, LinkSpec.extended_link docs link outside -> LinkSpec.xl "role" link <> None -> LinkSpec.link_kind link k ->
       LinkReadSpec.readable find k link outside) /\
    (forall l, LinkReadSpec.links_as_read docs l -> LinkReadSpec.combinable find l).
Definition roles_fine (docs : list xml) : Prop := forall x, In x (flat_map CompModel.role_types docs) -> announces x.

(** A fact element that has a fact has the identifier. *)
Definition fact_with_id (rep : repository) (docs : list xml) (i : str) : Prop :=
  exists d x, In (d, x) (all_fact_elements docs) /\ CtxReportSpec.has_fact rep d x = true /\ attr x (u "id") = Some i.
