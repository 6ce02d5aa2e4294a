(** What it means that the order of the documents of an inline filing makes no difference (C109). *)
From Verif Require Import Base QNameModel ErrBase ErrModel CtxModel CtxSpec InlineModel InlineSpec InlineFilingModel InlineFilingSpec OrderSpec.
From Verif Require ConceptSpec NumModel FilingModel.

(** The documents have different names, and no name or id is declared twice in them. *)
Definition declared_once (trees : list (str * tree)) : Prop :=
  NoDup (map fst trees) /\ let docs := map (fun p => (fst p, plain (snd p))) trees in names_once docs /\ ConceptSpec.ids_distinct docs.

(** ** The same but for numbers *)

Definition all_of (r : ifacts) : list ifact := without_id r ++ dict_values (by_id r).
Definition ifact_apart (f : ifact) : fact * option NumModel.decimals * option NumModel.decimals := (fact_apart (if_fact f), if_decimals f, if_precision f).

(** ** Resources that say everything once *)

(** The elements among contexts are called so. *)
Definition named_contexts (l : list xml) : Prop := forall x, In x l -> has_local (u "context") x = true.
(** Contexts that mean the same by the same *)
Definition contexts_alike (rep : repository) (l : list xml) : Prop :=
  one_scheme [holding l] /\ one_explicit rep [holding l] /\ one_typed rep [holding l] /\ plain_dimensions [holding l] /\ plain_periods [holding l].
(** No id of a context, unit, fact or continuation is used twice. *)
Definition resources_once (roots : list tree) : Prop :=
  NoDup (ids_of (resource_parts "xbrli:context" roots)) /\ NoDup (ids_of (resource_parts "xbrli:unit" roots)) /\
  NoDup (ids_of (map p_xml (fact_places roots))) /\ NoDup (ids_of (map p_xml (cont_places roots))).
