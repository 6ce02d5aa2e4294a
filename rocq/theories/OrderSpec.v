(** What it means that the order in which documents are found makes no difference (C109). *)
From Coq Require Import List Permutation.
From Verif Require Import Base QNameModel ErrBase ErrModel CtxModel CtxSpec.
From Verif Require ConceptSpec NetModel LinkSpec FilingModel FilingSpec.
Import ListNotations.

(** ** Documents that say everything once *)

(** Of the declarations of a name at most one makes a report element. *)
Definition names_once (trees : list (str * xml)) : Prop :=
  forall a d b d' c q, ConceptSpec.all_decls trees = a ++ d :: b ++ d' :: c ->
    ConceptSpec.named d q -> ConceptSpec.named d' q -> ConceptSpec.makes_nothing d \/ ConceptSpec.makes_nothing d'.
(** Names, ids of declarations and ids of facts are not used twice. *)
Definition once (trees : list (str * xml)) : Prop :=
  NoDup (map fst trees) /\ names_once trees /\ ConceptSpec.ids_distinct trees /\ FilingSpec.fact_ids_distinct (dict_values trees).
(** Equal identifiers and names in contexts and units mean the same in all documents. *)
Definition alike (rep : repository) (docs : list xml) : Prop :=
  one_scheme docs /\ one_unit docs /\ one_concept rep docs /\ one_explicit rep docs /\ one_typed rep docs.
(** Dates and names of dimensions are free of spaces. *)
Definition plainly_written (docs : list xml) : Prop := plain_dimensions docs /\ plain_periods docs.

(** ** The same but for numbers *)

(** A report element without its number *)
Definition apart (e : element) : element := Element (e_name e) (e_id e) (e_kind e) 0.
Definition char_apart (c : characteristic) : characteristic :=
  match c with
  | ChConcept e => ChConcept (apart e)
  | ChExplicit d m a => ChExplicit (apart d) (apart m) a
  | ChTyped d v a => ChTyped (apart d) v a
  | _ => c
  end.
Definition context_apart (c : context) : context :=
  Context (c_id c) (c_aspects c) (map (fun p => (fst p, char_apart (snd p))) (c_chars c)).
Definition fact_apart (f : fact) : fact := Fact (context_apart (f_context f)) (f_value f) (f_id f).

(** No presentation, calculation or definition link has arcs that lead back. *)
Definition no_circles (docs : list xml) : Prop :=
  forall link outside k, LinkSpec.extended_link docs link outside -> LinkSpec.link_kind link k ->
    k = NetModel.KPresentation \/ k = NetModel.KCalculation \/ k = NetModel.KLogicalDefinition -> LinkSpec.no_cycle link outside.
