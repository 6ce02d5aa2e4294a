(** Specification vocabulary: what an inline filing needs to be read to its end (C108). *)
From Coq Require Import QArith.
From Verif Require Import Base QNameModel ErrBase ErrModel NumModel DateModel CtxModel CtxSpec InlineModel InlineSpec InlineReportSpec
  InlineFilingModel InlineFilingSpec.
From Verif Require TextModel FootModel FootSpec FootOpenSpec CtxReportSpec.
Local Open Scope nat_scope.

(** Every text comes to an end. *)
Definition texts_end (roots : list tree) : Prop :=
  forall p, In p (continuables roots) -> exists qs, goes_on (cont_places roots) (attr (p_xml p) (u "continuedAt")) qs.
(** No footnote with an identifier has a comment in its text. *)
Definition notes_fine (roots : list tree) : Prop :=
  forall p id ts, In p (note_places roots) -> has_id p id -> parts (cont_places roots) p ts -> contains_no_comment ts.
(** The identifiers of the footnotes *)
Definition note_with_id (roots : list tree) (id : str) : Prop := exists p, In p (note_places roots) /\ has_id p id.

Section Facts.
Variable rep : repository.
Variable py_float : str -> option bool.
Variable era_valid : list (part * str) -> res bool.
Variable contexts : list xml.
(** The element names a concept and a context that there are. *)
Definition becomes (n : node) : Prop :=
  (exists e, fact_concept rep (n_el n) e) /\
  exists cid xc, attr (n_el n) (u "contextRef") = Some cid /\ In xc contexts /\ usable cid xc.
Definition value_of (n : node) (v : str) : Prop :=
  tag_name (n_el n) = Ok (u "ix:nonFraction") /\ number_is py_float n v \/ tag_name (n_el n) = Ok (u "ix:nonNumeric") /\ text_is era_valid n v.
(** The fact with the identifier, the last one, has this value. *)
Definition says (nodes : list node) (i v : str) : Prop :=
  exists n, last_with (fun n => becomes n /\ attr (n_el n) (u "id") = Some i) nodes n /\ value_of n v.
End Facts.

(** The relationships have orders, and those of the same roles connect what they can. *)
Definition relationships_fine (e : FootModel.env) (roots : list tree) (value : str -> str -> Prop) : Prop :=
  (forall x, In x (resource_parts "ix:relationship" roots) -> FootOpenSpec.has_order e (rel_of x)) /\
  forall ns fs, (forall id, In id (map fst ns) <-> note_with_id roots id) -> (forall i v, dict_get str_eqb fs i = Some v <-> value i v) ->
    forall l r, FootOpenSpec.group_fine e ns fs (map rel_of (resource_parts "ix:relationship" roots)) l r.
