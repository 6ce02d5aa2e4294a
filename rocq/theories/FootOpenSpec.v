(** Specification vocabulary: which relationships of footnotes can be read. *)
From Coq Require Import QArith.
From Verif Require Import Base ValueModel FootModel FootSpec.

(** The role that an attribute gives to a relationship: a missing or wrong one is replaced. *)
Definition role_is (e : env) (attribute : option str) (default role : str) : Prop :=
  role = default /\ (attribute = None \/ attribute = Some [] \/ exists s, attribute = Some s /\ e_uri e s = false) \/
  attribute = Some role /\ role <> [] /\ e_uri e role = true.
Definition grouped (e : env) (l r : str) (x : rel) : Prop :=
  role_is e (r_linkrole x) (u "http://www.xbrl.org/2003/role/link") l /\
  role_is e (r_arcrole x) (u "http://www.xbrl.org/2003/arcrole/fact-footnote") r.

(** The relationship has an order that is a number. *)
Definition has_order (e : env) (x : rel) : Prop := exists s q, r_order x = Some s /\ s <> [] /\ e_float e s = Some q.

(** A footnote, or a fact with a text that is a boolean; and one that is true *)
Definition judged (ns : notes) (fs : facts) (id : str) : Prop :=
  In id (map fst ns) \/ exists t, dict_get str_eqb fs id = Some t /\ (upper t = u "TRUE" \/ upper t = u "FALSE").
Definition true_of (ns : notes) (fs : facts) (id : str) : Prop :=
  In id (map fst ns) \/ exists t, dict_get str_eqb fs id = Some t /\ upper t = u "TRUE".

(** Something among the relationships of the roles leads to it. *)
Definition led_to (e : env) (xs : list rel) (l r id : str) : Prop := exists x, In x xs /\ grouped e l r x /\ refers (r_to x) id.

(** The relationships of these roles lead to footnotes and true facts, from facts, or from what others of
    them lead to; what they lead to but from nowhere must at least be a footnote or a boolean. *)
Definition group_fine (e : env) (ns : notes) (fs : facts) (xs : list rel) (l r : str) : Prop :=
  forall x, In x xs -> grouped e l r x ->
    (forall id, refers (r_from x) id -> led_to e xs l r id \/ In id (map fst fs)) /\
    (forall id, refers (r_to x) id -> judged ns fs id) /\
    forall from to, refers (r_from x) from -> refers (r_to x) to -> true_of ns fs to /\ (led_to e xs l r from -> true_of ns fs from).

(** What is in a network: where relationships begin, and the footnotes and true facts they lead to *)
Definition in_network (e : env) (ns : notes) (fs : facts) (xs : list rel) (l r id : str) : Prop :=
  led_to e xs l r id /\ true_of ns fs id \/
  ~ led_to e xs l r id /\ exists x, In x xs /\ grouped e l r x /\ refers (r_from x) id.
