(** What the properties C32-C34 say, independently of the functions of the model. *)
From Verif Require Import Base PyNum NetSpec QNameModel.

(** ** Names and scopes *)

Definition without (c : N) (s : str) : Prop := ~ In c s.

(** Non-empty and free of the delimiters of both notations, as every XML name is. *)
Definition plain (s : str) : Prop :=
  s <> [] /\ without (ch ":") s /\ without (ch "{") s /\ without (ch "}") s.

(** Scope [sc] binds each prefix once, and [p] (or the default namespace, [None]) to [uri]. *)
Definition binds (sc : scope) (p : option str) (uri : str) : Prop :=
  NoDup (map fst sc) /\ In (p, uri) sc.

(** ** Registered elements *)

(** [e] is the element last registered under its name. *)
Definition current (els : list element) (e : element) : Prop :=
  exists pre post, els = pre ++ e :: post /\ forall x, In x post -> e_name x <> e_name e.

(** Search text [s] means name [q]: [prefix:local] if it has that form, a local name otherwise. *)
Definition is_prefixed (s p l : str) : Prop :=
  s = p ++ u ":" ++ l /\ p <> [] /\ l <> [] /\ without (ch ":") p /\ without (ch ":") l.

Definition means (s : str) (q : qname) : Prop :=
  is_prefixed s (q_prefix q) (q_local q) \/
  ((forall p l, ~ is_prefixed s p l) /\ q_local q = s).

(** The one and only registered element with property [P]. *)
Definition the_only (els : list element) (P : element -> Prop) (e : element) : Prop :=
  current els e /\ P e /\ forall x, current els x -> P x -> x = e.

(** ** Prefix bindings of all documents *)

Definition bound (maps : list scope) (p uri : str) : Prop :=
  exists m, In m maps /\ In (Some p, uri) m.

(** Two URIs that differ only in digits, dashes, underscores and dots. *)
Definition version_char (c : N) : Prop := digit_of c <> None \/ In c (u "-_.").

Inductive same_family : str -> str -> Prop :=
| sf_nil : same_family [] []
| sf_left c a b : version_char c -> same_family a b -> same_family (c :: a) b
| sf_right c a b : version_char c -> same_family a b -> same_family a (c :: b)
| sf_both c a b : same_family a b -> same_family (c :: a) (c :: b).
