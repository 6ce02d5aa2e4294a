(** What the theorems about taxonomy discovery (C35-C37, C54, C55) mean. *)
From Verif Require Import Base.

(** ** C37: rewriting *)

Definition matches (uri : str) (rule : str * str) : Prop := exists rest, uri = fst rule ++ rest.

(** [rule] is applicable to [uri] and no applicable rule has a longer start string. *)
Definition best_rule (rules : list (str * str)) (uri : str) (rule : str * str) : Prop :=
  In rule rules /\ matches uri rule /\
  forall other, In other rules -> matches uri other -> length (fst other) <= length (fst rule).

(** [uri] with the start string of [rule] replaced. *)
Definition rewritten_by (rule : str * str) (uri uri' : str) : Prop :=
  exists rest, uri = fst rule ++ rest /\ uri' = snd rule ++ rest.

Definition rewritten_by_longest (rules : list (str * str)) (uri uri' : str) : Prop :=
  (exists rule, best_rule rules uri rule /\ rewritten_by rule uri uri') \/
  ((forall rule, In rule rules -> ~ matches uri rule) /\ uri' = uri).

(** No rule comes after a rule whose start string is a shorter prefix of its own. *)
Definition longer_first (rules : list (str * str)) : Prop :=
  forall l a m b n, rules = l ++ a :: m ++ b :: n -> ~ exists rest, fst b = fst a ++ rest.

(** ** C54: references of a document *)

Definition quote (c : N) : Prop := c = 39%N \/ c = 34%N.

(** [text] has the attribute text [key"body"]. *)
Definition has_attribute (text key body : str) : Prop :=
  exists pre q1 q2 post, text = pre ++ key ++ q1 :: body ++ q2 :: post /\
    quote q1 /\ quote q2 /\ body <> [] /\ forall c, In c body -> ~ quote c.

(** The document part of a reference. *)
Definition document_of (href r : str) : Prop :=
  r <> [] /\ ~ In (ch "#") r /\
  (href = r \/ exists fragment, href = r ++ ch "#" :: fragment /\ ~ In (ch "#") fragment).

Definition last_word (text r : str) : Prop :=
  r <> [] /\ (forall c, In c r -> is_space c = false) /\
  exists pre post, text = pre ++ r ++ post /\ (forall c, In c post -> is_space c = true) /\
    (pre = [] \/ exists pre' c, pre = pre' ++ [c] /\ is_space c = true).

(** [r] is referenced from [text] by an XLink [href] or by a [schemaLocation]. *)
Definition mentions (text r : str) : Prop :=
  (exists body, has_attribute text (u ":href=") body /\ document_of body r) \/
  (exists body, has_attribute text (u "schemaLocation=") body /\ last_word body r).

(** No attribute value ends like the name of a referencing attribute. *)
Definition tame (text : str) : Prop :=
  forall key body, In key [u ":href="; u "schemaLocation="] -> has_attribute text key body ->
  forall key', In key' [u ":href="; u "schemaLocation="] -> ~ exists b, body = b ++ key'.

(** ** C35: the documents reachable through references *)

Section Reach.
(** [succ u v]: document [u] refers to document [v]. *)
Variable succ : str -> str -> Prop.

Inductive reachable (roots : list str) : str -> Prop :=
| reach_root v : In v roots -> reachable roots v
| reach_step v x : reachable roots v -> succ v x -> reachable roots x.
End Reach.
