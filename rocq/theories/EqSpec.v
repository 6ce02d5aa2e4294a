(** What [==] should say, without the functions of the model. *)
From Verif Require Import Base QNameModel CtxModel CtxSpec EqModel.
Local Open Scope nat_scope.

(** Two objects state the same. *)
Inductive same : object -> object -> Prop :=
| same_concept i j n : same (At i (IsConcept n)) (At j (IsConcept n))
| same_element i j k n : same (At i (IsElement k n)) (At j (IsElement k n))
| same_aspect i j n : same (At i (IsAspect n)) (At j (IsAspect n))
| same_concept_char i j c d : r_name c = r_name d -> same (At i (IsConceptChar c)) (At j (IsConceptChar d))
| same_entity i j id scheme : same (At i (IsEntity id scheme)) (At j (IsEntity id scheme))
| same_period i j p : same (At i (IsPeriod p)) (At j (IsPeriod p))
| same_unit i j name name' nums dens : same (At i (IsUnit name nums dens)) (At j (IsUnit name' nums dens))
| same_member i j d d' m m' a : r_name d = r_name d' -> r_name m = r_name m' ->
    same (At i (IsExplicit d m a)) (At j (IsExplicit d' m' a))
| same_typed i j d d' v a : r_name d = r_name d' -> same (At i (IsTyped d v a)) (At j (IsTyped d' v a))
| same_context i j c d : (forall a x, In (a, x) (c_chars c) <-> In (a, x) (c_chars d)) ->
    same (At i (IsContext c)) (At j (IsContext d))
| same_fact i f : same (At i (IsFact f)) (At i (IsFact f)).

(** The classes of objects *)
Inductive class := CConcept | CElement (k : ekind) | CAspect | CConceptChar | CEntity | CPeriod | CUnit | CExplicit | CTyped
  | CContext | CFact.
Definition class_of (x : object) : class :=
  match o_is x with
  | IsConcept _ => CConcept | IsElement k _ => CElement k | IsAspect _ => CAspect | IsConceptChar _ => CConceptChar
  | IsEntity _ _ => CEntity | IsPeriod _ => CPeriod | IsUnit _ _ _ => CUnit | IsExplicit _ _ _ => CExplicit
  | IsTyped _ _ _ => CTyped | IsContext _ => CContext | IsFact _ => CFact
  end.

(** No two objects are at one address. *)
Definition apart (x y : object) : Prop := o_at x = o_at y -> x = y.

(** The report elements an object refers to *)
Definition refers (x : object) (r : ref) : Prop :=
  match o_is x with
  | IsConceptChar c => r = c
  | IsExplicit d m _ => r = d \/ r = m
  | IsTyped d _ _ => r = d
  | _ => False
  end.

(** The objects are of one filing: report elements have one object for each name, and each dimension
    has an aspect of its own. *)
Record one_filing (x y : object) : Prop := {
  of_apart : apart x y;
  of_refs : forall r s, refers x r -> refers y s -> (r_at r = r_at s <-> r_name r = r_name s);
  of_elements : forall i j k n, x = At i (IsElement k n) -> y = At j (IsElement k n) -> i = j;
  of_aspects : forall d m a d' m' a', o_is x = IsExplicit d m a -> o_is y = IsExplicit d' m' a' -> a = a' -> r_name d = r_name d' }.

(** Schemes of entities are URIs and dates are dates of the calendar.  Left out: units, concept
    characteristics and contexts. *)
Definition plain (x : object) : Prop :=
  match o_is x with
  | IsEntity _ scheme => ~ In (ch "}") scheme
  | IsPeriod p => python_period p
  | IsUnit _ _ _ | IsConceptChar _ | IsContext _ => False
  | _ => True
  end.

(** The classes whose objects can be in sets and be keys of dicts *)
Definition hashable (x : object) : Prop :=
  match class_of x with CElement _ | CAspect | CConceptChar | CFact => True | _ => False end.

(** One of each: the first of all equal ones, in order. *)
Inductive one_of_each (R : object -> object -> Prop) : list object -> list object -> Prop :=
| each_nil : one_of_each R [] []
| each_new l r x : one_of_each R l r -> (forall y, In y l -> ~ R y x) -> one_of_each R (l ++ [x]) (r ++ [x])
| each_old l r x y : one_of_each R l r -> In y l -> R y x -> one_of_each R (l ++ [x]) r.

(** The object is this characteristic of the model of contexts. *)
Inductive denotes : object -> characteristic -> Prop :=
| den_entity i id scheme : denotes (At i (IsEntity id scheme)) (ChEntity id scheme)
| den_period i p : denotes (At i (IsPeriod p)) (ChPeriod p)
| den_unit i n nums dens : denotes (At i (IsUnit n nums dens)) (ChUnit n nums dens)
| den_explicit i d m a e f : r_name d = e_name e -> r_name m = e_name f -> denotes (At i (IsExplicit d m a)) (ChExplicit e f a)
| den_typed i d v a e : r_name d = e_name e -> denotes (At i (IsTyped d v a)) (ChTyped e v a).
