(** Model of [==], [in] and [hash] on the objects of a report.

    Sources (in /repo/brel): brel_context.py 191-196, reportelements/concept.py 177-182,
    characteristics/brel_aspect.py 128-134, unit_characteristic.py 88-92, entity_characteristic.py
    53-57, period_characteristic.py 110-114, explicit_dimension_characteristic.py 82-88,
    typed_dimension_characteristic.py 56-64; brel_fact.py, concept_characteristic.py and the other
    report elements define no [__eq__].

    Objects carry an address, since Python compares objects without [__eq__] by identity.  No class
    here is a subclass of another, so [isinstance] compares classes. *)
From Verif Require Import Base QNameModel CtxModel.
Local Open Scope nat_scope.

(** A report element that an object refers to: where it is and its name. *)
Record ref := Ref { r_at : nat; r_name : qname }.

Inductive content :=
| IsConcept (name : qname)
| IsElement (kind : ekind) (name : qname)         (* the other report elements *)
| IsAspect (name : str)
| IsConceptChar (concept : ref)
| IsEntity (id scheme : str)
| IsPeriod (p : period)
| IsUnit (name : str) (nums dens : list qname)
| IsExplicit (dim mem : ref) (aspect : str)
| IsTyped (dim : ref) (value aspect : str)
| IsContext (c : context)
| IsFact (f : fact).
Record object := At { o_at : nat; o_is : content }.

(** The [__eq__] of a class, if it has one.  Members and dimensions have none (member.py,
    dimension.py), so [self.get_member() == other.get_member()] is identity. *)
Definition eq_method (x : content) : option (content -> bool) :=
  match x with
  | IsConcept n => Some (fun y => match y with IsConcept m => qname_eqb n m | _ => false end)
  | IsAspect n => Some (fun y => match y with IsAspect m => str_eqb n m | _ => false end)
  | IsEntity i s => Some (fun y => match y with
                       | IsEntity j t => str_eqb (value_str (ChEntity i s)) (value_str (ChEntity j t)) | _ => false end)
  | IsPeriod p => Some (fun y => match y with IsPeriod q => str_eqb (period_str p) (period_str q) | _ => false end)
  | IsUnit n _ _ => Some (fun y => match y with IsUnit m _ _ => str_eqb n m | _ => false end)
  | IsExplicit _ m a => Some (fun y => match y with
                       | IsExplicit _ m' a' => (r_at m =? r_at m') && str_eqb a a' | _ => false end)
  | IsTyped d v a => Some (fun y => match y with
                       | IsTyped d' v' a' => (r_at d =? r_at d') && str_eqb a a' && str_eqb v v' | _ => false end)
  | IsContext c => Some (fun y => match y with IsContext d => str_eqb (c_id c) (c_id d) | _ => false end)
  | IsElement _ _ | IsConceptChar _ | IsFact _ => None
  end.

(** [x == y] of Python: the method of [x], else that of [y], else identity. *)
Definition py_eq (x y : object) : bool :=
  match eq_method (o_is x) with
  | Some m => m (o_is y)
  | None => match eq_method (o_is y) with Some m => m (o_is x) | None => o_at x =? o_at y end
  end.

(** [x in l] of Python: identity or [==] *)
Definition py_in (x : object) (l : list object) : bool :=
  existsb (fun y => (o_at y =? o_at x) || py_eq y x) l.

Section Hash.
(** [hash] of a string and of an address *)
Variable hash_str : str -> Z.
Variable hash_at : nat -> Z.

(** [hash(x)]: a class with [__eq__] and without [__hash__] has none; brel_aspect.py 128-129 *)
Definition py_hash (x : object) : res Z :=
  match o_is x with
  | IsAspect n => Ok (hash_str n)
  | c => match eq_method c with Some _ => Raise TypeError | None => Ok (hash_at (o_at x)) end
  end.

(** A set or the keys of a dict: the members with the same hash are compared.
    Simplified: buckets of the table are compared by the whole hash. *)
Definition set_has (l : list object) (x : object) (h : Z) : bool :=
  existsb (fun y => match py_hash y with Ok h' => (h =? h')%Z && ((o_at y =? o_at x) || py_eq y x) | _ => false end) l.
Definition set_add (l : list object) (x : object) : res (list object) :=
  do! h <- py_hash x ; Ok (if set_has l x h then l else l ++ [x]).
Fixpoint set_of (l acc : list object) : res (list object) :=
  match l with [] => Ok acc | x :: l' => do! acc' <- set_add acc x ; set_of l' acc' end.
End Hash.
