(** Model of brel/networks/calculation_network.py (CN): the two consistency checks.

    Networks are heaps of nodes as in NetModel.  Simplifications:
    - the balance and the name of a concept are given by functions on the object of a node;
    - recursion is bounded by [fuel]; Python stops with a RecursionError instead;
    - weights that are NaN are left out; the arithmetic of floats is a parameter. *)
From Verif Require Import Base NetModel QNameModel CtxModel.

(** reportelements/concept.py [get_balance_type] *)
Inductive balance := Credit | Debit.
Definition balance_eqb (a b : balance) : bool :=
  match a, b with Credit, Credit | Debit, Debit => true | _, _ => false end.

(** calculation_network_node.py [get_weight] *)
Definition get_weight (h : heap) (i : nat) : Q :=
  match nth_error h i with Some n => n_weight n | None => 0%Q end.
Definition get_object (h : heap) (i : nat) : option obj := option_map n_obj (nth_error h i).

Definition Qltb (a b : Q) : bool := negb (Qle_bool b a).

Section Balance.
(** [node.get_concept().get_balance_type()] *)
Variable balance_of : obj -> option balance.
Definition node_balance (h : heap) (i : nat) : option balance :=
  match get_object h i with Some o => balance_of o | None => None end.

(** CN 74-92: the loop over the children; [check] is the recursive call *)
Fixpoint balance_children (h : heap) (check : nat -> res bool) (pb : balance) (kids : list nat) : res bool :=
  match kids with
  | [] => Ok true
  | c :: kids' =>
      match node_balance h c with
      | None => Ok false
      | Some cb =>
          if (if balance_eqb pb cb then Qltb (get_weight h c) 0 else Qltb 0 (get_weight h c)) then Ok false
          else do! ok <- check c ;
               if ok then balance_children h check pb kids' else Ok false
      end
  end.

(** CN 52-92 is_subtree_balance_consistent *)
Fixpoint balance_subtree (fuel : nat) (h : heap) (i : nat) : res bool :=
  match fuel with
  | O => Raise OutOfFuel
  | S fuel =>
      match node_balance h i with
      | None => Ok false
      | Some pb => balance_children h (balance_subtree fuel h) pb (get_children h i)
      end
  end.

Fixpoint all_ok (check : nat -> res bool) (l : list nat) : res bool :=
  match l with
  | [] => Ok true
  | x :: l' => do! ok <- check x ; if ok then all_ok check l' else Ok false
  end.

(** CN 94-100 *)
Definition is_balance_consistent (fuel : nat) (h : heap) (roots : list nat) : res bool :=
  all_ok (balance_subtree fuel h) roots.
End Balance.

(** ** Equality of characteristics: the [__eq__] of brel/characteristics *)

(** Concept characteristics have no [__eq__]; they are never compared here.  Dimensions and members
    have none either: they are unique by name in a filing. *)
Definition char_eqb (a b : characteristic) : bool :=
  match a, b with
  | ChEntity _ _, ChEntity _ _ => str_eqb (value_str a) (value_str b)
  | ChPeriod p, ChPeriod q => period_eqb p q
  | ChUnit n _ _, ChUnit m _ _ => str_eqb n m
  | ChExplicit _ m x, ChExplicit _ n y => qname_eqb (e_name m) (e_name n) && str_eqb x y
  | ChTyped d v x, ChTyped e w y => qname_eqb (e_name d) (e_name e) && str_eqb x y && str_eqb v w
  | _, _ => false
  end.

(** brel_fact.py:160-172 get_concept: without the characteristic [None.get_value()] raises *)
Definition fact_concept (f : fact) : res qname :=
  match get_characteristic (f_context f) a_concept with
  | Some (ChConcept e) => Ok (e_name e)
  | _ => Raise AttributeError
  end.

(** [list(filter(p, l))] with a predicate that may raise *)
Fixpoint filter_res {A} (p : A -> res bool) (l : list A) : res (list A) :=
  match l with
  | [] => Ok []
  | x :: l' => do! b <- p x ; do! r <- filter_res p l' ; Ok (if b then x :: r else r)
  end.

Definition has_concept (q : qname) (f : fact) : res bool :=
  do! c <- fact_concept f ; Ok (qname_eqb c q).

(** CN 162-171: [fact.get_characteristic(a) == characteristic] *)
Definition same_characteristic (x : option characteristic) (a : str) (f : fact) : bool :=
  match get_characteristic (f_context f) a, x with
  | Some c, Some d => char_eqb c d
  | None, None => true
  | _, _ => false
  end.

(** CN 150-171: the facts with the child concept and the other characteristics of [nf] *)
Fixpoint narrow (child : qname) (nf : fact) (aspects : list str) (l : list fact) : res (list fact) :=
  match aspects with
  | [] => Ok l
  | a :: rest =>
      do! l' <- (if str_eqb a a_concept then filter_res (has_concept child) l
                 else Ok (filter (same_characteristic (get_characteristic (f_context nf) a) a) l)) ;
      narrow child nf rest l'
  end.

Section Aggregation.
(** Floats: [float_of] is [float(text)], [None] if it raises ValueError; [weight_of] the weight of a
    node as a float. *)
Variable F : Type.
Variables (fadd fmul : F -> F -> F) (fzero : F) (feqb : F -> F -> bool).
Variable float_of : str -> option F.
Variable weight_of : Q -> F.
(** The name of the concept of a node. *)
Variable name_of : obj -> qname.
Variable facts : list fact.

Definition node_name (h : heap) (i : nat) : res qname :=
  match get_object h i with Some o => Ok (name_of o) | None => Raise IndexError end.

(** brel_fact.py:93-103 *)
Definition fact_float (f : fact) : res F :=
  match float_of (f_value f) with Some v => Ok v | None => Raise ValueError end.

(** CN 144-192: the sum over the children of a node for its fact [nf] *)
Fixpoint children_sum (h : heap) (nf : fact) (kids : list nat) (acc : F) : res F :=
  match kids with
  | [] => Ok acc
  | c :: kids' =>
      do! q <- node_name h c ;
      do! l <- narrow q nf (c_aspects (f_context nf)) facts ;
      match l with
      | [cf] => do! v <- fact_float cf ;
                children_sum h nf kids' (fadd acc (fmul v (weight_of (get_weight h c))))
      | _ => Raise ValueError
      end
  end.

(** CN 137-215: the loop over the facts of a node *)
Fixpoint node_facts_ok (h : heap) (check : nat -> res bool) (kids : list nat) (l : list fact) : res bool :=
  match l with
  | [] => Ok true
  | nf :: l' =>
      do! v <- fact_float nf ;
      do! s <- children_sum h nf kids fzero ;
      if negb (feqb v s) then Ok false
      else do! ok <- all_ok check kids ;
           if ok then node_facts_ok h check kids l' else Ok false
  end.

(** CN 113-215 is_subnetwork_aggregation_consistent *)
Fixpoint aggregation_subtree (fuel : nat) (h : heap) (i : nat) : res bool :=
  match fuel with
  | O => Raise OutOfFuel
  | S fuel =>
      if is_leaf h i then Ok true
      else do! q <- node_name h i ;
           do! l <- filter_res (has_concept q) facts ;
           node_facts_ok h (aggregation_subtree fuel h) (get_children h i) l
  end.

(** CN 217-223 *)
Definition is_aggregation_consistent (fuel : nat) (h : heap) (roots : list nat) : res bool :=
  all_ok (aggregation_subtree fuel h) roots.
End Aggregation.
