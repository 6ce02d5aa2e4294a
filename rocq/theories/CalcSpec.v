(** What the consistency checks of calculation networks should say (C23, C24). *)
From Verif Require Import Base NetModel QNameModel CtxModel CtxSpec CalcModel.

(** [i] is a node of the network. *)
Inductive in_network (h : heap) (roots : list nat) : nat -> Prop :=
| in_root i : In i roots -> in_network h roots i
| in_child p c : in_network h roots p -> In c (get_children h p) -> in_network h roots c.

(** Trees: going to a child makes a rank smaller. *)
Definition ranked (h : heap) (rank : nat -> nat) : Prop :=
  forall p c, In c (get_children h p) -> (rank c < rank p)%nat.

(** ** Balance *)

(** The documented rule for a parent and a child: same balance and positive weight, or different
    balance and negative weight. *)
Definition documented_arc (balance_of : obj -> option balance) (h : heap) (p c : nat) : Prop :=
  exists bp bc, node_balance balance_of h p = Some bp /\ node_balance balance_of h c = Some bc /\
    (bp = bc /\ (0 < get_weight h c)%Q \/ bp <> bc /\ (get_weight h c < 0)%Q).

(** The same with zero weights allowed. *)
Definition lenient_arc (balance_of : obj -> option balance) (h : heap) (p c : nat) : Prop :=
  exists bp bc, node_balance balance_of h p = Some bp /\ node_balance balance_of h c = Some bc /\
    (bp = bc /\ (0 <= get_weight h c)%Q \/ bp <> bc /\ (get_weight h c <= 0)%Q).

Definition balanced (arc_ok : nat -> nat -> Prop) (balance_of : obj -> option balance)
  (h : heap) (roots : list nat) : Prop :=
  (forall i, in_network h roots i -> node_balance balance_of h i <> None) /\
  (forall p c, in_network h roots p -> In c (get_children h p) -> arc_ok p c).

(** ** Aggregation *)

(** Facts as the parser makes them: the aspects are those of the characteristics; one is the concept. *)
Definition sound_fact (f : fact) : Prop :=
  (forall a, In a (c_aspects (f_context f)) <-> get_characteristic (f_context f) a <> None) /\
  exists e, get_characteristic (f_context f) (u "concept") = Some (ChConcept e).

(** Two characteristics say the same: the same entity, period, unit, or dimension and member or value. *)
Inductive same_value : characteristic -> characteristic -> Prop :=
| same_entity i s i' s' : u "{" ++ s ++ u "}" ++ i = u "{" ++ s' ++ u "}" ++ i' -> same_value (ChEntity i s) (ChEntity i' s')
| same_period p p' : period_str p = period_str p' -> same_value (ChPeriod p) (ChPeriod p')
| same_unit name ns ds ns' ds' : same_value (ChUnit name ns ds) (ChUnit name ns' ds')
| same_member d d' m m' aspect : e_name m = e_name m' -> same_value (ChExplicit d m aspect) (ChExplicit d' m' aspect)
| same_typed d d' value aspect : e_name d = e_name d' -> same_value (ChTyped d value aspect) (ChTyped d' value aspect).

(** Schemes of entities are URIs and dates are dates of the calendar. *)
Definition plain_value (c : characteristic) : Prop :=
  match c with ChEntity _ scheme => ~ In (ch "}") scheme | ChPeriod p => python_period p | _ => True end.

Section Agg.
Variable F : Type.
Variables (fadd fmul : F -> F -> F) (fzero : F) (feqb : F -> F -> bool).
Variable float_of : str -> option F.
Variable weight_of : Q -> F.
Variable name_of : obj -> qname.
Variable facts : list fact.

Definition reports (q : qname) (f : fact) : Prop := exists c, get_characteristic (f_context f) (u "concept") = Some (ChConcept c) /\ qname_eqb (e_name c) q = true.

(** [cf] is reported for the concept [q] with all other characteristics of [nf] (and maybe more). *)
Definition same_facts (q : qname) (nf cf : fact) : Prop :=
  reports q cf /\
  forall a, In a (c_aspects (f_context nf)) -> a <> a_concept ->
    exists x y, get_characteristic (f_context cf) a = Some x /\
                get_characteristic (f_context nf) a = Some y /\ same_value x y.

(** [cf] is the only fact for the concept [q] beside [nf]. *)
Definition only_fact (q : qname) (nf cf : fact) : Prop :=
  exists pre post, facts = pre ++ cf :: post /\ same_facts q nf cf /\
    forall g, In g pre \/ In g post -> ~ same_facts q nf g.

(** The weighted values of the children of a node beside the fact [nf]. *)
Inductive weighted (h : heap) (nf : fact) : list nat -> list F -> Prop :=
| weighted_nil : weighted h nf [] []
| weighted_cons c o cf v l vs :
    get_object h c = Some o -> only_fact (name_of o) nf cf -> float_of (f_value cf) = Some v ->
    weighted h nf l vs -> weighted h nf (c :: l) (fmul v (weight_of (get_weight h c)) :: vs).

(** A fact equals the sum over the children. *)
Definition adds_up (h : heap) (kids : list nat) (nf : fact) : Prop :=
  exists v vs, float_of (f_value nf) = Some v /\ weighted h nf kids vs /\
               feqb v (fold_left fadd vs fzero) = true.

(** The nodes that the check looks at: below a node without facts it looks at nothing. *)
Inductive visited (h : heap) (roots : list nat) : nat -> Prop :=
| visited_root i : In i roots -> visited h roots i
| visited_child p o f c : visited h roots p -> get_object h p = Some o -> In f facts ->
    reports (name_of o) f -> In c (get_children h p) -> visited h roots c.

Definition node_adds_up (h : heap) (i : nat) : Prop :=
  get_children h i <> [] ->
  exists o, get_object h i = Some o /\
    forall f, In f facts -> reports (name_of o) f -> adds_up h (get_children h i) f.
End Agg.
