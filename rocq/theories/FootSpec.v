(** What is expected of the footnote networks of an inline document. *)
From Coq Require Import QArith.
From Verif Require Import Base FootModel.
Local Open Scope nat_scope.

(** [f] lists the members of a set in some order. *)
Definition lists_sets (f : list str -> list str) : Prop :=
  forall l, NoDup (f l) /\ forall x, In x (f l) <-> In x l.

(** The words of a text: separated by white space *)
Definition word_of (w s : str) : Prop :=
  w <> [] /\ forallb (fun c => negb (is_space c)) w = true /\
  exists a b, s = a ++ w ++ b /\
    (a = [] \/ exists a' c, a = a' ++ [c] /\ is_space c = true) /\
    (b = [] \/ exists c b', b = c :: b' /\ is_space c = true).

(** The role an attribute stands for: an attribute that is missing or empty stands for the default. *)
Definition stands_for (attribute : option str) (default role : str) : Prop :=
  (attribute = None \/ attribute = Some []) /\ role = default \/ attribute = Some role /\ role <> [].

(** A relationship that XBRL allows between facts and footnotes of the document, with an order *)
Definition proper (e : env) (ns : notes) (fs : facts) (x : rel) : Prop :=
  (exists s, r_from x = Some s /\ s <> [] /\ forall w, word_of w s -> In w (map fst fs) /\ ~ In w (map fst ns)) /\
  (exists s, r_to x = Some s /\ s <> [] /\ forall w, word_of w s -> In w (map fst ns)) /\
  (forall s, r_arcrole x = Some s -> s <> [] -> e_uri e s = true) /\
  (forall s, r_linkrole x = Some s -> s <> [] -> e_uri e s = true) /\
  exists s q, r_order x = Some s /\ s <> [] /\ e_float e s = Some q /\ ~ q == 0.

(** The relationships of link role [l] and arc role [r] *)
Definition in_group (l r : str) (x : rel) : Prop :=
  stands_for (r_linkrole x) (u "http://www.xbrl.org/2003/role/link") l /\
  stands_for (r_arcrole x) (u "http://www.xbrl.org/2003/arcrole/fact-footnote") r.

(** How many of the relationships [xs] relate [from] to [to] *)
Inductive related_times (P : rel -> Prop) : list rel -> nat -> Prop :=
| RNil : related_times P [] 0
| RYes x xs n : P x -> related_times P xs n -> related_times P (x :: xs) (S n)
| RNo x xs n : ~ P x -> related_times P xs n -> related_times P (x :: xs) n.

Definition refers (refs : option str) (id : str) : Prop := exists s, refs = Some s /\ word_of id s.

(** [nw] is the network of the relationships of link role [l] and arc role [r] among [xs]: its
    nodes are the facts and footnotes these refer to, a node has as children what it is related to,
    once for each relationship, in the order of the nodes; the roots are what nothing relates to. *)
Definition is_network (e : env) (ns : notes) (fs : facts) (xs : list rel) (l r : str) (nw : network) : Prop :=
  (forall id, (exists n, dict_get str_eqb (nw_nodes nw) id = Some n) <->
     exists x, In x xs /\ in_group l r x /\ (refers (r_from x) id \/ refers (r_to x) id)) /\
  (forall id n, dict_get str_eqb (nw_nodes nw) id = Some n ->
     n_arcrole n = r /\ n_linkrole n = l /\
     (n_target n = match dict_get str_eqb ns id with
                   | Some f => TNote f
                   | None => TFact (match dict_get str_eqb fs id with Some t => t | None => [] end)
                   end) /\
     (forall to, related_times (fun x => in_group l r x /\ refers (r_from x) id /\ refers (r_to x) to) xs
                   (count_occ (list_eq_dec N.eq_dec) (n_kids n) to)) /\
     (forall a x b y c, n_kids n = a ++ x :: b ++ y :: c -> Qle (order_of (nw_nodes nw) x) (order_of (nw_nodes nw) y))) /\
  NoDup (nw_roots nw) /\
  (forall id, In id (nw_roots nw) <->
     (exists x, In x xs /\ in_group l r x /\ refers (r_from x) id) /\
     ~ exists x, In x xs /\ in_group l r x /\ refers (r_to x) id) /\
  (forall id, (exists x, In x xs /\ in_group l r x /\ refers (r_to x) id) ->
     exists before x after s, xs = before ++ x :: after /\ in_group l r x /\ refers (r_to x) id /\
       (forall y, In y before -> ~ (in_group l r y /\ refers (r_to y) id)) /\
       r_order x = Some s /\ e_float e s = Some (order_of (nw_nodes nw) id)).
