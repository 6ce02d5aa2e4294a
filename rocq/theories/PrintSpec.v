(** What printed networks, dictionaries of networks and tables of facts should be, without the functions of the
    model. *)
From Coq Require Import QArith.
From Verif Require Import Base QNameModel CtxModel CtxSpec PrintModel.
Local Open Scope nat_scope.

(** ** Networks *)

(** [j] is a child of [i]. *)
Definition child (g : net) (j i : nat) : Prop := In j (pn_kids (g i)).

(** The tree below a node; a node that is reached twice is there twice. *)
Inductive tree := Item (i : nat) (kids : list tree).
Inductive below (g : net) : nat -> tree -> Prop :=
| below_item i ts : belows g (pn_kids (g i)) ts -> below g i (Item i ts)
with belows (g : net) : list nat -> list tree -> Prop :=
| belows_nil : belows g [] []
| belows_cons i l t ts : below g i t -> belows g l ts -> belows g (i :: l) (t :: ts).

(** The nodes of a tree with their depths, each before what is below it. *)
Fixpoint entries (d : nat) (t : tree) : list (nat * nat) :=
  match t with Item i kids => (d, i) :: flat_map (entries (S d)) kids end.

(** How an entry is drawn depends on the entries after it: column [k] goes on downwards if the next entry that is
    not further to the right than [k] is in column [k]. *)
Definition goes_on (k : nat) (later : list (nat * nat)) : bool :=
  match find (fun e => fst e <=? k) later with Some e => fst e =? k | None => false end.

Definition draw (text : nat -> str) (e : nat * nat) (later : list (nat * nat)) : str :=
  flat_map (fun k => if goes_on k later then u "│  " else u "   ") (seq 0 (fst e)) ++
  (if goes_on (fst e) later then u "├──" else u "└──") ++ text (snd e).

Fixpoint drawing (text : nat -> str) (es : list (nat * nat)) : list str :=
  match es with [] => [] | e :: later => draw text e later :: drawing text later end.

(** Trees of texts, and which texts a tree has. *)
Inductive ttree := TItem (text : str) (kids : list ttree).
Fixpoint texts (text : nat -> str) (t : tree) : ttree :=
  match t with Item i kids => TItem (text i) (map (texts text) kids) end.

(** How a reader finds the depth and the text of a line. *)
Fixpoint read_line (s : str) : option (nat * str) :=
  match s with
  | a :: b :: c :: r =>
      if str_eqb [a; b; c] (u "└──") || str_eqb [a; b; c] (u "├──") then Some (0, r)
      else if str_eqb [a; b; c] (u "   ") || str_eqb [a; b; c] (u "│  ")
      then match read_line r with Some (d, t) => Some (S d, t) | None => None end
      else None
  | _ => None
  end.

(** ** Dictionaries *)

(** The trees below two nodes agree in all but what the nodes point to. *)
Definition same_class (t t' : target) : Prop :=
  match t, t' with
  | TElement _ _, TElement _ _ | TFact _, TFact _ => True
  | (TLabel _ _ _ | TReference _ _ | TFootnote _ _), (TLabel _ _ _ | TReference _ _ | TFootnote _ _) => True
  | _, _ => False
  end.
Inductive alike (g g' : net) : nat -> nat -> Prop :=
| alike_node i i' :
    same_class (pn_target (g i)) (pn_target (g' i')) ->
    pn_arc_role (g i) = pn_arc_role (g' i') ->
    prefix_local_notation (pn_arc_name (g i)) = prefix_local_notation (pn_arc_name (g' i')) ->
    pn_link_role (g i) = pn_link_role (g' i') ->
    prefix_local_notation (pn_link_name (g i)) = prefix_local_notation (pn_link_name (g' i')) ->
    pn_order (g i) = pn_order (g' i') ->
    alikes g g' (pn_kids (g i)) (pn_kids (g' i')) -> alike g g' i i'
with alikes (g g' : net) : list nat -> list nat -> Prop :=
| alikes_nil : alikes g g' [] []
| alikes_cons i i' l l' : alike g g' i i' -> alikes g g' l l' -> alikes g g' (i :: l) (i' :: l').

(** ** Tables of facts *)

(** Core aspects come first, in this order, then the others in the order of their names. *)
Definition core_aspects : list str := [u "concept"; u "period"; u "entity"; u "unit"].
Definition core_rank (a : str) (n : nat) : Prop := nth_error core_aspects n = Some a.
Definition is_core (a : str) : Prop := In a core_aspects.
Inductive column_before : str -> str -> Prop :=
| before_core a b m n : core_rank a m -> core_rank b n -> m < n -> column_before a b
| before_other a b : is_core a -> ~ is_core b -> column_before a b
| before_name a b : ~ is_core a -> ~ is_core b -> lex_lt a b -> column_before a b.

(** The aspects that some fact has. *)
Definition aspect_used (facts : list fact) (a : str) : Prop := exists f, In f facts /\ In a (c_aspects (f_context f)).

(** The text by which facts are ordered. *)
Definition order_id (f : fact) : str := match f_id f with Some i => i | None => [] end.
(** [l'] is [l] in the order of ids; facts with the same id keep their order. *)
Definition in_id_order (l l' : list fact) : Prop :=
  Permutation l l' /\ StronglySorted (fun a b => order_id a = order_id b \/ lex_lt (order_id a) (order_id b)) l' /\
  forall i, filter (fun f => str_eqb i (order_id f)) l' = filter (fun f => str_eqb i (order_id f)) l.

(** A row shows a fact: its id, what it says about each aspect, and its value. *)
Definition row_shows (columns : list str) (f : fact) (row : list cell) : Prop :=
  exists cells, row = CText (f_id f) :: cells ++ [CText (Some (f_value f))] /\
  Forall2 (fun a c => c = CChar (dict_get str_eqb (c_chars (f_context f)) a)) columns cells.
