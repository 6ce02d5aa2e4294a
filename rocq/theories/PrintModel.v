(** Model of the functions that print: brel/utils/print_networks.py (PN), print_facts.py (PF),
    and of the dictionaries of networks (networks/i_network.py, i_network_node.py).

    Simplifications:
    - printing is the list of the texts passed to [print]; the console can encode all of them
      (PN 103-106);
    - the text of a weight, [str()] of the content of a reference and [str()] of a report element
      are given with the node;
    - of a table of facts the headings and cells are modelled, not how PrettyTable draws it; the
      text of a cell is [str()] of the object;
    - the second line of a printed network (its arc roles, in the order of a set) is not modelled. *)
From Coq Require Import QArith.
From Verif Require Import Base QNameModel CtxModel.
Local Open Scope nat_scope.

(** ** Nodes *)

(** What a node points to. *)
Inductive target :=
| TElement (k : ekind) (name : str)
| TLabel (role language content : str)
| TReference (role content : str)
| TFootnote (role content : str)
| TFact (f : nat).

(** A node; only calculation nodes have a weight, only presentation nodes a preferred label. *)
Record pnode := PNode {
  pn_target : target; pn_weight : option str; pn_preferred : option str; pn_order : Q;
  pn_arc_role : str; pn_arc_name : qname; pn_link_role : str; pn_link_name : qname;
  pn_kids : list nat }.
Definition net := nat -> pnode.

(** PN 19-22 *)
Definition ELBOW : str := u "└──".
Definition PIPE : str := u "│  ".
Definition TEE : str := u "├──".
Definition SPACE : str := u "   ".

(** PN 24-34 *)
Definition tag_of (k : ekind) : str :=
  match k with
  | KDimension => u "[DIMENSION]" | KMember => u "[MEMBER]" | KLineItems => u "[LINE ITEMS]"
  | KHypercube => u "[HYPERCUBE]" | KConcept => u "[CONCEPT]" | KAbstract => u "[ABSTRACT]"
  end.
(** PN 36 *)
Definition PADDING : nat := 12.

(** [role.split("/")[-1]] *)
Definition role_end (role : str) : str := last (split_char (ch "/") role) [].

(** PN 39-99: what is printed for a node. A report element has no [get_preferred_label_role], so
    that the branch of PN 69-74 is never taken. *)
Definition shown_target (t : target) : str :=
  match t with
  | TLabel role language content =>
      u "[[LABEL]] (" ++ role_end role ++ u " " ++ language ++ u ") " ++ content
  | TReference role content => u "[[REFERENCE]] (" ++ role_end role ++ u ") " ++ content
  | TFootnote role content => u "[[FOOTNOTE]] (" ++ role_end role ++ u ") " ++ content
  | TElement k name => tag_of k ++ u " " ++ name
  | TFact _ => []
  end.
(** The format [:4] of a number. *)
Definition pad4 (s : str) : str := repeat (ch " ") (4 - length s) ++ s.
Definition weight_text (w : option str) : str :=
  match w with Some w => u "[W=" ++ pad4 w ++ u "] " | None => [] end.
Definition shown (n : pnode) : str :=
  let w := weight_text (pn_weight n) in
  w ++ match w with [] => [] | _ => repeat (ch " ") (PADDING - length w) end ++ shown_target (pn_target n).

(** The loops of PN 108-111 and 127-129: the last one is told so. *)
Fixpoint print_all (p : bool -> nat -> res (list str)) (l : list nat) : res (list str) :=
  match l with
  | [] => Ok []
  | i :: rest =>
      do! a <- p (match rest with [] => true | _ => false end) i;
      do! b <- print_all p rest;
      Ok (a ++ b)
  end.

(** PN 39-111 *)
Fixpoint print_sub_network (fuel : nat) (g : net) (last : bool) (header : str) (i : nat) : res (list str) :=
  match fuel with
  | 0 => Raise OutOfFuel
  | S fuel =>
      let child_header := header ++ (if last then SPACE else PIPE) in
      do! rest <- print_all (fun is_last => print_sub_network fuel g is_last child_header) (pn_kids (g i));
      Ok ((header ++ (if last then ELBOW else TEE) ++ shown (g i)) :: rest)
  end.

(** PN 114-117 *)
Definition pprint_network_node (fuel : nat) (g : net) (i : option nat) : res (list str) :=
  match i with None => Ok [] | Some i => print_sub_network fuel g true [] i end.

(** PN 120-131 without the second line *)
Definition pprint_network (fuel : nat) (g : net) (link_role : str) (link_name : qname) (roots : list nat)
  : res (list str) :=
  do! body <- print_all (fun is_last => print_sub_network fuel g is_last []) roots;
  Ok ([u "Network (link role: " ++ link_role ++ u "), link name: " ++ prefix_local_notation link_name] ++ body ++ [[]]).

(** What appears on the console. *)
Definition stdout (calls : list str) : str := flat_map (fun t => t ++ u "
") calls.

(** ** Dictionaries *)

Inductive json := JStr (s : str) | JNum (q : Q) | JBool (b : bool) | JList (l : list json) | JObj (l : list (str * json)).

Definition points_to (t : target) : str :=
  match t with TElement _ _ => u "report element" | TFact _ => u "fact" | _ => u "resource" end.

(** i_network_node.py:162-175 *)
Fixpoint node_dict (fuel : nat) (g : net) (i : nat) : res json :=
  match fuel with
  | 0 => Raise OutOfFuel
  | S fuel =>
      let n := g i in
      do! children <- map_res (node_dict fuel g) (pn_kids n);
      Ok (JObj [(u "points_to", JStr (points_to (pn_target n))); (u "arc_role", JStr (pn_arc_role n));
                (u "arc_name", JStr (prefix_local_notation (pn_arc_name n))); (u "link_role", JStr (pn_link_role n));
                (u "link_name", JStr (prefix_local_notation (pn_link_name n))); (u "order", JNum (pn_order n));
                (u "children", JList children)])
  end.

(** i_network.py:138-148 *)
Definition network_dict (fuel : nat) (g : net) (link_role : str) (link_name : qname) (physical : bool) (roots : list nat)
  : res json :=
  do! l <- map_res (node_dict fuel g) roots;
  Ok (JObj [(u "roots", JList l); (u "link_role", JStr link_role);
            (u "link_name", JStr (prefix_local_notation link_name)); (u "is_physical", JBool physical)]).

(** ** Tables of facts *)

(** PF 25-29: a set of aspects, which are equal if their names are *)
Definition set_add (s : list str) (a : str) : list str := if existsb (str_eqb a) s then s else s ++ [a].
Definition aspects_of (facts : list fact) : list str :=
  fold_left (fun s f => fold_left set_add (c_aspects (f_context f)) s) facts [].

(** PF 40-50 *)
Definition sort_key (a : str) : str :=
  if str_eqb a a_concept then u "1"
  else if str_eqb a a_period then u "2"
  else if str_eqb a a_entity then u "3"
  else if str_eqb a a_unit then u "4"
  else u "5" ++ a.

Inductive cell := CText (s : option str) | CChar (c : option characteristic).

Definition key_leb (key : str -> str) (a b : str) : bool := str_leb (key a) (key b).

(** [PrettyTable(columns)] accepts no heading twice. *)
Fixpoint distinct (l : list str) : bool :=
  match l with [] => true | a :: r => negb (existsb (str_eqb a) r) && distinct r end.

(** PF 63-72, 77 *)
Definition fact_row (dimensions : list str) (f : fact) : option str * list cell :=
  (f_id f, CText (f_id f) :: map (fun d => CChar (get_characteristic (f_context f) d)) dimensions ++ [CText (Some (f_value f))]).
Definition row_key {A} (r : option str * A) : str := match fst r with Some i => i | None => [] end.
Definition row_leb {A} (r r' : option str * A) : bool := str_leb (row_key r) (row_key r').

(** PF 19-83; [ord] is the order in which Python iterates a set *)
Definition pprint_facts (ord : list str -> list str) (facts : list fact) : res (list str * list (list cell)) :=
  let dimensions := stable_sort (key_leb sort_key) (ord (aspects_of facts)) in
  let columns := [u "id"] ++ dimensions ++ [u "value"] in
  if distinct columns then Ok (columns, map snd (stable_sort row_leb (map (fact_row dimensions) facts)))
  else Raise ValueError.

(** PF 86-116 *)
Definition pprint_fact (f : fact) : list (str * cell) :=
  stable_sort (fun r r' => str_leb (fst r) (fst r'))
    (map (fun a => (a, CChar (get_characteristic (f_context f) a))) (c_aspects (f_context f)))
  ++ [(u "value", CText (Some (f_value f)))].
