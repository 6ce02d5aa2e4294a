(** Model of brel/utils/pprint.py (PP), print_component.py (PC) and print_table.py (PT).

    Simplifications:
    - printing is recorded as the calls of [print] and of [rich.print]; what was printed before a
      failure stays on the console, so that a run is the calls it made and how it ended;
    - the text of a printed table is not modelled, only its headings and cells (PrintModel);
    - [rich.print] reads [...] in its text as markup and fails for a closing tag without an
      opening one; which texts it accepts is an argument, and its failure is a ValueError here
      although rich has a class of its own for it;
    - a network is printed without the line of its arc roles, as in PrintModel, and the lines of a
      network that is never printed to its end are not recorded;
    - of other objects than those named below it is only known that they have none of the methods
      that are called here. *)
From Coq Require Import QArith.
From Verif Require Import Base QNameModel CtxModel PrintModel CompModel.
Local Open Scope nat_scope.

(** What a call of [print] or of [rich.print] is given. *)
Inductive call :=
| PrintText (text : str)
| PrintMarkup (text : str)
| PrintTable (title : str) (columns : list str) (rows : list (list cell)).

(** The calls of a run, and the exception that ended it if one did. *)
Definition run : Type := list call * option exn.
Definition done : run := ([], None).
Definition failed (e : exn) : run := ([], Some e).
Definition calls (l : list call) : run := (l, None).

(** One statement after the other. *)
Definition andthen (a b : run) : run :=
  match snd a with Some e => a | None => (fst a ++ fst b, snd b) end.
Definition print_lines (r : res (list str)) : run :=
  match r with Ok l => calls (map PrintText l) | Raise e => failed e end.
Definition empty_line : run := calls [PrintText []].

(** A network object with what is printed of it. *)
Record netobj := NetObj { no_net : net; no_role : str; no_name : qname; no_roots : list nat }.

(** The objects [pprint] can be given. *)
Inductive pyobj :=
| OFact (f : fact)
| OList (l : list pyobj)
| ONetwork (n : netobj)
| ONode (g : net) (i : nat)
| OComponent (c : component)
| OTable
| OOther.

Section PPrint.
(** Which texts [rich.print] accepts; the network that is meant by the number of a network of a
    component; the order of a set; how deep networks are followed. *)
Variable markup_ok : str -> bool.
Variable objects : nat -> netobj.
Variable ord : list str -> list str.
Variable fuel : nat.

Definition rich_print (text : str) : run :=
  if markup_ok text then calls [PrintMarkup text] else failed ValueError.

(** print_networks.py:120-131 *)
Definition print_network (n : netobj) : run :=
  print_lines (pprint_network fuel (no_net n) (no_role n) (no_name n) (no_roots n)).

(** print_facts.py:86-116 *)
Definition print_fact (f : fact) : run :=
  calls [PrintTable (u "Fact Table") [u "aspect"; u "value"] (map (fun r => [CText (Some (fst r)); snd r]) (pprint_fact f))].

(** print_facts.py:19-83; the context of every object is asked for before anything is printed *)
Fixpoint facts_of (l : list pyobj) : option (list fact) :=
  match l with
  | [] => Some []
  | OFact f :: r => match facts_of r with Some fs => Some (f :: fs) | None => None end
  | _ :: _ => None
  end.
Definition print_facts (l : list pyobj) : run :=
  match facts_of l with
  | None => failed AttributeError
  | Some fs =>
      match pprint_facts ord fs with
      | Ok (columns, rows) => calls [PrintTable (u "Facts Table") columns rows]
      | Raise e => failed e
      end
  end.

(** PC 26-29 *)
Fixpoint print_networks (l : list network) : run :=
  match l with
  | [] => done
  | n :: r => andthen (print_network (objects (n_object n))) (andthen empty_line (print_networks r))
  end.

(** PC 18-37 *)
Definition pprint_component (c : component) : run :=
  andthen (rich_print (u "[bold]Component:[/bold] " ++ get_URI c))
  (andthen (rich_print (u "[italic]Info:[/italic] " ++ get_info c))
  (let networks := get_networks c in
   andthen (print_networks networks)
  (andthen (match networks with
            | [] => rich_print (u "[yellow]No networks in this component.[/yellow]")
            | _ => done
            end)
   empty_line))).

(** PP 49-50: another object has no [get_URI] *)
Fixpoint pprint_components (l : list pyobj) : run :=
  match l with
  | [] => done
  | OComponent c :: r => andthen (pprint_component c) (pprint_components r)
  | _ :: _ => failed AttributeError
  end.

(** PT 4-5 *)
Definition pprint_definition_table : run := empty_line.

(** PP 28-65 *)
Definition pprint (o : pyobj) : run :=
  match o with
  | OFact f => print_fact f
  | OList l =>
      match l with
      | [] => print_facts l
      | OFact _ :: _ => print_facts l
      | OComponent _ :: _ => pprint_components l
      | _ :: _ => failed TypeError
      end
  | ONetwork n => print_network n
  | ONode g i => print_lines (pprint_network_node fuel g (Some i))
  | OComponent c => pprint_component c
  | OTable => pprint_definition_table
  | OOther => failed TypeError
  end.
End PPrint.
