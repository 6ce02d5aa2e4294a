(** What [pprint] should print, without the functions of the model. *)
From Coq Require Import QArith.
From Verif Require Import Base QNameModel CtxModel CtxSpec PrintModel PrintSpec CompModel PPrintModel.
Local Open Scope nat_scope.

(** The lines of a network: its heading, its trees, an empty line. *)
Definition network_lines (n : netobj) (lines : list str) : Prop :=
  exists name ts, belows (no_net n) (no_roots n) ts /\
    (name = q_prefix (no_name n) ++ u ":" ++ q_local (no_name n)) /\
    lines = (u "Network (link role: " ++ no_role n ++ u "), link name: " ++ name)
            :: drawing (fun i => shown (no_net n i)) (flat_map (entries 0) ts) ++ [[]].

(** No node of a network is below itself. *)
Definition acyclic (n : netobj) : Prop := forall i, In i (no_roots n) -> Acc (child (no_net n)) i.

(** The networks a component has, in the order presentation, calculation, definition. *)
Inductive present {A} : list (option A) -> list A -> Prop :=
| present_nil : present [] []
| present_some x l r : present l r -> present (Some x :: l) (x :: r)
| present_none l r : present l r -> present (None :: l) r.
Definition networks_of (c : component) (ns : list network) : Prop :=
  present [c_presentation c; c_calculation c; c_definition c] ns.

Definition uri_line (c : component) : str := u "[bold]Component:[/bold] " ++ c_uri c.
Definition info_line (c : component) : str := u "[italic]Info:[/italic] " ++ c_info c.
Definition notice : str := u "[yellow]No networks in this component.[/yellow]".

(** A printed component. *)
Definition component_shown (objects : nat -> netobj) (c : component) (l : list call) : Prop :=
  exists ns blocks, networks_of c ns /\ Forall2 (fun n => network_lines (objects (n_object n))) ns blocks /\
    l = [PrintMarkup (uri_line c); PrintMarkup (info_line c)]
        ++ flat_map (fun b => map PrintText b ++ [PrintText []]) blocks
        ++ (if length ns =? 0 then [PrintMarkup notice] else [])
        ++ [PrintText []].

(** Several runs one after the other, up to the first that fails. *)
Inductive in_turn : list run -> run -> Prop :=
| turn_nil : in_turn [] ([], None)
| turn_ok l rs l' e : in_turn rs (l', e) -> in_turn ((l, None) :: rs) (l ++ l', e)
| turn_fails l e rs : in_turn ((l, Some e) :: rs) (l, Some e).

Definition is_fact (o : pyobj) : Prop := exists f, o = OFact f.
Definition is_component (o : pyobj) : Prop := exists c, o = OComponent c.

(** What can be printed at all. *)
Definition unsupported (o : pyobj) : Prop :=
  o = OOther \/ exists x r, o = OList (x :: r) /\ ~ is_fact x /\ ~ is_component x.
