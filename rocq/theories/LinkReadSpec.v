(** Specification vocabulary: which links can be read, and combined. *)
From Verif Require Import Base QNameModel ErrBase ErrTable ErrModel CtxModel NetModel NetSpec LangModel LinkModel LinkSpec.
Local Open Scope nat_scope.

(** What a locator or resource stands for; nothing, if nothing has the identifier, a label or footnote
    has no language, or the resource is of no known kind. *)
Inductive stands_for (find_id : str -> option found) (x : xml) (around : list xml) : otype -> Prop :=
| for_concept href n : xl "type" x = Some (u "locator") -> xl "href" x = Some href -> find_id (fragment href) = Some (FConcept n) ->
    stands_for find_id x around OConcept
| for_element href n : xl "type" x = Some (u "locator") -> xl "href" x = Some href -> find_id (fragment href) = Some (FElement n) ->
    stands_for find_id x around OElement
| for_fact href n : xl "type" x = Some (u "locator") -> xl "href" x = Some href -> find_id (fragment href) = Some (FFact n) ->
    stands_for find_id x around OFact
| for_label t lang : xl "type" x = Some (u "resource") -> x_tag x = Some t -> part_of (u "label") t -> speaks x around lang ->
    stands_for find_id x around OLabel
| for_footnote t lang : xl "type" x = Some (u "resource") -> x_tag x = Some t -> ~ part_of (u "label") t -> part_of (u "footnote") t ->
    speaks x around lang -> stands_for find_id x around OFootnote
| for_reference t : xl "type" x = Some (u "resource") -> x_tag x = Some t -> ~ part_of (u "label") t -> ~ part_of (u "footnote") t ->
    part_of (u "reference") t -> stands_for find_id x around OReference.

(** What can be in a network of the kind. *)
Definition admits (k : kind) (t : otype) : Prop :=
  match k with
  | KPresentation | KPhysicalDefinition | KLogicalDefinition => t = OConcept \/ t = OElement
  | KCalculation => t = OConcept
  | KLabel => t = OConcept \/ t = OElement \/ t = OLabel
  | KReference => t = OConcept \/ t = OElement \/ t = OReference
  | KFootnote => t = OConcept \/ t = OElement \/ t = OFact \/ t = OFootnote
  end.
Definition fits (find_id : str -> option found) (k : kind) (link : xml) (outside : list xml) : Prop :=
  forall type x around t, element_of link outside type x around -> stands_for find_id x around t -> admits k t.

(** The link can be read as one of the kind. *)
Definition readable (find_id : str -> option found) (k : kind) (link : xml) (outside : list xml) : Prop :=
  complete_link link outside /\
  match k with KLabel => expected_label_link find_id link outside | _ => fits find_id k link outside end.

(** One can begin somewhere in the link. *)
Definition begins (find_id : str -> option found) (link : xml) (outside : list xml) : Prop :=
  exists s, names find_id link outside s /\ forall arc aa, element_of link outside "arc" arc aa -> xl "to" arc <> Some s.
(** Somewhere one comes to, arcs between locators of report elements lead back to where they start. *)
Inductive leads_on (find_id : str -> option found) (link : xml) (outside : list xml) (s : str) : str -> Prop :=
| on_one arc aa t : element_of link outside "arc" arc aa -> xl "from" arc = Some s -> xl "to" arc = Some t ->
    names find_id link outside t -> leads_on find_id link outside s t
| on_more arc aa t v : leads_on find_id link outside s t -> element_of link outside "arc" arc aa -> xl "from" arc = Some t -> xl "to" arc = Some v ->
    names find_id link outside v -> leads_on find_id link outside s v.
Definition turns (find_id : str -> option found) (link : xml) (outside : list xml) : Prop :=
  exists s, come_to find_id link outside s /\ leads_on find_id link outside s s.

(** The extended links in the order in which they are read: in document order, those first whose role
    looks like that of the standard. *)
Inductive chosen {A} (P : A -> Prop) : list A -> list A -> Prop :=
| chosen_end : chosen P [] []
| chosen_in a l l' : P a -> chosen P l l' -> chosen P (a :: l) (a :: l')
| chosen_out a l l' : ~ P a -> chosen P l l' -> chosen P (a :: l) l'.
Definition links_as_read (docs : list xml) (l : list (xml * list xml)) : Prop :=
  exists l0 l1 l2, chosen (fun p => (exists local, x_tag (fst p) = Some (clark LINKBASE local)) /\ xl "type" (fst p) = Some (u "extended")) (flat_map (inner []) docs) l0 /\
    in_two_parts looks_standard l0 l1 l2 /\ l = l1 ++ l2.

(** In presentations, calculations and definitions, what comes later for the same role turns nowhere. *)
Definition joins (k : kind) : Prop := k = KPresentation \/ k = KCalculation \/ k = KLogicalDefinition.
Definition combinable (find_id : str -> option found) (l : list (xml * list xml)) : Prop :=
  forall pre link outside mid link' outside' post role k,
    l = pre ++ (link, outside) :: mid ++ (link', outside') :: post -> xl "role" link = Some role -> xl "role" link' = Some role ->
    joins k -> link_kind link k -> link_kind link' k -> begins find_id link outside -> ~ turns find_id link' outside'.
