(** Specification vocabulary for the links of a filing. *)
From Verif Require Import Base QNameModel ErrBase ErrTable ErrModel CtxModel NetModel NetSpec LangModel LinkModel.
Local Open Scope nat_scope.

(** The attributes of XLink, by namespace. *)
Definition XLINK : str := u "http://www.w3.org/1999/xlink".
Definition LINKBASE : str := u "http://www.xbrl.org/2003/linkbase".
Definition clark (uri local : str) : str := u "{" ++ uri ++ u "}" ++ local.
Definition xl (name : string) (x : xml) : option str := attr x (clark XLINK (u name)).

(** [x] is somewhere inside [top], [around] are the elements around it, nearest first ([outside]:
    those around [top]). *)
Inductive inside (top : xml) (outside : list xml) : xml -> list xml -> Prop :=
| inside_kid k : In k (x_kids top) -> inside top outside k (top :: outside)
| inside_more x around k : inside top outside x around -> In k (x_kids x) -> inside top outside k (x :: around).

(** The prefix xlink is bound as usual. *)
Definition usual (x : xml) : Prop := dict_get key_eqb (x_scope x) (Some (u "xlink")) = Some XLINK.
(** The first text is part of the second. *)
Definition part_of (s t : str) : Prop := exists a b, t = a ++ s ++ b.

(** [x] is an extended link of one of the documents. *)
Definition extended_link (docs : list xml) (x : xml) (around : list xml) : Prop :=
  (exists d, In d docs /\ inside d [] x around) /\
  (exists local, x_tag x = Some (clark LINKBASE local)) /\ xl "type" x = Some (u "extended").
(** ... in all extended links and inside them. *)
Definition all_usual (docs : list xml) : Prop :=
  forall link outside, extended_link docs link outside ->
    usual link /\ forall x around, inside link outside x around -> usual x.
Definition label_link (x : xml) : Prop :=
  exists t, x_tag x = Some t /\ part_of (u "labelLink") t /\ ~ part_of (u "presentationLink") t /\
    ~ part_of (u "calculationLink") t /\ ~ part_of (u "definitionLink") t.

(** [x] is an element of the type inside the link. *)
Definition element_of (link : xml) (outside : list xml) (type : string) (x : xml) (around : list xml) : Prop :=
  inside link outside x around /\ x_tag x <> None /\ xl "type" x = Some (u type).

(** The locator stands for the report element. *)
Definition fragment (href : str) : str := last (split_char (ch "#") href) [].
Definition locates (find_id : str -> option found) (x : xml) (e : nat) : Prop :=
  exists href, xl "href" x = Some href /\
    (find_id (fragment href) = Some (FConcept e) \/ find_id (fragment href) = Some (FElement e)).

(** The language of an element: its own or that of the nearest element around it that has one. *)
Definition lang_attr (x : xml) : option str := attr x (clark (u "http://www.w3.org/XML/1998/namespace") (u "lang")).
Definition speaks (x : xml) (around : list xml) (lang : str) : Prop :=
  exists pre y post, x :: around = pre ++ y :: post /\ lang_attr y = Some lang /\ forall z, In z pre -> lang_attr z = None.
Definition silent (x : xml) (around : list xml) : Prop := forall z, In z (x :: around) -> lang_attr z = None.

(** The resource is written as the label. *)
Definition written_label (x : xml) (around : list xml) (l : label) : Prop :=
  (exists t, x_tag x = Some t /\ part_of (u "label") t) /\
  speaks x around (l_lang l) /\ xl "role" x = Some (l_role l) /\ xl "label" x = Some (l_label l) /\
  l_text l = match x_text x with Some t => t | None => [] end.

(** In the link, an arc of the role leads from the locator to the resource, and none of the role to
    the locator. *)
Definition arc_leads (link : xml) (outside : list xml) (role : str) (from to : xml) : Prop :=
  (exists arc around, element_of link outside "arc" arc around /\ xl "arcrole" arc = Some role /\
     xl "from" arc = xl "label" from /\ xl "to" arc = xl "label" to) /\
  (forall arc around, element_of link outside "arc" arc around -> xl "arcrole" arc = Some role ->
     xl "to" arc <> xl "label" from).

(** The link gives the report element the label. *)
Definition gives (find_id : str -> option found) (link : xml) (outside : list xml) (e : nat) (l : label) : Prop :=
  exists loc around res around' role,
    element_of link outside "locator" loc around /\ element_of link outside "resource" res around' /\
    locates find_id loc e /\ written_label res around' l /\ arc_leads link outside role loc res.

(** The link is what the reader of labels expects: locators of report elements, labels, each with an
    arc to it (of every role of the arcs from it), and no arc from locator to locator, unless one of
    its role leads to the first. *)
Definition expected_label_link (find_id : str -> option found) (link : xml) (outside : list xml) : Prop :=
  (forall x around href n, element_of link outside "locator" x around -> xl "href" x = Some href -> find_id (fragment href) <> Some (FFact n)) /\
  (forall x around t, element_of link outside "resource" x around -> x_tag x = Some t -> ~ part_of (u "label") t ->
     (part_of (u "footnote") t -> silent x around) /\ (part_of (u "reference") t -> part_of (u "footnote") t)) /\
  (forall x around l, element_of link outside "resource" x around -> written_label x around l ->
     (exists arc aa, element_of link outside "arc" arc aa /\ xl "to" arc = xl "label" x) /\
     (forall arc aa, element_of link outside "arc" arc aa -> xl "from" arc = xl "label" x ->
        exists arc' aa', element_of link outside "arc" arc' aa' /\ xl "to" arc' = xl "label" x /\ xl "arcrole" arc' = xl "arcrole" arc)) /\
  (forall x around y around' role e e', element_of link outside "locator" x around -> element_of link outside "locator" y around' ->
     locates find_id x e -> locates find_id y e' -> ~ arc_leads link outside role x y).

(** What becomes of a link, by its tag. *)
Definition link_kind (x : xml) (k : kind) : Prop :=
  exists t, x_tag x = Some t /\
    let has s := part_of (u s) t in
    let p := has "presentationLink"%string in let c := has "calculationLink"%string in let d := has "definitionLink"%string in
    let l := has "labelLink"%string in let r := has "referenceLink"%string in let f := has "footnoteLink"%string in
    match k with
    | KPresentation => p
    | KCalculation => c /\ ~ p
    | KPhysicalDefinition | KLogicalDefinition => d /\ ~ p /\ ~ c
    | KLabel => l /\ ~ p /\ ~ c /\ ~ d
    | KReference => r /\ ~ p /\ ~ c /\ ~ d /\ ~ l
    | KFootnote => f /\ ~ p /\ ~ c /\ ~ d /\ ~ l /\ ~ r
    end.

(** In the link, an arc leads from a locator of the first report element to one of the second. *)
Definition puts (find_id : str -> option found) (link : xml) (outside : list xml) (parent child : nat) : Prop :=
  exists arc aa from af to at', element_of link outside "arc" arc aa /\ element_of link outside "locator" from af /\ element_of link outside "locator" to at' /\
    xl "from" arc = xl "label" from /\ xl "to" arc = xl "label" to /\ locates find_id from parent /\ locates find_id to child.
Definition mentions (find_id : str -> option found) (link : xml) (outside : list xml) (e : nat) : Prop :=
  exists loc al, element_of link outside "locator" loc al /\ locates find_id loc e.
(** No chain of arcs leads back to where it starts; every arc starts at a locator of a report
    element. *)
Inductive chain (link : xml) (outside : list xml) (s : str) : str -> Prop :=
| chain_one arc aa t : element_of link outside "arc" arc aa -> xl "from" arc = Some s -> xl "to" arc = Some t -> chain link outside s t
| chain_more arc aa t v : chain link outside s t -> element_of link outside "arc" arc aa -> xl "from" arc = Some t -> xl "to" arc = Some v -> chain link outside s v.
Definition no_cycle (link : xml) (outside : list xml) : Prop := forall s, ~ chain link outside s s.
Definition anchored (find_id : str -> option found) (link : xml) (outside : list xml) : Prop :=
  forall arc aa, element_of link outside "arc" arc aa -> exists loc al e, element_of link outside "locator" loc al /\ locates find_id loc e /\ xl "label" loc = xl "from" arc.

(** The labels that one comes to: those of locators of report elements that no arc leads to, and from
    these those of locators of report elements that arcs lead to. *)
Definition names (find_id : str -> option found) (link : xml) (outside : list xml) (s : str) : Prop :=
  exists loc al e, element_of link outside "locator" loc al /\ locates find_id loc e /\ xl "label" loc = Some s.
Inductive come_to (find_id : str -> option found) (link : xml) (outside : list xml) : str -> Prop :=
| come_first s : names find_id link outside s ->
    (forall arc aa, element_of link outside "arc" arc aa -> xl "to" arc <> Some s) -> come_to find_id link outside s
| come_next s t arc aa : come_to find_id link outside s -> element_of link outside "arc" arc aa ->
    xl "from" arc = Some s -> xl "to" arc = Some t -> names find_id link outside t -> come_to find_id link outside t.
(** [puts] and [mentions] of locators that one comes to. *)
Definition puts_there (find_id : str -> option found) (link : xml) (outside : list xml) (parent child : nat) : Prop :=
  exists arc aa from af to at' s, element_of link outside "arc" arc aa /\ element_of link outside "locator" from af /\ element_of link outside "locator" to at' /\
    xl "from" arc = Some s /\ xl "label" from = Some s /\ xl "to" arc = xl "label" to /\ locates find_id from parent /\ locates find_id to child /\
    come_to find_id link outside s.
Definition mentions_there (find_id : str -> option found) (link : xml) (outside : list xml) (e : nat) : Prop :=
  exists loc al s, element_of link outside "locator" loc al /\ locates find_id loc e /\ xl "label" loc = Some s /\ come_to find_id link outside s.

(** Networks, perhaps of two readings, with the same content: the same things, related in the same way. *)
Definition same_content (h1 h2 : heap) (roots1 roots2 : list nat) : Prop :=
  (forall o, shows h1 roots1 o <-> shows h2 roots2 o) /\ (forall o o', relates h1 roots1 o o' <-> relates h2 roots2 o o').
(** The same nodes, with everything said about them, but for the order of roots and of siblings. *)
Definition same_tree (h1 h2 : heap) (roots1 roots2 : list nat) : Prop :=
  exists to : nat -> nat, (forall m, In m roots2 <-> exists n, In n roots1 /\ to n = m) /\
    forall r n, In r roots1 -> reach h1 r n -> exists x y, nth_error h1 n = Some x /\ nth_error h2 (to n) = Some y /\
      set_children x [] = set_children y [] /\ Permutation (map to (n_kids x)) (n_kids y).

(** A report of the error. *)
Definition reports (before after : repo xml) (code : string) (x : xml) (kw : list (str * str)) : Prop :=
  exists e, create code (Some x) kw = Ok e /\ after = before ++ [e].

(** Every listing of sets is some order. *)
Definition orders (edge_order : nat -> list edge -> list edge) (root_order : nat -> list nat -> list nat) : Prop :=
  (forall n, some_order (edge_order n)) /\ (forall n, some_order (root_order n)).

(** ** Reports *)

(** A report: its code, the element it is about, and what it tells. *)
Record report := Report { p_code : string; p_about : xml; p_tells : list (str * str) }.
Definition made (r : report) (e : error xml) : Prop := create (p_code r) (Some (p_about r)) (p_tells r) = Ok e.

(** The elements of some types inside a link, in document order. *)
Definition elements_of (link : xml) (outside : list xml) (types : list string) : list (xml * list xml) :=
  filter (fun p => match x_tag (fst p), xl "type" (fst p) with
                   | Some _, Some t => existsb (fun t' => str_eqb t (u t')) types
                   | _, _ => false
                   end) (inner outside link).

(** Every arc that leads from and to where an earlier one of its role leads. *)
Definition same_arc (x y : xml) : Prop :=
  xl "from" x = xl "from" y /\ xl "to" x = xl "to" y /\ xl "arcrole" x = xl "arcrole" y.
Inductive arcs_reported : list xml -> list xml -> list report -> Prop :=
| arcs_end earlier : arcs_reported earlier [] []
| arcs_new earlier x l rs : (forall y, In y earlier -> ~ same_arc x y) ->
    arcs_reported (x :: earlier) l rs -> arcs_reported earlier (x :: l) rs
| arcs_again earlier x l rs y from to : In y earlier -> same_arc x y -> xl "from" x = Some from -> xl "to" x = Some to ->
    arcs_reported (x :: earlier) l rs ->
    arcs_reported earlier (x :: l) (Report "DUPLICATE_LINKBASE_ARC" x [(u "arc_from", from); (u "arc_to", to)] :: rs).

(** What is wrong with a locator or resource. *)
Inductive part_reported (find_id : str -> option found) (x : xml) (around : list xml) : list report -> Prop :=
| locator_found href : xl "type" x = Some (u "locator") -> xl "href" x = Some href -> find_id (fragment href) <> None ->
    part_reported find_id x around []
| locator_lost href : xl "type" x = Some (u "locator") -> xl "href" x = Some href -> find_id (fragment href) = None ->
    part_reported find_id x around [Report "XML_REFERENCED_LOCATOR_ELEMENT_NOT_FOUND" x [(u "elem_id", fragment href)]]
| resource_speaks t lang : xl "type" x = Some (u "resource") -> x_tag x = Some t ->
    part_of (u "label") t \/ part_of (u "footnote") t -> speaks x around lang -> part_reported find_id x around []
| label_silent t : xl "type" x = Some (u "resource") -> x_tag x = Some t -> part_of (u "label") t -> silent x around ->
    part_reported find_id x around [Report "MISSING_LABEL_LANGUAGE" x []]
| footnote_silent t : xl "type" x = Some (u "resource") -> x_tag x = Some t -> ~ part_of (u "label") t -> part_of (u "footnote") t ->
    silent x around -> part_reported find_id x around [Report "XML_MISSING_FOOTNOTE_LANGUAGE" x []]
| reference_found t : xl "type" x = Some (u "resource") -> x_tag x = Some t -> ~ part_of (u "label") t -> ~ part_of (u "footnote") t ->
    part_of (u "reference") t -> part_reported find_id x around []
| other_resource t : xl "type" x = Some (u "resource") -> x_tag x = Some t -> ~ part_of (u "label") t -> ~ part_of (u "footnote") t ->
    ~ part_of (u "reference") t -> part_reported find_id x around [Report "XML_UNSUPPORTED_RESOURCE_TAG" x [(u "tag", t)]].

(** What is wrong inside a link. *)
Definition inside_reported (find_id : str -> option found) (link : xml) (outside : list xml) (rs : list report) : Prop :=
  exists ra rp, arcs_reported [] (map fst (elements_of link outside ["arc"%string])) ra /\
    Forall2 (fun p => part_reported find_id (fst p) (snd p)) (elements_of link outside ["resource"; "locator"]%string) rp /\
    rs = ra ++ concat rp.

(** What is reported about a link: nothing but the link without role or of unknown kind, else what is
    wrong inside it, for definition links twice. *)
Inductive link_reported (find_id : str -> option found) (link : xml) (outside : list xml) : list report -> Prop :=
| no_role : xl "role" link = None -> link_reported find_id link outside [Report "MISSING_LINK_ROLE" link []]
| no_kind t : xl "role" link <> None -> x_tag link = Some t -> (forall k, ~ link_kind link k) ->
    link_reported find_id link outside [Report "UNSUPPORTED_LINK_TYPE" link [(u "type", t)]]
| read_once k rs : xl "role" link <> None -> link_kind link k -> ~ link_kind link KLogicalDefinition ->
    inside_reported find_id link outside rs -> link_reported find_id link outside rs
| read_twice rs : xl "role" link <> None -> link_kind link KLogicalDefinition ->
    inside_reported find_id link outside rs -> link_reported find_id link outside (rs ++ rs).

(** First the links whose role looks like that of the standard, then the others. *)
Inductive in_two_parts {A} (P : A -> Prop) : list A -> list A -> list A -> Prop :=
| parts_end : in_two_parts P [] [] []
| parts_first a l l1 l2 : P a -> in_two_parts P l l1 l2 -> in_two_parts P (a :: l) (a :: l1) l2
| parts_second a l l1 l2 : ~ P a -> in_two_parts P l l1 l2 -> in_two_parts P (a :: l) l1 (a :: l2).
Definition looks_standard (p : xml * list xml) : Prop := exists r, xl "role" (fst p) = Some r /\ part_of (u "/role/link") r.

(** The attributes that the reader of links asks for are there. *)
Definition complete_link (link : xml) (outside : list xml) : Prop :=
  (forall x around, element_of link outside "arc" x around -> xl "from" x <> None /\ xl "to" x <> None /\ xl "arcrole" x <> None) /\
  (forall x around, element_of link outside "locator" x around -> xl "label" x <> None /\ xl "href" x <> None) /\
  (forall x around, element_of link outside "resource" x around -> xl "label" x <> None /\ xl "role" x <> None /\
     forall t k, x_tag x = Some t -> part_of (u "reference") t -> ~ part_of (u "label") t -> ~ part_of (u "footnote") t ->
       In k (x_kids x) -> x_tag k <> None).
