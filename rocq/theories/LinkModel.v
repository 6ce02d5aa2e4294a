(** Model of how the extended links of all documents become networks, resources and labels:
    parsers/XML/networks/xml_networks_parser.py (NP), xml_extended_link_parser.py (EL),
    xml_resource_parser.py (RP), xml_label_network_factory.py (LF), parsers/utils/lxml_utils.py (LU).
    The passes over arcs and locators are [NetModel.parse_link].

    Simplifications:
    - report elements and facts are known by numbers; [find_id] is the look-up by id, report elements
      before facts (EL 60-63, ConceptModel.locator_target);
    - a resource is known by its position among the link elements of its link;
    - [number] is [float()] of orders and weights, which are assumed to be numbers;
    - [element_str] is [str(element)], which shows a memory address;
    - where several things of one link make the code raise, the model may raise for another of them;
    - the order in which sets are listed: [edge_order] and [root_order] give it for every run of a
      factory (numbered), [shuffle] for the sets of descendants;
    - table linkbases (NP 133) are in TableModel. *)
From Verif Require Import Base Regex QNameModel ErrBase ErrTable ErrModel CtxModel InlineModel NetModel LangModel.
Local Open Scope nat_scope.

(** ** Attributes *)

(** LU 39-62 get_str_attribute for a name with a prefix, without and with default "" *)
Definition required (x : xml) (name : str) : res str :=
  do! v <- attr_prefixed x name ; match v with Some v => Ok v | None => Raise ValueError end.

(** The elements below [x], in document order, each with the elements around it, nearest first. *)
Fixpoint inner (above : list xml) (x : xml) : list (xml * list xml) :=
  (fix go (l : list xml) : list (xml * list xml) :=
     match l with [] => [] | k :: r => (k, x :: above) :: inner (x :: above) k ++ go r end) (x_kids x).

Definition is_some_tag (x : xml) : bool := match x_tag x with Some _ => true | None => false end.
Definition has_type (uri : str) (types : list str) (x : xml) : bool :=
  is_some_tag x &&
  match attr x (to_clark uri (u "type")) with Some t => existsb (str_eqb t) types | None => false end.

(** LU 102-122 find_elements with ".//*[@xlink:type='...' or ...]" and no namespaces: those of the
    link; a prefix that is not bound makes XPath fail and the result empty *)
Definition typed_below (types : list str) (link : xml) (above : list xml) : list (xml * list xml) :=
  match dict_get key_eqb (x_scope link) (Some (u "xlink")) with
  | None => []
  | Some uri => filter (fun p => has_type uri types (fst p)) (inner above link)
  end.

(** LU 171-187 get_elem_lang_recursive; the list: the element and those around it *)
Definition xml_lang : str := to_clark xml_ns (u "lang").
Fixpoint elem_lang (l : list xml) : option str :=
  match l with
  | [] => None
  | x :: l' => match attr x xml_lang with Some v => Some v | None => elem_lang l' end
  end.

(** ** Resources *)

(** resource/brel_label.py, brel_footnote.py, brel_reference.py *)
Inductive resource :=
| RLabel (l : label)
| RFootnote (text label lang role : str)
| RReference (content : list (str * option str)) (label role : str).

(** RP 57-60: later children replace earlier ones of the same name; the tag of a comment is no
    string *)
Definition reference_content (kids : list xml) : res (list (str * option str)) :=
  fold_left (fun acc k => do! d <- acc ; match x_tag k with
                                         | Some t => Ok (dict_set str_eqb d (local_of t) (x_text k))
                                         | None => Raise TypeError
                                         end) kids (Ok []).

Definition text_or_empty (x : xml) : str := match x_text x with Some t => t | None => [] end.

(** RP 24-66 *)
Definition parse_xml_resource (element_str : xml -> str) (x : xml) (above : list xml) (es : repo xml)
  : res (option resource * repo xml) :=
  do! t <- required x (u "xlink:type") ;
  if negb (str_eqb t (u "resource")) then Raise ValueError else
  do! lab <- required x (u "xlink:label") ;
  do! role <- required x (u "xlink:role") ;
  match x_tag x with
  | None => Raise TypeError
  | Some tag =>
      if contains (u "label") tag then
        match elem_lang (x :: above) with
        | None => do! es <- insert es "MISSING_LABEL_LANGUAGE" (Some x) [] ; Ok (None, es)
        | Some lang => Ok (Some (RLabel (Label (text_or_empty x) lab lang role)), es)
        end
      else if contains (u "footnote") tag then
        match elem_lang (x :: above) with
        | None => do! es <- insert es "XML_MISSING_FOOTNOTE_LANGUAGE" (Some x) [] ; Ok (None, es)
        | Some lang =>
            let text := match text_or_empty x with [] => concat (map element_str (x_kids x)) | t => t end in
            Ok (Some (RFootnote text lab lang role), es)
        end
      else if contains (u "reference") tag then
        do! c <- reference_content (x_kids x) ; Ok (Some (RReference c lab role), es)
      else
        do! es <- insert es "XML_UNSUPPORTED_RESOURCE_TAG" (Some x) [(u "tag", tag)] ; Ok (None, es)
  end.

Definition resource_type (r : resource) : otype :=
  match r with RLabel _ => OLabel | RFootnote _ _ _ _ => OFootnote | RReference _ _ _ => OReference end.

(** ** Arcs and link elements *)

(** What a locator can stand for. *)
Inductive found := FConcept (n : nat) | FElement (n : nat) | FFact (n : nat).
Definition obj_of_found (f : found) : obj :=
  match f with FConcept n => Obj n OConcept | FElement n => Obj n OElement | FFact n => Obj n OFact end.

(** EL 47-84 get_object_from_reference; [i]: the position of the link element *)
Definition link_object (element_str : xml -> str) (find_id : str -> option found) (i : nat) (x : xml)
  (above : list xml) (es : repo xml) : res (option (obj * option resource) * repo xml) :=
  do! t <- required x (u "xlink:type") ;
  if str_eqb t (u "locator") then
    do! href <- required x (u "xlink:href") ;
    let elem_id := last (split_char (ch "#") href) [] in
    match find_id elem_id with
    | Some f => Ok (Some (obj_of_found f, None), es)
    | None =>
        do! es <- insert es "XML_REFERENCED_LOCATOR_ELEMENT_NOT_FOUND" (Some x) [(u "elem_id", elem_id)] ;
        Ok (None, es)
    end
  else if str_eqb t (u "resource") then
    do! r <- parse_xml_resource element_str x above es ;
    match fst r with
    | Some res => Ok (Some (Obj i (resource_type res), Some res), snd r)
    | None => Ok (None, snd r)
    end
  else
    do! es <- insert es "XML_UNSUPPORTED_REFERENCED_ELEMENT_TYPE" (Some x) [(u "type", t)] ;
    Ok (None, es).

(** A locator or resource: its label and what it stands for. *)
Definition entry := (str * option (obj * option resource))%type.
Definition loc_of (e : entry) : loc := Loc (fst e) (option_map fst (snd e)).

(** EL 141-151: label and object of the link elements *)
Fixpoint link_entries (element_str : xml -> str) (find_id : str -> option found) (i : nat) (l : list (xml * list xml))
  (es : repo xml) : res (list entry * repo xml) :=
  match l with
  | [] => Ok ([], es)
  | (x, above) :: l' =>
      do! lab <- required x (u "xlink:label") ;
      do! o <- link_object element_str find_id i x above es ;
      do! r <- link_entries element_str find_id (S i) l' (snd o) ;
      Ok ((lab, fst o) :: fst r, snd r)
  end.

(** EL 124-126 and the attributes the factories read (order, weight, preferredLabel) *)
Definition arc_of (number : str -> Q) (x : xml) : res arc :=
  do! from <- required x (u "xlink:from") ;
  do! to <- required x (u "xlink:to") ;
  do! role <- required x (u "xlink:arcrole") ;
  Ok (Arc from to role (option_map number (attr x (u "order"))) (option_map number (attr x (u "weight")))
        (attr x (u "preferredLabel"))).

(** EL 123-139: the duplicates are reported *)
Fixpoint link_arcs (number : str -> Q) (seen : list edge) (l : list (xml * list xml)) (es : repo xml)
  : res (list arc * repo xml) :=
  match l with
  | [] => Ok ([], es)
  | (x, _) :: l' =>
      do! a <- arc_of number x ;
      do! es <- (if existsb (edge_eqb (edge_of a)) seen
                 then insert es "DUPLICATE_LINKBASE_ARC" (Some x) [(u "arc_from", a_from a); (u "arc_to", a_to a)]
                 else Ok es) ;
      do! r <- link_arcs number (edge_of a :: seen) l' es ;
      Ok (a :: fst r, snd r)
  end.

(** ** Links *)

(** A network: the factory that made it, its link role, its roots. *)
Record net := Net { w_kind : kind; w_role : str; w_roots : list nat }.

(** What parsing changes.  [s_added]: which label was added to which report element, in this order;
    [s_runs]: how many times a factory has run. *)
Record lstate := LState { ls_errors : repo xml; ls_heap : heap; ls_added : list (nat * label); ls_runs : nat }.

Definition shift_node (b : nat) (n : node) : node := set_children n (map (Nat.add b) (n_kids n)).

(** LF 88-119: the labels below the roots.  [label_at] is the resource of a link element. *)
Definition labels_below (h : heap) (label_at : nat -> option label) (roots : list nat) : res (list (nat * label)) :=
  do! ls <- map_res (fun r =>
    match nth_error h r with
    | None => Raise IndexError
    | Some x =>
        if is_element (o_type (n_obj x)) then
          map_res (fun c =>
            match nth_error h c with
            | None => Raise IndexError
            | Some y =>
                match o_type (n_obj y), label_at (o_key (n_obj y)) with
                | OLabel, Some l => Ok (o_key (n_obj x), l)
                | _, _ => Raise ValueError
                end
            end) (n_kids x)
        else Raise ValueError
    end) roots ;
  Ok (concat ls).

Definition label_of_entry (entries : list entry) (i : nat) : option label :=
  match nth_error entries i with Some (_, Some (_, Some (RLabel l))) => Some l | _ => None end.

Section Filing.
Variable element_str : xml -> str.
Variable number : str -> Q.
Variable find_id : str -> option found.
Variable edge_order : nat -> list edge -> list edge.
Variable root_order : nat -> list nat -> list nat.

(** EL 114-291 for one factory *)
Definition run_factory (k : kind) (link : xml) (above : list xml) (role : str) (st : lstate)
  : res (list net * lstate) :=
  do! arcs <- link_arcs number [] (typed_below [u "arc"] link above) (ls_errors st) ;
  do! entries <- link_entries element_str find_id 0 (typed_below [u "resource"; u "locator"] link above) (snd arcs) ;
  do! r <- parse_link k (edge_order (ls_runs st)) (root_order (ls_runs st)) (fst arcs) (map loc_of (fst entries)) ;
  let '(h, roots, _) := r in
  do! added <- (match k with
                | KLabel => do! ls <- map_res (labels_below h (label_of_entry (fst entries))) roots ; Ok (concat ls)
                | _ => Ok []
                end) ;
  let b := length (ls_heap st) in
  Ok (map (fun rs => Net k role (map (Nat.add b) rs)) roots,
      LState (snd entries) (ls_heap st ++ map (shift_node b) h) (ls_added st ++ added) (S (ls_runs st))).

(** EL 98-116: the factories for a link; the tests look for a text in the tag *)
Definition factories (tag : str) : list kind :=
  if contains (u "presentationLink") tag then [KPresentation]
  else if contains (u "calculationLink") tag then [KCalculation]
  else if contains (u "definitionLink") tag then [KPhysicalDefinition; KLogicalDefinition]
  else if contains (u "labelLink") tag then [KLabel]
  else if contains (u "referenceLink") tag then [KReference]
  else if contains (u "footnoteLink") tag then [KFootnote]
  else [].

Fixpoint run_factories (ks : list kind) (link : xml) (above : list xml) (role : str) (st : lstate)
  : res (list net * lstate) :=
  match ks with
  | [] => Ok ([], st)
  | k :: ks' =>
      do! a <- run_factory k link above role st ;
      do! b <- run_factories ks' link above role (snd a) ;
      Ok (fst a ++ fst b, snd b)
  end.

Definition with_errors (st : lstate) (es : repo xml) : lstate := LState es (ls_heap st) (ls_added st) (ls_runs st).

(** EL 87-293; the networks get the link role of the link (the factories read xlink:role again) *)
Definition parse_xml_link (link : xml) (above : list xml) (role : str) (st : lstate) : res (list net * lstate) :=
  match x_tag link with
  | None => Raise TypeError
  | Some tag =>
      match factories tag with
      | [] => do! es <- insert (ls_errors st) "UNSUPPORTED_LINK_TYPE" (Some link) [(u "type", tag)] ;
              Ok ([], with_errors st es)
      | ks => run_factories ks link above role st
      end
  end.

(** ** All links *)

Definition link_ns : str := u "http://www.xbrl.org/2003/linkbase".
Definition xlink_ns : str := u "http://www.w3.org/1999/xlink".
Definition in_namespace (uri : str) (x : xml) : bool :=
  match x_tag x with Some t => starts_with (u "{" ++ uri ++ u "}") t | None => false end.
(** NP 71-82: ".//link:*[@xlink:type='extended']" with given namespaces *)
Definition all_links (docs : list xml) : list (xml * list xml) :=
  flat_map (fun d => filter (fun p => in_namespace link_ns (fst p) && has_type xlink_ns [u "extended"] (fst p)) (inner [] d)) docs.

(** NP 84-89; config/linkconfig.json 2-4 *)
Definition is_standard (p : xml * list xml) : bool :=
  match attr_prefixed (fst p) (u "xlink:role") with Ok (Some r) => contains (u "/role/link") r | _ => false end.
Definition sorted_links (docs : list xml) : list (xml * list xml) :=
  filter is_standard (all_links docs) ++ filter (fun p => negb (is_standard p)) (all_links docs).

Definition by_role := list (str * list net).
(** networks[role].extend(new) *)
Definition extend_role (d : by_role) (role : str) (new : list net) : by_role :=
  dict_set str_eqb d role (match dict_get str_eqb d role with Some l => l | None => [] end ++ new).

(** NP 92-105 *)
Definition one_link (p : xml * list xml) (d : by_role) (st : lstate) : res (by_role * lstate) :=
  do! role <- attr_prefixed (fst p) (u "xlink:role") ;
  match role with
  | None => do! es <- insert (ls_errors st) "MISSING_LINK_ROLE" (Some (fst p)) [] ; Ok (d, with_errors st es)
  | Some role =>
      do! r <- parse_xml_link (fst p) (snd p) role st ;
      Ok (extend_role d role (fst r), snd r)
  end.
Fixpoint links_loop (l : list (xml * list xml)) (d : by_role) (st : lstate) : res (by_role * lstate) :=
  match l with
  | [] => Ok (d, st)
  | p :: l' => do! r <- one_link p d st ; links_loop l' (fst r) (snd r)
  end.

(** ** Combination *)

(** The class of a network: the two kinds of definition networks share one. *)
Inductive wclass := WPresentation | WCalculation | WDefinition | WLabel | WReference | WFootnote.
Definition class_of_kind (k : kind) : wclass :=
  match k with
  | KPresentation => WPresentation | KCalculation => WCalculation
  | KPhysicalDefinition | KLogicalDefinition => WDefinition
  | KLabel => WLabel | KReference => WReference | KFootnote => WFootnote
  end.
Definition wclass_eqb (a b : wclass) : bool :=
  match a, b with
  | WPresentation, WPresentation | WCalculation, WCalculation | WDefinition, WDefinition
  | WLabel, WLabel | WReference, WReference | WFootnote, WFootnote => true
  | _, _ => false
  end.

Variable fuel : nat.
Variable shuffle : list nat -> list nat.

(** NP 109-117: the logical networks by class *)
Definition group (l : list net) : list (wclass * list net) :=
  fold_left (fun d w => dict_set wclass_eqb d (class_of_kind (w_kind w))
                          (match dict_get wclass_eqb d (class_of_kind (w_kind w)) with Some g => g | None => [] end ++ [w])) l [].
Definition physical (w : net) : bool := is_physical (w_kind w).

(** NP 119-120: the last network of the group becomes the combined one (network_utils.py 73) *)
Fixpoint combine_groups (gs : list (wclass * list net)) (h : heap) : res (list net * heap) :=
  match gs with
  | [] => Ok ([], h)
  | (_, g) :: gs' =>
      do! c <- combine_networks fuel shuffle h (map w_roots g) ;
      match rev g with
      | [] => Raise ValueError
      | w :: _ =>
          do! r <- combine_groups gs' (fst c) ;
          Ok (Net (w_kind w) (w_role w) (snd c) :: fst r, snd r)
      end
  end.
(** NP 108-122 for one role *)
Definition combine_role (l : list net) (h : heap) : res (list net * heap) :=
  do! r <- combine_groups (group (filter (fun w => negb (physical w)) l)) h ;
  Ok (filter physical l ++ fst r, snd r).
Fixpoint combine_roles (d : by_role) (h : heap) : res (list net * heap) :=
  match d with
  | [] => Ok ([], h)
  | (_, l) :: d' =>
      do! a <- combine_role l h ;
      do! b <- combine_roles d' (snd a) ;
      Ok (fst a ++ fst b, snd b)
  end.

(** NP 44-131: the networks in the order in which they enter the repository (CompModel) *)
Definition parse_networks (docs : list xml) (es : repo xml) : res (list net * lstate) :=
  do! r <- links_loop (sorted_links docs) [] (LState es [] [] 0) ;
  do! c <- combine_roles (fst r) (ls_heap (snd r)) ;
  Ok (fst c, LState (ls_errors (snd r)) (snd c) (ls_added (snd r)) (ls_runs (snd r))).

(** reportelements/i_report_element.py: the labels of a report element, in order of addition *)
Definition labels_of (st : lstate) (e : nat) : list label :=
  map snd (filter (fun p => Nat.eqb (fst p) e) (ls_added st)).
End Filing.
