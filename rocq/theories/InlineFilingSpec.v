(** What the theorems about whole inline filings (C98-C103) mean. *)
From Coq Require Import QArith Permutation.
From Verif Require Import Base QNameModel ErrBase ErrModel NumModel DateModel CtxModel CtxSpec InlineModel InlineSpec InlineFilingModel.
From Verif Require TextModel TextSpec LinkSpec FootModel FootSpec FilingModel.
Local Open Scope nat_scope.

(** ** Documents *)

(** The element [t] is somewhere in [r], below [above] (the nearest first). *)
Inductive lies (outside : list tree) (r : tree) : tree -> list tree -> Prop :=
| lies_here k : In k (t_kids r) -> lies outside r k (r :: outside)
| lies_deeper k t above : In k (t_kids r) -> lies (r :: outside) k t above -> lies outside r t above.
(** An element of one of the documents that has this local name in the namespace that the root binds to
    the prefix ix. *)
Definition ix_element (roots : list tree) (name : string) (t : tree) (above : list tree) : Prop :=
  exists r uri, In r roots /\ dict_get key_eqb (t_scope r) (Some (u "ix")) = Some uri /\
    lies [] r t above /\ t_tag t = Some (to_clark uri (u name)).

(** The elements of a list and those below, in document order *)
Inductive in_order : list tree -> list tree -> list (tree * list tree) -> Prop :=
| order_nil above : in_order above [] []
| order_cons above t ts l l' : in_order (t :: above) (t_kids t) l -> in_order above ts l' ->
    in_order above (t :: ts) ((t, above) :: l ++ l').
Definition ix_named (names : list string) (r t : tree) : bool :=
  match dict_get key_eqb (t_scope r) (Some (u "ix")) with
  | Some uri => existsb (fun n => opt_eqb str_eqb (t_tag t) (Some (to_clark uri (u n)))) names
  | None => false
  end.
(** The elements of the document [r] with one of these names *)
Definition ix_of (names : list string) (r : tree) (l : list (tree * list tree)) : Prop :=
  exists all, in_order [r] (t_kids r) all /\ l = filter (fun q => ix_named names r (fst q)) all.
Definition ix_elements (names : list string) (roots : list tree) (ps : list place) : Prop :=
  exists ls, Forall2 (ix_of names) roots ls /\ map (fun p => (p_tree p, p_above p)) ps = concat ls.

(** The usual prefix *)
Definition usual_prefix (p : place) : Prop :=
  tag_name (p_xml p) = Ok (u "ix:nonNumeric") \/ tag_name (p_xml p) = Ok (u "ix:nonFraction").

(** What the headers of the documents hold. *)
Definition header_parts (name : string) (roots : list tree) : list xml := kids_named name (all_headers (map plain roots)).
Definition resource_parts (name : string) (roots : list tree) : list xml := kids_named name (header_parts "ix:resources" roots).

(** ** C98: references to roles *)

(** An attribute of the namespace of the prefix xlink *)
Definition xlink_attr (x : xml) (name : string) : option str :=
  attr x (to_clark (match dict_get key_eqb (x_scope x) (Some (u "xlink")) with Some uri => uri | None => u "None" end) (u name)).
Definition uri_problems (uri : str -> bool) (x : xml) (v : option str) (missing invalid : string) : list problem :=
  match v with
  | None | Some [] => [(missing, Some x)]
  | Some s => problem_if (negb (uri s)) (invalid, Some x)
  end.
(** What is reported about a reference; what should be looked up is the attribute "type". *)
Definition reference_problems (uri : str -> bool) (type_name : string) (x : xml) : list problem :=
  problem_if (negb (opt_str_eqb (xlink_attr x type_name) (Some (u "simple")))) ("ROLEREF_INVALID_LINKTYPE"%string, Some x) ++
  uri_problems uri x (xlink_attr x "href") "ROLEREF_MISSING_HREF_ATTRIBUTE" "ROLEREF_INVALID_HREF_ATTRIBUTE" ++
  uri_problems uri x (attr x (u "roleURI")) "ROLEREF_MISSING_ROLE_URI_ATTRIBUTE" "ROLEREF_INVALID_ROLE_URI_ATTRIBUTE" ++
  problem_if (opt_str_eqb (xlink_attr x "role") (Some [])) ("ROLEREF_EMPTY_ROLE_ATTRIBUTE"%string, Some x).
(** A reference as XLink and XBRL want it *)
Definition proper_reference (uri : str -> bool) (x : xml) : Prop :=
  xlink_attr x "type" = Some (u "simple") /\ xlink_attr x "linktype" = None /\
  (exists h, xlink_attr x "href" = Some h /\ h <> [] /\ uri h = true) /\ xlink_attr x "role" <> Some [].

(** ** C99: the text of an element *)

(** Following [o] from continuation to continuation: the last one with the id is the next. *)
Inductive goes_on (conts : list place) : option str -> list place -> Prop :=
| goes_end : goes_on conts None []
| goes_astray id : (forall q, In q conts -> attr (p_xml q) (u "id") <> Some id) -> goes_on conts (Some id) []
| goes_to id q qs : last_with (fun q => attr (p_xml q) (u "id") = Some id) conts q ->
    goes_on conts (attr (p_xml q) (u "continuedAt")) qs -> goes_on conts (Some id) (q :: qs).
(** The parts of the text of an element *)
Definition parts (conts : list place) (p : place) (ts : list tree) : Prop :=
  exists qs, goes_on conts (attr (p_xml p) (u "continuedAt")) qs /\ ts = p_tree p :: map p_tree qs.
(** The content of the parts, without comments *)
Definition contains_no_comment (ts : list tree) : Prop := TextSpec.has_remark (TextSpec.fact_content (map marked ts)) = false.

(** What the earlier models see of the element *)
Definition is_node (tostring : TextModel.xml -> str) (conts : list place) (p : place) (n : node) : Prop :=
  n_el n = p_xml p /\ n_parent n = option_map plain (hd_error (p_above p)) /\
  n_tails n = map t_tail (t_kids (p_tree p)) /\
  n_markup n = match t_kids (p_tree p) with k :: _ => tostring (marked k) | [] => [] end /\
  (forall c, tag_name (n_el n) = Ok (u "ix:nonNumeric") -> n_content n false = Ok c ->
     exists ts, parts conts p ts /\ contains_no_comment ts /\ c = TextSpec.text_of (TextSpec.fact_content (map marked ts))) /\
  (forall c, tag_name (n_el n) = Ok (u "ix:nonNumeric") -> n_content n true = Ok c ->
     exists ts x, parts conts p ts /\ contains_no_comment ts /\
       TextModel.extract_relevant_content_from_continuation_chain (map marked ts) = Ok x /\
       TextSpec.inside x = TextSpec.fact_content (map marked ts) /\ c = TextModel.escape_content tostring x).

(** ** C101: continuations *)

(** Following [o] ends at an identifier that no continuation has. *)
Inductive runs_out (conts : list place) : option str -> str -> Prop :=
| out_here id : (forall q, In q conts -> attr (p_xml q) (u "id") <> Some id) -> runs_out conts (Some id) id
| out_later id q id' : last_with (fun q => attr (p_xml q) (u "id") = Some id) conts q ->
    runs_out conts (attr (p_xml q) (u "continuedAt")) id' -> runs_out conts (Some id) id'.
(** The text of [p] goes on in [q]. *)
Definition continues (conts : list place) (p q : place) : Prop :=
  exists qs, goes_on conts (attr (p_xml p) (u "continuedAt")) qs /\ In q qs.
(** The elements that can be continued *)
Definition continuables (roots : list tree) : list place :=
  filter (fun p => match tag_name (p_xml p) with Ok t => str_eqb t (u "ix:nonNumeric") | Raise _ => false end) (fact_places roots) ++ note_places roots.
Definition unused (roots : list tree) (i : str) : Prop :=
  forall p q, In p (continuables roots) -> continues (cont_places roots) p q -> attr (p_xml q) (u "id") <> Some i.
(** [q] is one of the elements within [p], which are those that follow it in the document. *)
Definition inside_of (all : list place) (p q : place) : Prop :=
  exists a b c, all = a ++ p :: b ++ c /\ map (fun z => (p_tree z, p_above z)) b = below (p_above p) (p_tree p) /\ In q b.
(** The text of [p] goes on in [q], which lies within [p] or within another part of the text. *)
Definition within_itself (roots : list tree) (p q : place) : Prop :=
  continues (cont_places roots) p q /\
  exists p', (p' = p \/ continues (cont_places roots) p p') /\ inside_of (all_places roots) p' q.
(** What is reported about continuations, given the identifiers used before *)
Definition continuation_problems (roots : list tree) (before : list str) (l : list problem) : Prop :=
  (forall x, In ("IXBRL_CONTINUATION_WITHOUT_ID"%string, Some x) l <->
     exists q, In q (cont_places roots) /\ p_xml q = x /\ attr x (u "id") = None) /\
  (forall x, In ("IXBRL_DUPLICATE_ELEMENT_ID"%string, Some x) l <->
     exists a q b i, cont_places roots = a ++ q :: b /\ p_xml q = x /\ attr x (u "id") = Some i /\ In i (before ++ ids_of (map p_xml a))) /\
  (forall x, In ("IXBRL_INVALID_CONTINUATION_ID"%string, Some x) l <->
     exists p i, In p (continuables roots) /\ p_xml p = x /\ runs_out (cont_places roots) (attr x (u "continuedAt")) i) /\
  (forall x, In ("IXBRL_REUSED_CONTINUATION"%string, Some x) l <->
     exists a p b p' q, continuables roots = a ++ p :: b /\ p_xml p = x /\ In p' a /\
       continues (cont_places roots) p q /\ continues (cont_places roots) p' q) /\
  ((exists x, In ("IXBRL_UNUSED_CONTINUATION_ELEMENTS"%string, Some x) l) <->
     exists q i, In q (cont_places roots) /\ attr (p_xml q) (u "id") = Some i /\ unused roots i) /\
  (forall x, In ("IXBRL_UNUSED_CONTINUATION_ELEMENTS"%string, Some x) l ->
     exists q i, In q (cont_places roots) /\ p_xml q = x /\ attr x (u "id") = Some i /\ unused roots i) /\
  (forall x, In ("IXBRL_INVALID_DESCENDANT_IN_CONTINUATION_CHAIN"%string, Some x) l <->
     exists p q, In p (continuables roots) /\ p_xml q = x /\ within_itself roots p q) /\
  (forall c x, In (c, x) l -> In c ["IXBRL_CONTINUATION_WITHOUT_ID"; "IXBRL_DUPLICATE_ELEMENT_ID"; "IXBRL_INVALID_CONTINUATION_ID";
     "IXBRL_REUSED_CONTINUATION"; "IXBRL_UNUSED_CONTINUATION_ELEMENTS"; "IXBRL_INVALID_DESCENDANT_IN_CONTINUATION_CHAIN"]%string /\ x <> None).

(** ** C102: footnotes *)

(** The footnote [x] with identifier [id] is that of the element [p]. *)
Definition footnote_is (uri : str -> bool) (tostring : TextModel.xml -> str) (conts : list place) (p : place) (id : str) (x : FootModel.note) : Prop :=
  FootModel.no_id x = id /\ FootModel.no_title x = attr (p_xml p) (u "title") /\
  ((exists r, attr (p_xml p) (u "footnoteRole") = Some r /\ uri r = true /\ FootModel.no_role x = r) \/
   (forall r, attr (p_xml p) (u "footnoteRole") = Some r -> uri r = false) /\ FootModel.no_role x = u "http://www.xbrl.org/2003/role/footnote") /\
  ((exists l, LinkSpec.speaks (p_xml p) (map plain (p_above p)) l /\ l <> [] /\ FootModel.no_lang x = l) \/
   (forall l, LinkSpec.speaks (p_xml p) (map plain (p_above p)) l -> l = []) /\ FootModel.no_lang x = u "en") /\
  exists ts y, parts conts p ts /\ contains_no_comment ts /\
    TextSpec.inside y = TextSpec.fact_content (map marked ts) /\ FootModel.no_content x = tostring y.
(** The problems whose conditions hold, in order *)
Inductive such : list (Prop * problem) -> list problem -> Prop :=
| such_nil : such [] []
| such_yes (P : Prop) p r l : P -> such r l -> such ((P, p) :: r) (p :: l)
| such_no (P : Prop) p r l : ~ P -> such r l -> such ((P, p) :: r) l.

Definition has_id (p : place) (id : str) : Prop := attr (p_xml p) (u "id") = Some id /\ id <> [].
(** What can be wrong with a footnote *)
Definition note_cases (uri : str -> bool) (taken : list str) (p : place) : list (Prop * problem) :=
  [ ((forall id, ~ has_id p id), ("IXBRL_FOOTNOTE_WITHOUT_ID"%string, Some (p_xml p)));
    ((exists id, has_id p id /\ In id taken), ("IXBRL_DUPLICATE_ELEMENT_ID"%string, Some (p_xml p)));
    ((exists id r, has_id p id /\ attr (p_xml p) (u "footnoteRole") = Some r /\ uri r = false),
       ("IXBRL_INVALID_FOOTNOTE_ROLE"%string, Some (p_xml p)));
    ((exists id, has_id p id /\ forall l, LinkSpec.speaks (p_xml p) (map plain (p_above p)) l -> l = []),
       ("IXBRL_FOOTNOTE_WITHOUT_LANGUAGE"%string, Some (p_xml p))) ].
(** With the ids of footnotes, those of the ones before are taken. *)
Inductive notes_problems (uri : str -> bool) : list str -> list place -> list problem -> Prop :=
| no_notes taken : notes_problems uri taken [] []
| a_note taken p ps l l' : such (note_cases uri taken p) l ->
    notes_problems uri (ids_of [p_xml p] ++ taken) ps l' -> notes_problems uri taken (p :: ps) (l ++ l').

(** What can be wrong with a relationship, given the ids of footnotes and facts *)
Definition is_missing (o : option str) : Prop := o = None \/ o = Some [].
Definition wrong_uri (uri : str -> bool) (o : option str) : Prop := exists s, o = Some s /\ s <> [] /\ uri s = false.
Definition relationship_cases (uri : str -> bool) (ns fs : list str) (x : xml) : list (Prop * problem) :=
  let from := FootSpec.refers (attr x (u "fromRefs")) in
  let to := FootSpec.refers (attr x (u "toRefs")) in
  [ (is_missing (attr x (u "fromRefs")), ("IXBRL_RELATIONSHIP_WITHOUT_FROMREFS"%string, Some x));
    (is_missing (attr x (u "toRefs")), ("IXBRL_RELATIONSHIP_WITHOUT_TOREFS"%string, Some x));
    ((exists i, from i /\ to i), ("IXBRL_RELATIONSHIP_REPEATED_ID"%string, Some x));
    ((exists i, from i /\ ~ In i fs), ("IXBRL_RELATIONSHIP_INVALID_FACT_ID_IN_FROMREFS"%string, Some x));
    ((exists i, to i /\ ~ In i fs /\ ~ In i ns), ("IXBRL_RELATIONSHIP_INVALID_FACT_OR_FOOTNOTE_ID_IN_TOREFS"%string, Some x));
    ((exists i j, to i /\ In i ns /\ to j /\ ~ In j ns), ("IXBRL_RELATIONSHIP_MIXED_FACT_AND_FOOTNOTES_IN_TOREFS"%string, Some x));
    (wrong_uri uri (attr x (u "arcrole")), ("IXBRL_RELATIONSHIP_INVALID_ARCROLE"%string, Some x));
    (wrong_uri uri (attr x (u "linkRole")), ("IXBRL_RELATIONSHIP_INVALID_LINKROLE"%string, Some x)) ].
(** The identifiers that are taken before the footnotes: those of references, contexts, units and
    continuations, and those of the facts *)
Definition taken_before (roots : list tree) (fs : ifacts) (i : str) : Prop :=
  In i (ids_of (header_parts "ix:references" roots ++ resource_parts "xbrli:context" roots ++ resource_parts "xbrli:unit" roots ++
                map p_xml (cont_places roots))) \/
  exists x, dict_get str_eqb (by_id fs) i = Some x.
(** The order is there and is a number. *)
Definition has_order (float : str -> option Q) (x : xml) : Prop :=
  exists s q, attr x (u "order") = Some s /\ s <> [] /\ float s = Some q.

(** The facts by id, with their values *)
Definition fact_values (f : FilingModel.filing) : list (str * str) :=
  flat_map (fun x => match f_id x with Some i => [(i, f_value x)] | None => [] end) (FilingModel.get_all_facts f).

(** ** C103: two readings *)

(** Two reports of the same kind; unless they are about unused continuations, about the same element. *)
Definition alike (a b : error xml) : Prop :=
  a = b \/ exists code x y kw kw', create code x kw = Ok a /\ create code y kw' = Ok b /\
    (x = y \/ code = "IXBRL_UNUSED_CONTINUATION_ELEMENTS"%string).
(** Networks of footnotes with the same role and the same roots *)
Definition networks_alike (a b : FootModel.network) : Prop :=
  FootModel.nw_linkrole a = FootModel.nw_linkrole b /\ Permutation (FootModel.nw_roots a) (FootModel.nw_roots b).
