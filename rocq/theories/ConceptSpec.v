(** What the theorems about declared report elements (C46, C47, C56-C58) mean. *)
From Verif Require Import Base ErrBase ErrModel QNameModel CtxModel ConceptModel.

(** ** C46: data types *)

(** [l] is the part of the data type [s] after its last colon. *)
Definition local_part (s l : str) : Prop :=
  ~ In (ch ":") l /\ (s = l \/ exists p, s = p ++ ch ":" :: l).

(** How XBRL 2.1 (5.1.1.3) defines its item types. *)
Inductive sort := SInteger | SDecimal | SFraction | SBoolean | SOther.

Definition standard_types : list (string * sort) := [
  ("decimalItemType", SDecimal); ("floatItemType", SDecimal); ("doubleItemType", SDecimal);
  ("integerItemType", SInteger); ("nonPositiveIntegerItemType", SInteger);
  ("negativeIntegerItemType", SInteger); ("longItemType", SInteger); ("intItemType", SInteger);
  ("shortItemType", SInteger); ("byteItemType", SInteger); ("nonNegativeIntegerItemType", SInteger);
  ("unsignedLongItemType", SInteger); ("unsignedIntItemType", SInteger);
  ("unsignedShortItemType", SInteger); ("unsignedByteItemType", SInteger);
  ("positiveIntegerItemType", SInteger); ("monetaryItemType", SDecimal);
  ("sharesItemType", SDecimal); ("pureItemType", SDecimal); ("fractionItemType", SFraction);
  ("stringItemType", SOther); ("booleanItemType", SBoolean); ("hexBinaryItemType", SOther);
  ("base64BinaryItemType", SOther); ("anyURIItemType", SOther); ("QNameItemType", SOther);
  ("durationItemType", SOther); ("dateTimeItemType", SOther); ("timeItemType", SOther);
  ("dateItemType", SOther); ("gYearMonthItemType", SOther); ("gYearItemType", SOther);
  ("gMonthDayItemType", SOther); ("gDayItemType", SOther); ("gMonthItemType", SOther);
  ("normalizedStringItemType", SOther); ("tokenItemType", SOther); ("languageItemType", SOther);
  ("NameItemType", SOther); ("NCNameItemType", SOther) ]%string.

(** ** C47: the attributes of a concept *)

Definition instance_attr (x : xml) (name : string) : option str :=
  attr x (u "{http://www.xbrl.org/2003/instance}" ++ u name).

(** The declaration [x] is that of a concept with the attributes [c]. *)
Definition valid_concept (x : xml) (c : concept) : Prop :=
  instance_attr x "periodType" = Some (c_period c) /\
  (c_period c = u "instant" \/ c_period c = u "duration") /\
  instance_attr x "balance" = c_balance c /\
  (c_balance c = None \/ c_balance c = Some (u "credit") \/ c_balance c = Some (u "debit")) /\
  (if c_nillable c then attr x (u "nillable") = Some (u "true")
   else attr x (u "nillable") = None \/ attr x (u "nillable") = Some (u "false")) /\
  attr x (u "type") = Some (c_type c).

(** What is wrong with the declaration of a concept; with several faults, the first is reported. *)
Definition bad_period (x : xml) : Prop :=
  instance_attr x "periodType" <> Some (u "instant") /\
  instance_attr x "periodType" <> Some (u "duration").
Definition bad_balance (x : xml) : Prop :=
  exists b, instance_attr x "balance" = Some b /\ b <> u "credit" /\ b <> u "debit".
Definition bad_nillable (x : xml) : Prop :=
  exists b, attr x (u "nillable") = Some b /\ b <> u "true" /\ b <> u "false".
Definition no_type (x : xml) : Prop := attr x (u "type") = None.

(** ** C56: kinds of report elements *)

Definition mentions_text (o : option str) (text : str) : Prop :=
  exists v a b, o = Some v /\ v = a ++ text ++ b.

Definition group_mentions (x : xml) (text : string) : Prop :=
  mentions_text (attr x (u "substitutionGroup")) (u text).
Definition is_abstract_decl (x : xml) : Prop := attr x (u "abstract") = Some (u "true").
Definition is_domain (x : xml) : Prop := mentions_text (attr x (u "type")) (u "domainItemType").
Definition is_line_items_name (x : xml) : Prop := mentions_text (attr x (u "name")) (u "LineItems").

(** The kind of report element that a declaration stands for, as brel reads it. *)
Inductive declares (x : xml) : ekind -> Prop :=
| D_member : is_domain x -> declares x KMember
| D_concept : ~ is_domain x -> ~ is_abstract_decl x -> group_mentions x "item" -> declares x KConcept
| D_hypercube : ~ is_domain x -> is_abstract_decl x -> group_mentions x "hypercubeItem" ->
    declares x KHypercube
| D_dimension : ~ is_domain x -> is_abstract_decl x -> ~ group_mentions x "hypercubeItem" ->
    group_mentions x "dimensionItem" -> declares x KDimension
| D_line_items : ~ is_domain x -> is_abstract_decl x -> ~ group_mentions x "hypercubeItem" ->
    ~ group_mentions x "dimensionItem" -> is_line_items_name x -> declares x KLineItems
| D_abstract : ~ is_domain x -> is_abstract_decl x -> ~ group_mentions x "hypercubeItem" ->
    ~ group_mentions x "dimensionItem" -> ~ is_line_items_name x -> declares x KAbstract.

(** The kind according to XBRL: by the element named in [substitutionGroup]. *)
Definition in_group (x : xml) (local : string) : Prop :=
  exists p, attr x (u "substitutionGroup") = Some (p ++ u ":" ++ u local) /\ ~ In (ch ":") p.

(** The declarations of all schemas: (root, target namespace, element), in document order. *)
Definition decl := (xml * str * xml)%type.
Definition decls_of (root : xml) : list decl :=
  match attr root (u "targetNamespace") with
  | None => []
  | Some tns =>
      map (fun x => (root, tns, x))
          (filter (fun k => match x_tag k, attr k (u "name") with
                            | Some t, Some _ => str_eqb t (u "{http://www.w3.org/2001/XMLSchema}element")
                            | _, _ => false
                            end) (descendants root))
  end.
Definition all_decls (trees : list (str * xml)) : list decl := flat_map (fun t => decls_of (snd t)) trees.

(** The name of a declared element. *)
Definition named (d : decl) (q : qname) : Prop :=
  let '(_, tns, x) := d in
  exists name, attr x (u "name") = Some name /\ qname_from_str (to_clark tns name) (x_scope x) = Ok q.

(** ** C57: the domain of a dimension *)

Definition typed_domain_ref (x : xml) : option str :=
  attr x (u "{http://xbrl.org/2005/xbrldt}typedDomainRef").

(** [y] is the first element of the document with the id. *)
Definition first_with_id (root : xml) (id : str) (y : xml) : Prop :=
  exists before after, descendants root = before ++ y :: after /\
    attr y (u "id") = Some id /\ forall z, In z before -> attr z (u "id") <> Some id.

(** The document named in a reference; an empty name or "." is the document itself. *)
Definition document_named (trees : list (str * xml)) (root : xml) (name : str) (t : xml) : Prop :=
  ((name = [] \/ name = u ".") /\ t = root) \/
  (name <> [] /\ name <> u "." /\ In (DtsModel.normalize_uri name, t) trees).

(** [ref_to trees root x y]: the typed domain of [x], declared in [root], is [y]. *)
Definition ref_to (trees : list (str * xml)) (root x : xml) (y : xml) : Prop :=
  exists name id t, typed_domain_ref x = Some (name ++ ch "#" :: id) /\
    ~ In (ch "#") name /\ ~ In (ch "#") id /\
    document_named trees root name t /\ first_with_id t id y.

Definition dangling (trees : list (str * xml)) (root x : xml) : Prop :=
  exists name id t, typed_domain_ref x = Some (name ++ ch "#" :: id) /\
    ~ In (ch "#") name /\ ~ In (ch "#") id /\
    document_named trees root name t /\ forall y, ~ first_with_id t id y.

(** The declaration binds the prefix [xbrldt] as usual. *)
Definition usual_prefix (x : xml) : Prop :=
  NoDup (map fst (x_scope x)) /\ In (Some (u "xbrldt"), u "http://xbrl.org/2005/xbrldt") (x_scope x).

(** The type of the dimension declared by [x]. *)
Definition domain_type (trees : list (str * xml)) (root x : xml) (ty : option qname) : Prop :=
  (typed_domain_ref x = None /\ ty = None) \/
  (dangling trees root x /\ ty = None) \/
  (exists y t q, ref_to trees root x y /\ attr y (u "type") = Some t /\
     qname_from_str t (x_scope y) = Ok q /\ ty = Some q).

(** The report element made from a declaration. *)
Definition makes (trees : list (str * xml)) (d : decl) (e : relement) : Prop :=
  let '(root, _, x) := d in
  named d (r_name e) /\ r_id e = attr x (u "id") /\
  match r_body e with
  | BConcept c => declares x KConcept /\ valid_concept x c
  | BAbstract => declares x KAbstract
  | BLineItems => declares x KLineItems
  | BHypercube => declares x KHypercube
  | BDimension ty => declares x KDimension /\ domain_type trees root x ty
  | BMember => declares x KMember
  end.

(** The declaration makes no element: nothing brel knows, or a concept with bad attributes. *)
Definition makes_nothing (d : decl) : Prop :=
  let '(_, _, x) := d in
  (forall k, ~ declares x k) \/ (declares x KConcept /\ forall c, ~ valid_concept x c).

(** [e] is made from the first declaration of its name that makes anything. *)
Definition first_made (trees : list (str * xml)) (e : relement) : Prop :=
  exists before d after, all_decls trees = before ++ d :: after /\ makes trees d e /\
    forall d', In d' before -> named d' (r_name e) -> makes_nothing d'.

(** ** C58: locators *)

(** The last registered element of a list with the id. *)
Definition last_with_id (l : list relement) (i : str) (e : relement) : Prop :=
  exists before after, l = before ++ e :: after /\ r_id e = Some i /\
    forall z, In z after -> r_id z <> Some i.

(** The locator's [href] names a document and an id; [e] is what is declared there. *)
Definition refers_to (trees : list (str * xml)) (href : str) (e : relement) : Prop :=
  exists doc i root tns x, href = doc ++ ch "#" :: i /\ ~ In (ch "#") i /\
    In (doc, root) trees /\ In (root, tns, x) (decls_of root) /\
    attr x (u "id") = Some i /\ makes trees (root, tns, x) e.

(** No two declarations of the taxonomy have the same id. *)
Definition ids_distinct (trees : list (str * xml)) : Prop :=
  forall a d b d' c i, all_decls trees = a ++ d :: b ++ d' :: c ->
    attr (snd d) (u "id") = Some i -> attr (snd d') (u "id") <> Some i.

(** ** Errors of the declarations *)

(** An error about element [x] with the given number. *)
Definition about (x : xml) (number : string) (er : error xml) : Prop :=
  er_context er = Some x /\ er_severity er = ERROR /\ er_area er = SCHEMA_DEFINITION /\
  er_code er = u number.

Definition bad_concept (d : decl) : Prop :=
  declares (snd d) KConcept /\ forall c, ~ valid_concept (snd d) c.

(** A dimension with a dangling reference, the first with its name to make an element. *)
Definition bad_dimension (trees : list (str * xml)) (before : list decl) (d : decl) : Prop :=
  let '(root, _, x) := d in
  declares x KDimension /\ dangling trees root x /\
  forall d' q, In d' before -> named d q -> named d' q -> makes_nothing d'.

(** The errors recorded for declaration [d], coming after the declarations [before]. *)
Definition errors_at (trees : list (str * xml)) (before : list decl) (d : decl) (l : list (error xml)) : Prop :=
  (bad_concept d /\ exists er number, l = [er] /\ about (snd d) number er /\
     In number ["200"; "201"; "202"; "203"]%string) \/
  (bad_dimension trees before d /\ exists er, l = [er] /\ about (snd d) "100" er) \/
  (~ bad_concept d /\ ~ bad_dimension trees before d /\ l = []).

Inductive error_list (trees : list (str * xml)) : list decl -> list decl -> list (error xml) -> Prop :=
| EL_nil before : error_list trees before [] []
| EL_cons before d l es es' : errors_at trees before d es -> error_list trees (before ++ [d]) l es' ->
    error_list trees before (d :: l) (es ++ es').
