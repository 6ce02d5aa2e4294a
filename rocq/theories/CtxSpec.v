(** What contexts, characteristics and facts should be (C25-C27, C38-C41, C48). *)
From Verif Require Import Base QNameModel ErrModel CtxModel.

(** ** Order of names *)

Inductive lex_lt : str -> str -> Prop :=
| lex_nil y b : lex_lt [] (y :: b)
| lex_head x y a b : (x < y)%N -> lex_lt (x :: a) (y :: b)
| lex_tail x a b : lex_lt a b -> lex_lt (x :: a) (x :: b).

(** [x] is the first of [xs] with property [P]. *)
Definition first_with {A} (P : A -> Prop) (xs : list A) (x : A) : Prop :=
  exists pre post, xs = pre ++ x :: post /\ P x /\ forall y, In y pre -> ~ P y.

(** [x] is the last of [xs] with property [P]. *)
Definition last_with {A} (P : A -> Prop) (xs : list A) (x : A) : Prop :=
  exists pre post, xs = pre ++ x :: post /\ P x /\ forall y, In y post -> ~ P y.

(** ** Documents *)

(** [x] is an element below the root of one of the documents. *)
Definition occurs (docs : list xml) (x : xml) : Prop :=
  exists i, In i docs /\ In x (descendants i).

Definition no_space (s : str) : Prop := ~ In (ch " ") s.

(** ** What is written in elements *)

(** [x] is an entity element with the given identifier and scheme. *)
Definition writes_entity (x : xml) (id scheme : str) : Prop :=
  exists i, find_kid (u "identifier") x = Some i /\
            x_text i = Some id /\ attr i (u "scheme") = Some scheme.

(** [x] is an explicit member element naming dimension [d] and member [m]. *)
Definition writes_explicit (rep : repository) (x : xml) (dt mt : str) (d m : element) : Prop :=
  attr x (u "dimension") = Some dt /\ x_text x = Some mt /\ mt <> [] /\
  (exists q, qname_from_str dt (x_scope x) = Ok q /\ get_typed_by_qname is_dimension rep q = Ok d) /\
  (exists q, qname_from_str mt (x_scope x) = Ok q /\ get_typed_by_qname is_member rep q = Ok m).

(** [x] is a typed member element naming dimension [d] with value [v]. *)
Definition writes_typed (rep : repository) (x : xml) (dt v : str) (d : element) : Prop :=
  attr x (u "dimension") = Some dt /\
  (exists k r, x_kids x = k :: r /\ x_text k = Some v) /\
  (exists q, qname_from_str dt (x_scope x) = Ok q /\ get_typed_by_qname is_dimension rep q = Ok d).

(** [x] is a period element: an instant, or a start and an end. *)
Inductive writes_period (parse_date : str -> res date) (x : xml) : period -> Prop :=
| writes_instant i t d :
    find_kid (u "instant") x = Some i -> x_text i = Some t -> t <> [] -> parse_date t = Ok d ->
    writes_period parse_date x (Instant d)
| writes_duration i j s e ds de :
    find_kid (u "instant") x = None ->
    find_kid (u "startDate") x = Some i -> x_text i = Some s -> s <> [] -> parse_date s = Ok ds ->
    find_kid (u "endDate") x = Some j -> x_text j = Some e -> e <> [] -> parse_date e = Ok de ->
    date_ltb de ds = false ->
    writes_period parse_date x (Duration ds de).

(** The dates of a period element are free of spaces. *)
Definition plain_period (x : xml) : Prop :=
  forall n i t, In n [u "instant"; u "startDate"; u "endDate"] ->
    find_kid n x = Some i -> x_text i = Some t -> no_space t.

(** The measure of a numerator, denominator or unit element. *)
Definition reads_measure (m : xml) (q : qname) : Prop :=
  exists t, x_text m = Some t /\ qname_from_str t (x_scope m) = Ok q.

Definition tag_has (text : str) (x : xml) : Prop :=
  exists t, x_tag x = Some t /\ contains text t = true.

Inductive reads_divide : list xml -> list qname -> list qname -> Prop :=
| rd_nil : reads_divide [] [] []
| rd_num nd m r l q ns ds :
    tag_has (u "unitNumerator") nd -> x_kids nd = m :: r -> reads_measure m q ->
    reads_divide l ns ds -> reads_divide (nd :: l) (q :: ns) ds
| rd_den nd m r l q ns ds :
    ~ tag_has (u "unitNumerator") nd -> tag_has (u "unitDenominator") nd ->
    x_kids nd = m :: r -> reads_measure m q ->
    reads_divide l ns ds -> reads_divide (nd :: l) ns (q :: ds)
| rd_other nd l ns ds :
    ~ tag_has (u "unitNumerator") nd -> ~ tag_has (u "unitDenominator") nd ->
    reads_divide l ns ds -> reads_divide (nd :: l) ns ds.

(** What is read from a unit element. *)
Inductive reads_unit (x : xml) : list qname -> list qname -> Prop :=
| ru_measure m q :
    x_kids x = [m] -> tag_has (u "measure") m -> reads_measure m q -> reads_unit x [q] []
| ru_divide dv ns ds :
    x_kids x = [dv] -> ~ tag_has (u "measure") dv -> tag_has (u "divide") dv ->
    reads_divide (x_kids dv) ns ds -> reads_unit x ns ds
| ru_unknown m :
    x_kids x = [m] -> ~ tag_has (u "measure") m -> ~ tag_has (u "divide") m -> reads_unit x [] []
| ru_count : length (x_kids x) <> 1 -> reads_unit x [] [].

Definition xbrli (local : string) : str := u "{http://www.xbrl.org/2003/instance}" ++ u local.

(** A well-formed unit with one measure, or one measure over another. *)
Definition measure_is (m : xml) (q : qname) : Prop :=
  x_tag m = Some (xbrli "measure") /\ reads_measure m q.
Definition part_is (name : string) (nd : xml) (q : qname) : Prop :=
  x_tag nd = Some (xbrli name) /\ exists m, x_kids nd = [m] /\ measure_is m q.

(** ** What is parsed *)

Section Parsed.
Variable parse_date : str -> res date.
Variable rep : repository.

(** The concept of a fact element. *)
Definition names_concept (x : xml) (tag : str) (e : element) : Prop :=
  str_opt (x_tag x) = tag /\
  exists q, qname_from_str tag (x_scope x) = Ok q /\ get_typed_by_qname is_concept rep q = Ok e.

(** Exactly what is written in the element at hand. *)
Definition concept_exact (x : xml) (e : element) : Prop := names_concept x (str_opt (x_tag x)) e.
Definition unit_exact (i : xml) (id : str) (c : characteristic) : Prop :=
  exists xu ns ds, find_by_id (u "unit") id i = Some xu /\ reads_unit xu ns ds /\ c = ChUnit id ns ds.
Definition entity_exact (x : xml) (r : option characteristic) : Prop :=
  match r with
  | Some c => exists id scheme, writes_entity x id scheme /\ c = ChEntity id scheme
  | None => forall id scheme, ~ writes_entity x id scheme
  end.
Definition period_exact (x : xml) (r : option characteristic) : Prop :=
  match r with
  | Some c => exists p, writes_period parse_date x p /\ c = ChPeriod p
  | None => forall p, ~ writes_period parse_date x p
  end.
Definition explicit_exact (x : xml) (r : option characteristic) : Prop :=
  match r with
  | Some c => exists dt mt d m, writes_explicit rep x dt mt d m /\ c = ChExplicit d m dt
  | None => forall dt mt d m, ~ writes_explicit rep x dt mt d m
  end.
Definition typed_exact (x : xml) (r : option characteristic) : Prop :=
  match r with
  | Some c => exists dt v d, writes_typed rep x dt v d /\ c = ChTyped d v dt
  | None => forall dt v d, ~ writes_typed rep x dt v d
  end.

(** What is written in some element of the documents with the same key. *)
Variable docs : list xml.
Definition concept_shared (x : xml) (e : element) : Prop :=
  (exists e', concept_exact x e') /\
  exists y, occurs docs y /\ names_concept y (str_opt (x_tag x)) e.
Definition unit_shared (i : xml) (id : str) (c : characteristic) : Prop :=
  find_by_id (u "unit") id i <> None /\ exists j, In j docs /\ unit_exact j id c.
Definition entity_shared (x : xml) (r : option characteristic) : Prop :=
  match r with
  | Some c => exists id scheme scheme' y, writes_entity x id scheme /\
                occurs docs y /\ writes_entity y id scheme' /\ c = ChEntity id scheme'
  | None => forall id scheme, ~ writes_entity x id scheme
  end.
Definition explicit_shared (x : xml) (r : option characteristic) : Prop :=
  match r with
  | Some c => exists dt mt d m dt' mt' d' m' y, writes_explicit rep x dt mt d m /\
                occurs docs y /\ writes_explicit rep y dt' mt' d' m' /\
                dt ++ u " " ++ mt = dt' ++ u " " ++ mt' /\ c = ChExplicit d' m' dt'
  | None => forall dt mt d m, ~ writes_explicit rep x dt mt d m
  end.
Definition typed_shared (x : xml) (r : option characteristic) : Prop :=
  match r with
  | Some c => exists dt v d dt' v' d' y, writes_typed rep x dt v d /\
                occurs docs y /\ writes_typed rep y dt' v' d' /\
                dt ++ u " " ++ v = dt' ++ u " " ++ v' /\ c = ChTyped d' v' dt'
  | None => forall dt v d, ~ writes_typed rep x dt v d
  end.
(** The period that a text used as key stands for. *)
Inductive period_key (k : str) : period -> Prop :=
| pk_instant d : k <> [] -> parse_date k = Ok d -> period_key k (Instant d)
| pk_duration s e ds de :
    k = u "period " ++ s ++ u " " ++ e -> s <> [] -> e <> [] ->
    parse_date s = Ok ds -> parse_date e = Ok de -> date_ltb de ds = false ->
    period_key k (Duration ds de).
(** The key of a period element. *)
Inductive keys_period (x : xml) : str -> Prop :=
| kp_instant i t d :
    find_kid (u "instant") x = Some i -> x_text i = Some t -> t <> [] -> parse_date t = Ok d ->
    keys_period x t
| kp_duration i j s e ds de :
    find_kid (u "instant") x = None ->
    find_kid (u "startDate") x = Some i -> x_text i = Some s -> s <> [] -> parse_date s = Ok ds ->
    find_kid (u "endDate") x = Some j -> x_text j = Some e -> e <> [] -> parse_date e = Ok de ->
    keys_period x (u "period " ++ s ++ u " " ++ e).
Definition period_shared (x : xml) (r : option characteristic) : Prop :=
  match r with
  | Some c => exists k p, keys_period x k /\ period_key k p /\ c = ChPeriod p
  | None => forall p, ~ writes_period parse_date x p
  end.
End Parsed.

(** ** Facts *)

Definition somes {A} (l : list (option A)) : list A :=
  flat_map (fun o => match o with Some a => [a] | None => [] end) l.
Definition opt_list {A} (o : option A) : list A := match o with Some a => [a] | None => [] end.

Section FactAs.
Variable concept_is : xml -> element -> Prop.
Variable unit_is : xml -> str -> characteristic -> Prop.
Variables entity_is period_is explicit_is typed_is : xml -> option characteristic -> Prop.

(** A dimension element of a segment. *)
Definition dimension_is (x : xml) (r : option characteristic) : Prop :=
  tag_has (u "explicitMember") x /\ explicit_is x r \/
  ~ tag_has (u "explicitMember") x /\ tag_has (u "typedMember") x /\ typed_is x r.

Definition units_are (i x : xml) (us : list characteristic) : Prop :=
  match attr x (u "unitRef") with
  | None | Some [] => us = []
  | Some id => exists c, us = [c] /\ unit_is i id c
  end.

Definition dimensions_are (xe : xml) (ds : list characteristic) : Prop :=
  match find_kid (u "segment") xe with
  | None => ds = []
  | Some seg => exists rs, Forall2 dimension_is (x_kids seg) rs /\ ds = somes rs
  end.

(** The context [c] is built from the concept [e] and units [us], and from what is written in the
    context element [xc]. *)
Definition context_as (xc : xml) (chars : list characteristic) (c : context) : Prop :=
  exists id xp xe p en ds,
    attr xc (u "id") = Some id /\
    find_kid (u "period") xc = Some xp /\ find_kid (u "entity") xc = Some xe /\
    period_is xp p /\ entity_is xe en /\ dimensions_are xe ds /\
    c = fold_left add_characteristic (chars ++ opt_list p ++ opt_list en ++ ds) (new_context id).

(** [f] is the fact of element [x] of instance [i]. *)
Definition fact_as (i x : xml) (f : fact) : Prop :=
  exists cid xc e us,
    attr x (u "contextRef") = Some cid /\ find_by_id (u "context") cid i = Some xc /\
    concept_is x e /\ units_are i x us /\
    context_as xc (ChConcept e :: us) (f_context f) /\
    c_id (f_context f) = cid /\
    f_id f = attr x (u "id") /\
    f_value f = match x_text x with Some v => v | None => [] end.

(** What an element of an instance may lead to: a fact, or no fact and some errors. *)
Definition outcome := (option fact * list (error xml))%type.
Definition outcome_of (ix : xml * xml) (o : outcome) : Prop :=
  match fst o with
  | Some f => fact_as (fst ix) (snd ix) f
  | None => snd o <> []
  end.
End FactAs.

(** The fact elements of the instances, in order. *)
Definition all_fact_elements (docs : list xml) : list (xml * xml) :=
  flat_map (fun i => map (pair i) (fact_elements i)) docs.

(** ** When elements with the same key say the same *)

Definition one_scheme (docs : list xml) : Prop :=
  forall x y id s s', occurs docs x -> occurs docs y ->
    writes_entity x id s -> writes_entity y id s' -> s = s'.
Definition one_explicit (rep : repository) (docs : list xml) : Prop :=
  forall x y dt mt d m d' m', occurs docs x -> occurs docs y ->
    writes_explicit rep x dt mt d m -> writes_explicit rep y dt mt d' m' -> d = d' /\ m = m'.
Definition one_typed (rep : repository) (docs : list xml) : Prop :=
  forall x y dt v d d', occurs docs x -> occurs docs y ->
    writes_typed rep x dt v d -> writes_typed rep y dt v d' -> d = d'.
Definition plain_dimensions (docs : list xml) : Prop :=
  forall x t, occurs docs x -> attr x (u "dimension") = Some t -> no_space t.
Definition one_concept (rep : repository) (docs : list xml) : Prop :=
  forall x y tag e e', occurs docs x -> occurs docs y ->
    names_concept rep x tag e -> names_concept rep y tag e' -> e = e'.
Definition one_unit (docs : list xml) : Prop :=
  forall i j id x y, In i docs -> In j docs ->
    find_by_id (u "unit") id i = Some x -> find_by_id (u "unit") id j = Some y -> x = y.
Definition plain_periods (docs : list xml) : Prop := forall x, occurs docs x -> plain_period x.
(** No text of the form "period a b" is a date. *)
Definition no_period_word (parse_date : str -> res date) : Prop :=
  forall t d, parse_date (u "period " ++ t) <> Ok d.

(** The ids of facts in the order of their first use. *)
Definition first_uses (ids : list str) : list str :=
  fold_left (fun acc i => if existsb (str_eqb i) acc then acc else acc ++ [i]) ids [].

(** The form of units that the parser does not complain about. *)
Definition unit_form (x : xml) : Prop :=
  (exists m, x_kids x = [m] /\ tag_has (u "measure") m) \/
  (exists dv a b, x_kids x = [dv] /\ tag_has (u "divide") dv /\ x_kids dv = [a; b] /\
     x_tag a <> x_tag b /\
     forall c, In c [a; b] -> tag_has (u "unitNumerator") c \/ tag_has (u "unitDenominator") c).

(** Dates of the calendar that Python knows. *)
Definition python_date (d : date) : Prop :=
  (1 <= d_year d <= 9999 /\ 1 <= d_month d <= 12 /\ 1 <= d_day d <= 31)%Z.
Definition python_period (p : period) : Prop :=
  match p with Instant d => python_date d | Duration s e => python_date s /\ python_date e end.

(** A fact element that nothing is wrong with, in a context without segment and without a unit. *)
Definition good_fact (parse_date : str -> res date) (rep : repository) (i x : xml) : Prop :=
  exists cid xc xp xe e id scheme p v,
    attr x (u "contextRef") = Some cid /\ find_by_id (u "context") cid i = Some xc /\
    find_kid (u "period") xc = Some xp /\ find_kid (u "entity") xc = Some xe /\
    find_kid (u "segment") xe = None /\
    writes_period parse_date xp p /\ writes_entity xe id scheme /\
    concept_exact rep x e /\ attr x (u "unitRef") = None /\ x_text x = Some v.
