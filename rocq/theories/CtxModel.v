(** Model of contexts, characteristics and facts of XML instances:
    brel/brel_context.py, brel/brel_fact.py, brel/characteristics, brel/data/{characteristic,aspect,
    fact}, brel/parsers/XML/{xml_context_parser,xml_facts_parser}.py and
    brel/parsers/XML/characteristics.

    Simplifications:
    - aspects are identified with their names (as their [__eq__] and [__hash__] do); labels of
      aspects appear only in [convert_to_df_row_translated];
    - objects are values: identity of characteristics, contexts and facts is not modelled;
    - [dateutil.parser.parse] is the parameter [parse_date];
    - ids in [find("{*}unit[@id='...']")] are assumed not to contain an apostrophe. *)
From Verif Require Import Base Regex PyNum QNameModel ErrBase ErrTable ErrModel.

(** ** XML elements (lxml) *)

(** [x_tag] is [None] for comments and processing instructions (their [tag] is a function). *)
Inductive xml := Xml {
  x_tag : option str;
  x_attrs : list (str * str);
  x_scope : scope;
  x_text : option str;
  x_kids : list xml }.

(** [element.get(name)] *)
Definition attr (x : xml) (name : str) : option str := dict_get str_eqb (x_attrs x) name.

(** brel/parsers/utils/lxml_utils.py:39-62 for a name without a colon and no default *)
Definition get_str_attribute (x : xml) (name : str) : res str :=
  match attr x name with Some v => Ok v | None => Raise ValueError end.

(** The part of a tag after the namespace. *)
Definition local_of (tag : str) : str := last (split_char (ch "}") tag) [].

Definition has_local (name : str) (x : xml) : bool :=
  match x_tag x with Some t => str_eqb (local_of t) name | None => false end.

(** [element.find("{*}name")] *)
Definition find_kid (name : str) (x : xml) : option xml := find (has_local name) (x_kids x).

(** [tree.find(f"{{*}}name[@id='{id}']")] *)
Definition find_by_id (name id : str) (x : xml) : option xml :=
  find (fun k => has_local name k && opt_eqb str_eqb (attr k (u "id")) (Some id)) (x_kids x).

(** [text in element.tag]: the tag of a comment is not a string. *)
Definition tag_contains (text : str) (x : xml) : res bool :=
  match x_tag x with Some t => Ok (contains text t) | None => Raise TypeError end.

(** All elements below [x] in document order. *)
Fixpoint descendants (x : xml) : list xml :=
  (fix go (l : list xml) : list xml :=
     match l with [] => [] | k :: r => k :: descendants k ++ go r end) (x_kids x).

(** [find_elements(tree, ".//*[@contextRef]")] *)
Definition fact_elements (root : xml) : list xml :=
  filter (fun k => match x_tag k, attr k (u "contextRef") with Some _, Some _ => true | _, _ => false end)
         (descendants root).

(** ** Characteristics *)

(** [datetime.date] *)
Record date := Date { d_year : Z; d_month : Z; d_day : Z }.

(** [a < b] on dates *)
Definition date_ltb (a b : date) : bool :=
  ((d_year a <? d_year b) ||
   (d_year a =? d_year b) && ((d_month a <? d_month b) ||
     (d_month a =? d_month b) && (d_day a <? d_day b)))%Z.


(** [str(date)]: %04d-%02d-%02d *)
Definition zero_pad (n : nat) (s : str) : str := repeat (ch "0") (n - length s) ++ s.
Definition date_str (d : date) : str :=
  zero_pad 4 (z_to_str (d_year d)) ++ u "-" ++ zero_pad 2 (z_to_str (d_month d)) ++ u "-" ++
  zero_pad 2 (z_to_str (d_day d)).

(** brel/characteristics/period_characteristic.py:43-47 *)
Inductive period := Instant (d : date) | Duration (s e : date).

(** period_characteristic.py:104-114 *)
Definition period_str (p : period) : str :=
  match p with
  | Instant d => date_str d
  | Duration s e => date_str s ++ u "/" ++ date_str e
  end.
Definition period_eqb (p q : period) : bool := str_eqb (period_str p) (period_str q).

(** The classes of brel/characteristics. *)
Inductive cls := ClsConcept | ClsEntity | ClsPeriod | ClsUnit | ClsExplicit | ClsTyped.
Inductive characteristic :=
| ChConcept (c : element)
| ChEntity (id scheme : str)
| ChPeriod (p : period)
| ChUnit (name : str) (nums dens : list qname)
| ChExplicit (dim mem : element) (aspect : str)
| ChTyped (dim : element) (value aspect : str).

Definition class_of (c : characteristic) : cls :=
  match c with
  | ChConcept _ => ClsConcept | ChEntity _ _ => ClsEntity | ChPeriod _ => ClsPeriod
  | ChUnit _ _ _ => ClsUnit | ChExplicit _ _ _ => ClsExplicit | ChTyped _ _ _ => ClsTyped
  end.
Definition cls_eqb (a b : cls) : bool :=
  match a, b with
  | ClsConcept, ClsConcept | ClsEntity, ClsEntity | ClsPeriod, ClsPeriod | ClsUnit, ClsUnit
  | ClsExplicit, ClsExplicit | ClsTyped, ClsTyped => true
  | _, _ => false
  end.

(** brel/characteristics/brel_aspect.py:170-178 *)
Definition a_concept : str := u "concept".
Definition a_period : str := u "period".
Definition a_entity : str := u "entity".
Definition a_unit : str := u "unit".

(** [get_aspect] of the classes; the name of the aspect *)
Definition aspect_of (c : characteristic) : str :=
  match c with
  | ChConcept _ => a_concept | ChEntity _ _ => a_entity | ChPeriod _ => a_period
  | ChUnit _ _ _ => a_unit | ChExplicit _ _ a => a | ChTyped _ _ a => a
  end.

(** [get_value().__str__()] of the classes: concept and member print their names
    (reportelements/concept.py:220-224, member.py), entities Clark style
    (entity_characteristic.py:45), units their name, typed dimensions their value. *)
Definition value_str (c : characteristic) : str :=
  match c with
  | ChConcept e => prefix_local_notation (e_name e)
  | ChEntity id scheme => u "{" ++ scheme ++ u "}" ++ id
  | ChPeriod p => period_str p
  | ChUnit n _ _ => n
  | ChExplicit _ m _ => prefix_local_notation (e_name m)
  | ChTyped _ v _ => v
  end.

(** ** Contexts *)

(** Python's order of strings *)
Fixpoint str_leb (a b : str) : bool :=
  match a, b with
  | [], _ => true
  | _ :: _, [] => false
  | x :: a', y :: b' => ((x <? y) || (x =? y) && str_leb a' b')%N
  end.

(** brel/brel_context.py:57-64 *)
Record context := Context {
  c_id : str;
  c_aspects : list str;
  c_chars : list (str * characteristic) }.
Definition new_context (id : str) : context := Context id [] [].

(** brel_context.py:74-80 *)
Definition get_characteristic (c : context) (aspect : str) : option characteristic :=
  option_map snd (find (fun kv => str_eqb (fst kv) aspect) (c_chars c)).
(** brel_context.py:83-89 *)
Definition has_characteristic (c : context) (aspect : str) : bool :=
  existsb (str_eqb aspect) (c_aspects c).
(** brel_context.py:105-111 *)
Definition get_characteristic_as_str (c : context) (aspect : str) : str :=
  match get_characteristic c aspect with Some ch => value_str ch | None => [] end.
(** brel_context.py:151-156; core aspects are the four above *)
Definition is_core_aspect (a : str) : bool :=
  existsb (str_eqb a) [a_concept; a_period; a_entity; a_unit].
(** brel_context.py:159-174 *)
Definition add_characteristic (c : context) (x : characteristic) : context :=
  let aspect := aspect_of x in
  if existsb (str_eqb aspect) (c_aspects c) then c
  else Context (c_id c) (stable_sort str_leb (c_aspects c ++ [aspect]))
         (dict_set str_eqb (c_chars c) aspect x).
(** brel_context.py:210-214 *)
Definition convert_to_df_row (c : context) : list (str * str) :=
  fold_left (fun d a => dict_set str_eqb d a (get_characteristic_as_str c a)) (c_aspects c) [].
(** brel_context.py:216-226: [key] and [value] are the translated name of an aspect and the
    translated text of its characteristic. *)
Definition convert_to_df_row_translated (key : str -> str) (value : str -> str) (c : context)
  : list (str * str) :=
  fold_left (fun d a => dict_set str_eqb d (key a) (value a)) (c_aspects c) [].

(** ** Facts *)

(** brel/brel_fact.py:44-56 (without decimals and precision, which XML facts do not have) *)
Record fact := Fact { f_context : context; f_value : str; f_id : option str }.

(** brel_fact.py:236-242 *)
Definition fact_to_dict (f : fact) : list (str * str) :=
  dict_set str_eqb
    (dict_set str_eqb (convert_to_df_row (f_context f)) (u "id")
       (match f_id f with Some i => i | None => [] end))
    (u "value") (f_value f).
(** brel_fact.py:243-256 *)
Definition fact_to_dict_translated (key value : str -> str) (id_lit value_lit none_lit : str) (f : fact)
  : list (str * str) :=
  dict_set str_eqb
    (dict_set str_eqb (convert_to_df_row_translated key value (f_context f)) id_lit
       (match f_id f with Some (c :: i) => c :: i | _ => none_lit end))
    value_lit (f_value f).
(** brel_fact.py:258-263 *)
Definition fact_is_core (f : fact) : bool :=
  forallb is_core_aspect (c_aspects (f_context f)).

(** brel/data/fact/in_memory_fact_repository.py:17-20 *)
Record fact_repo := FactRepo { fr_by_id : list (str * fact); fr_without_id : list fact }.
Definition empty_facts : fact_repo := FactRepo [] [].
(** in_memory_fact_repository.py:22-32 *)
Definition facts_get_by_id (r : fact_repo) (i : str) : res fact :=
  match dict_get str_eqb (fr_by_id r) i with Some f => Ok f | None => Raise KeyError end.
Definition facts_get_by_id_optional (r : fact_repo) (i : str) : option fact :=
  match facts_get_by_id r i with Ok f => Some f | Raise _ => None end.
Definition facts_has_id (r : fact_repo) (i : str) : bool := dict_mem str_eqb (fr_by_id r) i.
(** in_memory_fact_repository.py:34-35; brel_filing.py [get_all_facts] returns it *)
Definition facts_get_all (r : fact_repo) : list fact := dict_values (fr_by_id r).
(** in_memory_fact_repository.py:37-46 *)
Definition facts_upsert (r : fact_repo) (f : fact) : fact_repo :=
  match f_id f with
  | None => FactRepo (fr_by_id r) (fr_without_id r ++ [f])
  | Some i => FactRepo (dict_set str_eqb (fr_by_id r) i f) (fr_without_id r)
  end.

(** ** Parsing *)

Definition char_key := (str * cls)%type.
Definition char_key_eqb (a b : char_key) : bool :=
  str_eqb (fst a) (fst b) && cls_eqb (snd a) (snd b).

(** The repositories of the filing that parsing changes. *)
Record state := State {
  s_errors : repo xml;
  s_chars : list (char_key * characteristic);
  s_aspects : list (str * str);
  s_facts : fact_repo }.
Definition empty_state : state := State [] [] [] empty_facts.

(** A step of the parser: it may raise, in which case opening the filing fails. *)
Definition M (A : Type) := state -> res (A * state).
Definition ret {A} (a : A) : M A := fun s => Ok (a, s).
Definition fail {A} (e : exn) : M A := fun _ => Raise e.
Definition mbind {A B} (m : M A) (f : A -> M B) : M B :=
  fun s => match m s with Ok (a, s') => f a s' | Raise e => Raise e end.
Definition lift {A} (r : res A) : M A := fun s => match r with Ok a => Ok (a, s) | Raise e => Raise e end.
Notation "'let!' x ':=' m 'in' f" := (mbind m (fun x => f))
  (at level 200, x name, m at level 100, f at level 200).

(** [error_repository.insert(ErrorCode.code, x, **kw)] *)
Definition report (code : string) (x : xml) (kw : list (str * str)) : M unit :=
  fun s => match insert (s_errors s) code (Some x) kw with
           | Ok es => Ok (tt, State es (s_chars s) (s_aspects s) (s_facts s))
           | Raise e => Raise e
           end.

(** brel/data/characteristic/in_memory_characteristic_repository.py:23-36 *)
Definition char_has (i : str) (k : cls) : M bool :=
  fun s => Ok (dict_mem char_key_eqb (s_chars s) (i, k), s).
Definition char_get (i : str) (k : cls) : M characteristic :=
  fun s => match dict_get char_key_eqb (s_chars s) (i, k) with
           | Some c => if cls_eqb (class_of c) k then Ok (c, s) else Raise ValueError
           | None => Raise ValueError
           end.
Definition char_upsert (i : str) (c : characteristic) : M unit :=
  fun s => Ok (tt, State (s_errors s) (dict_set char_key_eqb (s_chars s) (i, class_of c) c)
                     (s_aspects s) (s_facts s)).

(** brel/data/aspect/in_memory_aspect_repository.py:16-26 *)
Definition aspect_has (n : str) : M bool := fun s => Ok (dict_mem str_eqb (s_aspects s) n, s).
Definition aspect_get (n : str) : M str :=
  fun s => match dict_get str_eqb (s_aspects s) n with Some a => Ok (a, s) | None => Raise KeyError end.
Definition aspect_upsert (n : str) : M unit :=
  fun s => Ok (tt, State (s_errors s) (s_chars s) (dict_set str_eqb (s_aspects s) n n) (s_facts s)).

Definition fact_upsert (f : fact) : M unit :=
  fun s => Ok (tt, State (s_errors s) (s_chars s) (s_aspects s) (facts_upsert (s_facts s) f)).

Section Parse.
(** [dateutil.parser.parse(text).date()] *)
Variable parse_date : str -> res date.
(** The report elements: parsed before the facts, unchanged by them. *)
Variable rep : repository.
Definition is_dimension (e : element) : bool := match e_kind e with KDimension => true | _ => false end.
Definition is_member (e : element) : bool := match e_kind e with KMember => true | _ => false end.
(** [Concept.is_nillable] *)
Variable nillable : element -> bool.

(** brel/parsers/XML/characteristics/xml_parse_entity.py:24-62 *)
Definition parse_entity (x : xml) : M (option characteristic) :=
  match find_kid (u "identifier") x with
  | None => let! _ := report "ENTITY_MISSING_IDENTIFIER_ELEMENT" x [] in ret None
  | Some i =>
      match attr i (u "scheme") with
      | None => let! _ := report "ENTITY_IDENTIFIER_MISSING_SCHEME" x [] in ret None
      | Some scheme =>
          match x_text i with
          | None => ret None
          | Some id =>
              let! known := char_has id ClsEntity in
              if known then let! c := char_get id ClsEntity in ret (Some c)
              else let! _ := char_upsert id (ChEntity id scheme) in
                   ret (Some (ChEntity id scheme))
          end
      end
  end.

(** brel/parsers/XML/characteristics/xml_parse_explicit_dimension.py:31-93 *)
Definition parse_explicit (x : xml) : M (option characteristic) :=
  let! aspect_id := lift (get_str_attribute x (u "dimension")) in
  let! known := char_has aspect_id ClsExplicit in
  let! _ := (if known then ret tt else aspect_upsert aspect_id) in
  let! aspect := aspect_get aspect_id in
  let! dq := lift (qname_from_str aspect_id (x_scope x)) in
  if negb (has_typed_qname is_dimension rep dq) then
    let! _ := report "INVALID_EXPLICIT_DIMENSION_VALUE" x [(u "dimension", q_local dq)] in ret None
  else
    let! dimension := lift (get_typed_by_qname is_dimension rep dq) in
    match x_text x with
    | None | Some [] =>
        let! _ := report "MISSING_EXPLICIT_DIMENSION_MEMBER" x [(u "dimension", q_local dq)] in ret None
    | Some member_id =>
        let! mq := lift (qname_from_str member_id (x_scope x)) in
        if negb (has_typed_qname is_member rep mq) then
          let! _ := report "INVALID_EXPLICIT_DIMENSION_MEMBER" x
                      [(u "member", member_id); (u "dimension", aspect_id)] in ret None
        else
          let! member := lift (get_typed_by_qname is_member rep mq) in
          let dimension_id := aspect_id ++ u " " ++ member_id in
          let! known := char_has dimension_id ClsExplicit in
          let! _ := (if known then ret tt
                     else char_upsert dimension_id (ChExplicit dimension member aspect)) in
          let! c := char_get dimension_id ClsExplicit in ret (Some c)
    end.

(** brel/parsers/XML/characteristics/xml_parse_typed_dimension.py:30-112 *)
Definition parse_typed (x : xml) : M (option characteristic) :=
  let! axis := lift (get_str_attribute x (u "dimension")) in
  let! known := aspect_has axis in
  let! _ := (if known then ret tt else aspect_upsert axis) in
  let! aspect := aspect_get axis in
  let! dq := lift (qname_from_str axis (x_scope x)) in
  let! _ := (if has_typed_qname is_dimension rep dq then ret tt
             else report "INVALID_TYPED_DIMENSION_VALUE" x [(u "dimension", axis)]) in
  let! dimension := lift (get_typed_by_qname is_dimension rep dq) in
  let! _ := (if Nat.ltb 1 (length (x_kids x))
             then report "MULTIPLE_TYPED_DIMENSION_ELEMENT_CHILDREN" x [(u "dimension", axis)]
             else ret tt) in
  match x_kids x with
  | [] => let! _ := report "NO_TYPED_DIMENSION_ELEMENT_CHILDREN" x [(u "dimension", axis)] in ret None
  | k :: _ =>
      match x_text k with
      | None => let! _ := report "MISSING_TYPED_DIMENSION_VALUE" x [(u "dimension", axis)] in ret None
      | Some value =>
          let dimension_id := axis ++ u " " ++ value in
          let! known := char_has dimension_id ClsTyped in
          let! _ := (if known then ret tt
                     else char_upsert dimension_id (ChTyped dimension value aspect)) in
          let! c := char_get dimension_id ClsTyped in ret (Some c)
      end
  end.

(** brel/characteristics/period_characteristic.py:117-131 *)
Definition is_date (t : option str) : res bool :=
  match t with
  | None | Some [] => Ok false
  | Some s => match parse_date s with
              | Ok _ => Ok true
              | Raise ValueError => Ok false
              | Raise e => Raise e
              end
  end.
(** period_characteristic.py:133-148 *)
Definition make_instant (s : str) : res period :=
  do! ok <- is_date (Some s);
  if ok then do! d <- parse_date s; Ok (Instant d) else Raise ValueError.
(** period_characteristic.py:150-176 *)
Definition make_duration (s e : str) : res period :=
  do! ok <- is_date (Some s);
  if negb ok then Raise ValueError else
  do! ok' <- is_date (Some e);
  if negb ok' then Raise ValueError else
  do! ds <- parse_date s;
  do! de <- parse_date e;
  if date_ltb de ds then Raise ValueError else Ok (Duration ds de).

(** brel/parsers/XML/characteristics/xml_parse_period.py:22-35 *)
Definition get_context_date (x : xml) : M (option str) :=
  let! ok := lift (is_date (x_text x)) in
  if ok then ret (x_text x)
  else let! _ := report "INVALID_CONTEXT_PERIOD_DATE" x [(u "date", str_opt (x_text x))] in ret None.

(** xml_parse_period.py:38-62 *)
Definition parse_instant_period (x : xml) : M (option characteristic) :=
  let! d := get_context_date x in
  match d with
  | None => ret None
  | Some t =>
      let! known := char_has t ClsPeriod in
      if known then let! c := char_get t ClsPeriod in ret (Some c)
      else let! p := lift (make_instant t) in
           let! _ := char_upsert t (ChPeriod p) in ret (Some (ChPeriod p))
  end.

(** xml_parse_period.py:65-101 *)
Definition parse_duration_period (xs xe : xml) : M (option characteristic) :=
  let! ds := get_context_date xs in
  let! de := get_context_date xe in
  match ds, de with
  | Some s, Some e =>
      let period_id := u "period " ++ s ++ u " " ++ e in
      let! known := char_has period_id ClsPeriod in
      if known then let! c := char_get period_id ClsPeriod in ret (Some c)
      else match make_duration s e with
           | Ok p => let! _ := char_upsert period_id (ChPeriod p) in ret (Some (ChPeriod p))
           | Raise ValueError =>
               let! _ := report "DURATION_PERIOD_START_AFTER_END" xs
                           [(u "start_date", s); (u "end_date", e)] in ret None
           | Raise ex => fail ex
           end
  | _, _ => ret None
  end.

(** xml_parse_period.py:104-140 *)
Definition parse_period (x : xml) : M (option characteristic) :=
  match find_kid (u "instant") x with
  | Some i => parse_instant_period i
  | None =>
      match find_kid (u "startDate") x with
      | None => let! _ := report "DURATION_PERIOD_MISSING_START_DATE" x [] in ret None
      | Some s =>
          match find_kid (u "endDate") x with
          | None => let! _ := report "DURATION_PERIOD_MISSING_END_DATE" x [] in ret None
          | Some e => parse_duration_period s e
          end
      end
  end.

(** brel/parsers/XML/characteristics/xml_parse_unit.py:27-38 *)
Definition parse_measure (x : xml) : M (option qname) :=
  match x_text x with
  | None => let! _ := report "XML_MISSING_UNIT_MEASURE" x [] in ret None
  | Some t => let! q := lift (qname_from_str t (x_scope x)) in ret (Some q)
  end.

(** xml_parse_unit.py:96-119: [None] means that the function returned early. *)
Fixpoint parse_divide (unit : xml) (unit_id : str) (l : list xml) (nums dens : list qname)
  : M (option (list qname * list qname)) :=
  match l with
  | [] => ret (Some (nums, dens))
  | nd :: rest =>
      let! is_num := lift (tag_contains (u "unitNumerator") nd) in
      let! is_den := lift (tag_contains (u "unitDenominator") nd) in
      let! _ := (if negb is_num && negb is_den
                 then report "XML_INVALID_DIVIDE_ELEMENT_CHILDREN" unit
                        [(u "id", unit_id); (u "child_tag", str_opt (x_tag nd))]
                 else ret tt) in
      match x_kids nd with
      | [] => fail IndexError
      | measure :: _ =>
          let! q := parse_measure measure in
          match q with
          | None => ret None
          | Some q =>
              if is_num then parse_divide unit unit_id rest (nums ++ [q]) dens
              else if is_den then parse_divide unit unit_id rest nums (dens ++ [q])
              else parse_divide unit unit_id rest nums dens
          end
      end
  end.

(** xml_parse_unit.py:47-138 *)
Definition parse_unit (x : xml) : M (option characteristic) :=
  let! unit_id := lift (get_str_attribute x (u "id")) in
  let! known := char_has unit_id ClsUnit in
  let! _ := (if known then report "IXBRL_DUPLICATE_ELEMENT_ID" x [(u "id", unit_id)] else ret tt) in
  match x_kids x with
  | [child] =>
      let! is_measure := lift (tag_contains (u "measure") child) in
      if is_measure then
        let! q := parse_measure child in
        match q with
        | None => ret None
        | Some q => ret (Some (ChUnit unit_id [q] []))
        end
      else
        let! is_divide := lift (tag_contains (u "divide") child) in
        if is_divide then
          let! _ := (if negb (Nat.eqb (length (x_kids child)) 2)
                     then report "XML_DIVIDE_ELEMENT_WITHOUT_TWO_CHILDREN" x
                            [(u "id", unit_id);
                             (u "child_count", z_to_str (Z.of_nat (length (x_kids child))))]
                     else ret tt) in
          let! nd := parse_divide x unit_id (x_kids child) [] [] in
          match nd with
          | None => ret None
          | Some (nums, dens) =>
              match x_kids child with
              | a :: b :: _ =>
                  let! _ := (if opt_eqb str_eqb (x_tag a) (x_tag b)
                             then report "XML_DUPLICATE_DIVIDE_ELEMENT_CHILDREN" x
                                    [(u "id", unit_id); (u "tag", str_opt (x_tag a))]
                             else ret tt) in
                  ret (Some (ChUnit unit_id nums dens))
              | _ => fail IndexError
              end
          end
        else
          let! _ := report "XML_INVALID_UNIT_ELEMENT_CHILDREN" x
                      [(u "id", unit_id); (u "child_tag", str_opt (x_tag child))] in
          ret (Some (ChUnit unit_id [] []))
  | kids =>
      let! _ := report "XML_UNIT_ELEMENT_WITHOUT_ONE_CHILD" x
                  [(u "id", unit_id); (u "child_count", z_to_str (Z.of_nat (length kids)))] in
      ret (Some (ChUnit unit_id [] []))
  end.

Definition add_optional (c : context) (x : option characteristic) : context :=
  match x with Some ch => add_characteristic c ch | None => c end.

(** brel/parsers/XML/xml_context_parser.py:74-94 *)
Fixpoint parse_dimensions (l : list xml) (c : context) : M context :=
  match l with
  | [] => ret c
  | d :: rest =>
      let! is_explicit := lift (tag_contains (u "explicitMember") d) in
      if is_explicit then
        let! x := parse_explicit d in parse_dimensions rest (add_optional c x)
      else
        let! is_typed := lift (tag_contains (u "typedMember") d) in
        if is_typed then
          let! x := parse_typed d in parse_dimensions rest (add_optional c x)
        else
          let! _ := report "INVALID_DIMENSION_TYPE" d [] in parse_dimensions rest c
  end.

(** xml_context_parser.py:28-96 *)
Definition parse_context (x : xml) (chars : list characteristic) : M (option context) :=
  let! id := lift (get_str_attribute x (u "id")) in
  match find_kid (u "period") x with
  | None => let! _ := report "MISSING_CONTEXT_PERIOD" x [] in ret None
  | Some xp =>
      match find_kid (u "entity") x with
      | None => let! _ := report "MISSING_CONTEXT_ENTITY" x [] in ret None
      | Some xe =>
          let c := fold_left add_characteristic chars (new_context id) in
          let! p := parse_period xp in
          let c := add_optional c p in
          let! e := parse_entity xe in
          let c := add_optional c e in
          match find_kid (u "segment") xe with
          | None => ret (Some c)
          | Some seg => let! c := parse_dimensions (x_kids seg) c in ret (Some c)
          end
      end
  end.

(** brel/parsers/XML/xml_facts_parser.py:35-83.  [concept] is the value of the context's concept
    characteristic; without one [None.get_value()] raises. *)
Definition parse_fact (x : xml) (c : context) : M unit :=
  match get_characteristic c a_concept with
  | Some (ChConcept concept) =>
      let tag := str_opt (x_tag x) in
      let! value := (match x_text x with
                     | Some v => ret v
                     | None =>
                         let! _ := (if nillable concept then ret tt
                                    else report "MISSING_FACT_VALUE" x [(u "concept", tag)]) in
                         ret []
                     end) in
      let! _ := (match get_characteristic c a_unit, attr x (u "unitRef") with
                 | Some cu, Some (r :: rs) =>
                     if str_eqb (r :: rs) (value_str cu) then ret tt
                     else report "FACT_UNIT_MISMATCH" x
                            [(u "fact_unit", r :: rs); (u "context_unit", value_str cu)]
                 | _, _ => ret tt
                 end) in
      let! _ := (if str_eqb tag (clark_notation (e_name concept)) then ret tt
                 else report "FACT_CONCEPT_MISMATCH" x
                        [(u "fact_concept", tag);
                         (u "context_concept", clark_notation (e_name concept))]) in
      fact_upsert (Fact c value (attr x (u "id")))
  | _ => fail AttributeError
  end.

(** brel/data/characteristic/characteristic_repository.py:29-35 with the factory of
    xml_facts_parser.py:116-125 *)
Definition concept_characteristic (x : xml) (tag : str) : M characteristic :=
  let! known := char_has tag ClsConcept in
  let! _ := (if known then ret tt
             else let! q := lift (qname_from_str tag (x_scope x)) in
                  let! e := lift (get_typed_by_qname is_concept rep q) in
                  char_upsert tag (ChConcept e)) in
  char_get tag ClsConcept.

(** xml_facts_parser.py:128-156: [None] means [continue]. *)
Definition fact_unit (instance x : xml) : M (option (list characteristic)) :=
  match attr x (u "unitRef") with
  | None | Some [] => ret (Some [])
  | Some unit_id =>
      match find_by_id (u "unit") unit_id instance with
      | None => let! _ := report "XML_INVALID_FACT_UNIT_ID" x [(u "unit_id", unit_id)] in ret None
      | Some xu =>
          let! known := char_has unit_id ClsUnit in
          let! ok := (if known then ret true
                      else let! new := parse_unit xu in
                           match new with
                           | None => ret false
                           | Some c => let! _ := char_upsert unit_id c in ret true
                           end) in
          if ok then let! c := char_get unit_id ClsUnit in ret (Some [c]) else ret None
      end
  end.

(** xml_facts_parser.py:101-178 *)
Definition parse_fact_element (instance x : xml) : M unit :=
  let tag := str_opt (x_tag x) in
  let! q := lift (qname_from_str tag (x_scope x)) in
  if negb (has_typed_qname is_concept rep q) then
    report "XML_FACT_INVALID_CONCEPT" x [(u "concept_name", tag)]
  else
    let! concept := concept_characteristic x tag in
    let! units := fact_unit instance x in
    match units with
    | None => ret tt
    | Some units =>
        let! context_id := lift (get_str_attribute x (u "contextRef")) in
        match find_by_id (u "context") context_id instance with
        | None => report "XML_INVALID_FACT_CONTEXT_ID" x [(u "context_id", context_id)]
        | Some xc =>
            let! c := parse_context xc (concept :: units) in
            match c with
            | None => ret tt
            | Some c => parse_fact x c
            end
        end
    end.

Fixpoint for_each {A} (f : A -> M unit) (l : list A) : M unit :=
  match l with
  | [] => ret tt
  | x :: r => let! _ := f x in for_each f r
  end.

(** xml_facts_parser.py:86-178 *)
Definition parse_facts (instances : list xml) : M unit :=
  for_each (fun i => for_each (parse_fact_element i) (fact_elements i)) instances.
End Parse.
