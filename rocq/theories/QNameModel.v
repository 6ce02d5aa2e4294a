(** Qualified names, looking up report elements by name, namespace normalisation.

    Sources (in /repo/brel): qnames/qname.py, qnames/qname_utils.py,
    qnames/qname_search_params.py, services/report_element/report_element_service.py,
    data/report_element/in_memory_report_element_repository.py,
    data/namespace/in_memory_namespace_repository.py, parsers/utils/iterable_utils.py,
    parsers/utils/lxml_utils.py, parsers/xml_filing_parser.py,
    parsers/XML/xml_report_element_parser.py, parsers/XML/xml_namespace_normalizer.py,
    brel_filing.py. *)
From Verif Require Import Base Regex PyNum.

(** ** QNames *)

(** qnames/qname.py 14-27: frozen dataclass, equality on all three fields. *)
Record qname := QName { q_uri : str; q_prefix : str; q_local : str }.

Definition qname_eqb (a b : qname) : bool :=
  str_eqb (q_uri a) (q_uri b) && str_eqb (q_prefix a) (q_prefix b)
  && str_eqb (q_local a) (q_local b).

(** qnames/qname.py 29-33 and qname_utils.py 76-83 *)
Definition to_clark (uri local : str) : str := u "{" ++ uri ++ u "}" ++ local.
Definition clark_notation (q : qname) : str := to_clark (q_uri q) (q_local q).

(** qnames/qname.py 35-45 and qname_utils.py 133-140 *)
Definition prefix_local_notation (q : qname) : str := q_prefix q ++ u ":" ++ q_local q.

(** The namespace bindings in scope at an element: lxml's [nsmap], a dict whose key [None] is
    the default namespace. *)
Definition scope := list (option str * str).

Definition key_eqb : option str -> option str -> bool := opt_eqb str_eqb.

Definition xml_ns : str := u "http://www.w3.org/XML/1998/namespace".

(** [str(x)] for [x : str | None] *)
Definition str_opt (x : option str) : str := match x with Some s => s | None => u "None" end.

Definition none_of (c : N) : cset := CSet true [CRange c c].

(** qname_utils.py 41: [^\{([^\}]+)\}([^\{]+)$] *)
Definition clark_re : re :=
  rseq [RLit (u "{"); RGrp 1 (RRep (none_of (ch "}")) 1 None); RLit (u "}");
        RGrp 2 (RRep (none_of (ch "{")) 1 None); REnd].

(** qname_utils.py 92: [^([^\:]+)\:([^\:]+)$]; qname_search_params.py 26, 35, 52, 63 use the
    same pattern with named groups. *)
Definition colon_re : re :=
  rseq [RGrp 1 (RRep (none_of (ch ":")) 1 None); RLit (u ":");
        RGrp 2 (RRep (none_of (ch ":")) 1 None); REnd].

Definition cap (c : caps) (n : nat) : str :=
  match dict_get Nat.eqb c n with Some s => s | None => [] end.

(** qname_utils.py 62-64: the inverted dict comprehension; a later key overwrites. *)
Definition inverted (sc : scope) : list (str * option str) :=
  dict_set str_eqb
    (fold_left (fun d kv => dict_set str_eqb d (snd kv) (fst kv)) sc [])
    xml_ns (Some (u "xml")).

(** qname_utils.py 46-73 *)
Definition qname_from_clark (s : str) (sc : scope) : res qname :=
  match re_match clark_re s with
  | None => Raise ValueError
  | Some c =>
      let prefix := match dict_get str_eqb (inverted sc) (cap c 1) with
                    | Some p => p
                    | None => None
                    end in
      Ok (QName (cap c 1) (str_opt prefix) (cap c 2))
  end.

(** qname_utils.py 97-130 *)
Definition qname_from_colon (s : str) (sc : scope) : res qname :=
  match re_match colon_re s with
  | None => Raise ValueError
  | Some c =>
      let nsmap := dict_set key_eqb sc (Some (u "xml")) xml_ns in
      Ok (QName (str_opt (dict_get key_eqb nsmap (Some (cap c 1)))) (cap c 1) (cap c 2))
  end.

(** qname_utils.py 143-161 *)
Definition qname_from_local (s : str) (sc : scope) : qname :=
  QName (str_opt (dict_get key_eqb sc None)) [] s.

(** qname_utils.py 16-32 *)
Definition qname_from_str (s : str) (sc : scope) : res qname :=
  match re_match clark_re s with
  | Some _ => qname_from_clark s sc
  | None =>
      match re_match colon_re s with
      | Some _ => qname_from_colon s sc
      | None => Ok (qname_from_local s sc)
      end
  end.

(** ** The report element repository *)

Inductive ekind := KConcept | KAbstract | KLineItems | KHypercube | KDimension | KMember.

(** A report element: its name, its id, its class.  [e_tag] stands for everything else. *)
Record element := Element { e_name : qname; e_id : option str; e_kind : ekind; e_tag : nat }.

Record repository := Repo { by_qname : list (qname * element); by_id : list (str * element) }.

Definition empty_repo : repository := Repo [] [].

(** in_memory_report_element_repository.py 41-45 *)
Definition upsert (r : repository) (e : element) : repository :=
  Repo (dict_set qname_eqb (by_qname r) (e_name e) e)
       (match e_id e with
        | Some i => dict_set str_eqb (by_id r) i e
        | None => by_id r
        end).

(** in_memory_report_element_repository.py 21-39, 47-48 *)
Definition has_qname (r : repository) (q : qname) : bool := dict_mem qname_eqb (by_qname r) q.
Definition get_by_qname (r : repository) (q : qname) : res element :=
  match dict_get qname_eqb (by_qname r) q with Some e => Ok e | None => Raise KeyError end.
Definition has_id (r : repository) (i : str) : bool := dict_mem str_eqb (by_id r) i.
Definition get_by_id (r : repository) (i : str) : res element :=
  match dict_get str_eqb (by_id r) i with Some e => Ok e | None => Raise KeyError end.
Definition get_all (r : repository) : list element := dict_values (by_qname r).

(** data/report_element/report_element_repository.py: [isinstance] tests are passed as [is_t]. *)
Definition get_typed_by_qname (is_t : element -> bool) (r : repository) (q : qname) : res element :=
  do! e <- get_by_qname r q ; if is_t e then Ok e else Raise ValueError.
Definition has_typed_qname (is_t : element -> bool) (r : repository) (q : qname) : bool :=
  is_ok (get_typed_by_qname is_t r q).
Definition get_all_typed (is_t : element -> bool) (r : repository) : list element :=
  filter is_t (get_all r).

(** ** The namespace repository *)

(** data/namespace/in_memory_namespace_repository.py: the pairs that were upserted, first
    occurrence only; both dictionaries of sets are views of it. *)
Definition namespaces := list (str * str).

Definition pair_eqb (a b : str * str) : bool :=
  str_eqb (fst a) (fst b) && str_eqb (snd a) (snd b).

(** 20-22 *)
Definition ns_upsert (n : namespaces) (p uri : str) : namespaces :=
  if existsb (pair_eqb (p, uri)) n then n else n ++ [(p, uri)].

(** 24-28; the order in which the set is iterated is arbitrary: see [ord] below. *)
Definition get_uris (n : namespaces) (p : str) : list str :=
  map snd (filter (fun x => str_eqb (fst x) p) n).
Definition get_prefixes (n : namespaces) (uri : str) : list str :=
  map fst (filter (fun x => str_eqb (snd x) uri) n).

(** parsers/utils/lxml_utils.py 136-161 and parsers/xml_filing_parser.py 32-41: every binding of
    every element of every document except the default namespaces.  (lxml never reports
    [xmlns:] declarations as attributes, so the [update] is without effect.) *)
Definition create_nsmap (scopes : list scope) : namespaces :=
  fold_left
    (fun n sc =>
       fold_left (fun n kv => match fst kv with
                              | Some p => ns_upsert n p (snd kv)
                              | None => n
                              end) sc n)
    scopes (ns_upsert [] (u "xml") xml_ns).

(** ** Searching *)

(** qname_search_params.py 15-19 *)
Record search := Search { sp_local : str; sp_uri : option str; sp_prefix : option str }.

(** qname_search_params.py 21-84: the "Clark" test and the prefix test are the same pattern. *)
Definition search_from_string (s : str) : search :=
  match re_match colon_re s with
  | Some c => Search (cap c 2) None (Some (cap c 1))
  | None => Search s None None
  end.

Definition truthy (x : option str) : option str :=
  match x with Some (_ :: _) => x | _ => None end.

(** report_element_service.py 82-97 (and 30-45).  [ord] is the iteration order of sets. *)
Definition candidates (ord : list str -> list str) (n : namespaces) (sp : search)
  : list str * list str :=
  match truthy (sp_uri sp), truthy (sp_prefix sp) with
  | Some uri, Some p => ([uri], [p])
  | Some uri, None => ([uri], ord (get_prefixes n uri))
  | None, Some p => (ord (get_uris n p), [p])
  | None, None => ([], [])
  end.

Definition cross (l : str) (us ps : list str) : list qname :=
  flat_map (fun uri => map (fun p => QName uri p l) ps) us.

Definition is_nil {A} (l : list A) : bool := match l with [] => true | _ => false end.

(** report_element_service.py 80-124 *)
Definition get_fuzzy (ord : list str -> list str) (n : namespaces) (r : repository) (sp : search)
  : res (list element) :=
  let (us, ps) := candidates ord n sp in
  if negb (is_nil us && is_nil ps)
  then map_res (get_by_qname r) (filter (has_qname r) (cross (sp_local sp) us ps))
  else Ok (filter (fun e => str_eqb (q_local (e_name e)) (sp_local sp)) (get_all r)).

(** report_element_service.py 27-78 *)
Definition get_fuzzy_typed (is_t : element -> bool) (ord : list str -> list str)
  (n : namespaces) (r : repository) (sp : search) : res (list element) :=
  let (us, ps) := candidates ord n sp in
  if negb (is_nil us && is_nil ps)
  then map_res (get_typed_by_qname is_t r)
         (filter (has_typed_qname is_t r) (cross (sp_local sp) us ps))
  else Ok (filter (fun e => str_eqb (q_local (e_name e)) (sp_local sp)) (get_all_typed is_t r)).

(** parsers/utils/iterable_utils.py 28-47; no element of the lists searched here is [None]. *)
Definition exactly_one {A} (l : list A) : res A :=
  match l with
  | [] => Raise ValueError
  | [x] => Ok x
  | _ :: _ :: _ => Raise ValueError
  end.

(** brel_filing.py 306-323 for a text *)
Definition get_report_element_by_name (ord : list str -> list str) (n : namespaces)
  (r : repository) (s : str) : res element :=
  do! l <- get_fuzzy ord n r (search_from_string s) ; exactly_one l.

Definition is_concept (e : element) : bool :=
  match e_kind e with KConcept => true | _ => false end.

(** brel_filing.py 325-342 for a text *)
Definition get_concept_by_name (ord : list str -> list str) (n : namespaces)
  (r : repository) (s : str) : res element :=
  do! l <- get_fuzzy_typed is_concept ord n r (search_from_string s) ; exactly_one l.

(** ** Namespace normalisation (parsers/XML/xml_namespace_normalizer.py) *)

(** The character class [\d] of Python's [re] on [str]. *)
Definition is_digit (c : N) : bool := match digit_of c with Some _ => true | None => false end.

(** 109-117 *)
Definition url_remove_version (s : str) : str :=
  filter (fun c => negb (is_digit c || N.eqb c (ch "-") || N.eqb c (ch "_") || N.eqb c (ch "."))) s.

(** [re.findall(r"\d+", s)] *)
Fixpoint digit_runs (s : str) (cur : str) : list str :=
  match s with
  | [] => match cur with [] => [] | _ => [rev cur] end
  | c :: t =>
      if is_digit c then digit_runs t (c :: cur)
      else match cur with
           | [] => digit_runs t []
           | _ => rev cur :: digit_runs t []
           end
  end.

Definition run_value (s : str) : Z := match py_int s with Some z => z | None => 0%Z end.

(** 163-172 *)
Definition url_to_value (url : str) : Z :=
  fold_left Z.add (map run_value (digit_runs url [])) 0%Z.

(** Python's [max(l, key)]: the first maximum; [min(l, key)]: the first minimum. *)
Fixpoint max_by {A} (key : A -> Z) (best : A) (l : list A) : A :=
  match l with
  | [] => best
  | x :: t => max_by key (if (key best <? key x)%Z then x else best) t
  end.
Fixpoint min_by {A} (key : A -> Z) (best : A) (l : list A) : A :=
  match l with
  | [] => best
  | x :: t => min_by key (if (key x <? key best)%Z then x else best) t
  end.

(** 97-106.  [\d+$] finds the trailing digits (also before a final newline: a prefix has none). *)
Definition trailing_digits (s : str) : str :=
  rev ((fix take l := match l with
                      | c :: t => if is_digit c then c :: take t else []
                      | [] => [] end) (rev s)).
Definition without_trailing_digits (s : str) : str := rdrop_while is_digit s.

(** 90-106 *)
Definition generate_alternative_prefix (p : str) : str :=
  let n := match trailing_digits p with
           | [] => 1%Z
           | ds => (run_value ds + 1)%Z
           end in
  without_trailing_digits p ++ z_to_str n.

(** 120-151 *)
Fixpoint are_urls_versions (urls : list str) : bool :=
  match urls with
  | a :: ((b :: _) as t) =>
      str_eqb (url_remove_version a) (url_remove_version b) && are_urls_versions t
  | _ => true
  end.

(** 209-262.  [default] is [get_default_prefix_from_uri] (57-87): the prefix configured in
    config/nsconfig.json for the longest pattern that matches the uri. *)
Definition component_to_nsmap (default : str -> option str) (urls prefixes : list str)
  : res (str * str * list str) :=
  match urls, prefixes with
  | url :: urls', p :: prefixes' =>
      if negb (are_urls_versions urls) then Raise ValueError
      else
        let main_url := max_by url_to_value url urls' in
        let main_prefix := match default main_url with
                           | Some d => d
                           | None => min_by (fun s => Z.of_nat (length s)) p prefixes'
                           end in
        Ok (main_prefix, main_url, filter (fun x => negb (str_eqb x main_prefix)) prefixes)
  | _, _ => Raise ValueError
  end.

(** A Python set of strings: the members, without repetition. *)
Definition set_add (x : str) (l : list str) : list str :=
  if existsb (str_eqb x) l then l else l ++ [x].

Definition component := (list str * list str)%type.

(** 279-287 *)
Definition add_binding (cs : list (str * component)) (p uri : str) : list (str * component) :=
  let key := url_remove_version uri in
  let '(us, ps) := match dict_get str_eqb cs key with Some c => c | None => ([], []) end in
  dict_set str_eqb cs key (set_add uri us, set_add p ps).

Definition components (maps : list scope) : list (str * component) :=
  fold_left
    (fun cs m =>
       fold_left (fun cs kv => match fst kv with
                               | Some p => add_binding cs p (snd kv)
                               | None => cs
                               end) m cs)
    maps [].

Record normalized := Norm {
  nm_nsmap : list (str * str);
  nm_redirects : list (str * str);
  nm_renames : list (str * str) }.

(** 300-320: one component *)
Definition normalize_component (default : str -> option str) (ord : list str -> list str)
  (st : normalized) (c : component) : res normalized :=
  do! m <- component_to_nsmap default (ord (fst c)) (ord (snd c)) ;
  let '(p, url, red) := m in
  let '(p', ren) :=
    if dict_mem str_eqb (nm_nsmap st) p
    then let q := generate_alternative_prefix p in
         (q, dict_set str_eqb (nm_renames st) url q)
    else (p, nm_renames st) in
  Ok (Norm (dict_set str_eqb (nm_nsmap st) p' url)
           (fold_left (fun d r => dict_set str_eqb d r p') red (nm_redirects st))
           ren).

Fixpoint normalize_all (default : str -> option str) (ord : list str -> list str)
  (st : normalized) (cs : list component) : res normalized :=
  match cs with
  | [] => Ok st
  | c :: cs' => do! st' <- normalize_component default ord st c ;
                normalize_all default ord st' cs'
  end.

(** 265-325 *)
Definition normalize_nsmap (default : str -> option str) (ord : list str -> list str)
  (maps : list scope) : res normalized :=
  normalize_all default ord (Norm [] [] []) (dict_values (components maps)).
