(** Model of the footnotes of inline documents:
    brel/parsers/XHMTL/networks/xhtml_parse_footnote_network.py:80-370,
    brel/networks/footnote_network_node.py and footnote_network.py.

    Simplifications:
    - a relationship element is the text of its attributes; a footnote element likewise, with the
      language found at it or above it and the content of its continuation chain already extracted;
    - [is_valid_uri], [float], the iteration order of sets and [str] of a list are parameters
      (record [env]); floats are rational numbers, NaN and the infinities are left out;
    - one node is made for each identifier of a network, so that nodes are known by identifier;
    - role references (373-417) are in InlineFilingModel. *)
From Coq Require Import QArith.
From Verif Require Import Base ErrBase ErrTable ErrModel ValueModel.
Local Open Scope nat_scope.

(** ** Elements *)

(** An ix:relationship and an ix:footnote *)
Record rel := Rel {
  r_from : option str; r_to : option str; r_arcrole : option str; r_linkrole : option str;
  r_order : option str }.
Record note_elem := NoteElem {
  ne_id : option str; ne_role : option str; ne_lang : option str; ne_content : str;
  ne_title : option str }.
Inductive felem := ERel (r : rel) | ENote (n : note_elem).

Record env := Env {
  e_uri : str -> bool;
  e_float : str -> option Q;
  e_set : list str -> list str;     (* the members of [set(l)] in the order of iteration *)
  e_repr : list str -> str }.

(** brel/resource/brel_footnote.py:29-43 *)
Record note := Note { no_content : str; no_id : str; no_lang : str; no_role : str; no_title : option str }.
Definition notes := list (str * note).

Definition erepo := repo felem.

(** [if not s] for an optional text *)
Definition given (o : option str) : option str := match o with Some [] => None | _ => o end.

(** ** Footnotes *)

(** xhtml_parse_footnote_network.py:29-77 *)
Definition default_role : str := u "http://www.xbrl.org/2003/role/footnote".
Definition parse_footnote (e : env) (x : note_elem) (es : erepo) (taken : list str)
  : res (option (str * note) * erepo * list str) :=
  match given (ne_id x) with
  | None => do! es <- insert es "IXBRL_FOOTNOTE_WITHOUT_ID" (Some (ENote x)) [] ; Ok (None, es, taken)
  | Some id =>
      do! es <- if existsb (str_eqb id) taken
                then insert es "IXBRL_DUPLICATE_ELEMENT_ID" (Some (ENote x)) [(u "id", id)] else Ok es ;
      let taken := if existsb (str_eqb id) taken then taken else taken ++ [id] in
      do! r <- match ne_role x with
               | None => Ok (default_role, es)
               | Some role =>
                   if e_uri e role then Ok (role, es)
                   else do! es <- insert es "IXBRL_INVALID_FOOTNOTE_ROLE" (Some (ENote x))
                                    [(u "id", id); (u "role", role)] ;
                        Ok (default_role, es)
               end ;
      let (role, es) := r : str * erepo in
      do! l <- match given (ne_lang x) with
               | Some l => Ok (l, es)
               | None => do! es <- insert es "IXBRL_FOOTNOTE_WITHOUT_LANGUAGE" (Some (ENote x)) [(u "id", id)] ;
                         Ok (u "en", es)
               end ;
      let (lang, es) := l : str * erepo in
      Ok (Some (id, Note (ne_content x) id lang role (ne_title x)), es, taken)
  end.

(** xhtml_parse_footnote_network.py:80-98 *)
Fixpoint parse_footnotes (e : env) (xs : list note_elem) (ns : notes) (es : erepo) (taken : list str)
  : res (notes * erepo * list str) :=
  match xs with
  | [] => Ok (ns, es, taken)
  | x :: xs' =>
      do! p <- parse_footnote e x es taken ;
      let '(o, es, taken) := p : option (str * note) * erepo * list str in
      parse_footnotes e xs'
        (match o with Some (id, n) => dict_set str_eqb ns id n | None => ns end) es taken
  end.

(** ** Relationships *)

(** [s.split()] *)
Fixpoint words_from (cur : str) (s : str) : list str :=
  match s with
  | [] => match cur with [] => [] | _ => [cur] end
  | c :: t => if is_space c
              then match cur with [] => words_from [] t | _ => cur :: words_from [] t end
              else words_from (cur ++ [c]) t
  end.
Definition words (s : str) : list str := words_from [] s.

(** The texts of the facts of the filing by identifier (in_memory_fact_repository.py:21-28) *)
Definition facts := list (str * str).
Definition mem (x : str) (l : list str) : bool := existsb (str_eqb x) l.

(** xhtml_parse_footnote_network.py:101-122 *)
Definition parse_refs (e : env) (x : rel) (es : erepo) : res (list str * list str * erepo) :=
  do! f <- match given (r_from x) with
           | Some s => Ok (s, es)
           | None => do! es <- insert es "IXBRL_RELATIONSHIP_WITHOUT_FROMREFS" (Some (ERel x)) [] ; Ok ([], es)
           end ;
  let (from, es) := f : str * erepo in
  do! t <- match given (r_to x) with
           | Some s => Ok (s, es)
           | None => do! es <- insert es "IXBRL_RELATIONSHIP_WITHOUT_TOREFS" (Some (ERel x)) [] ; Ok ([], es)
           end ;
  let (to, es) := t : str * erepo in
  Ok (e_set e (words from), e_set e (words to), es).

(** xhtml_parse_footnote_network.py:125-173 *)
Definition validate_refs (e : env) (x : rel) (from to : list str) (ns : notes) (fs : facts) (es : erepo)
  : res erepo :=
  do! es <- if existsb (fun i => mem i to) from
            then insert es "IXBRL_RELATIONSHIP_REPEATED_ID" (Some (ERel x)) [] else Ok es ;
  let bad_from := filter (fun i => negb (dict_mem str_eqb fs i)) from in
  do! es <- match bad_from with
            | [] => Ok es
            | _ => insert es "IXBRL_RELATIONSHIP_INVALID_FACT_ID_IN_FROMREFS" (Some (ERel x))
                     [(u "invalid_ids", e_repr e bad_from)]
            end ;
  let bad_to := filter (fun i => negb (dict_mem str_eqb fs i) && negb (dict_mem str_eqb ns i)) to in
  do! es <- match bad_to with
            | [] => Ok es
            | _ => insert es "IXBRL_RELATIONSHIP_INVALID_FACT_OR_FOOTNOTE_ID_IN_TOREFS" (Some (ERel x))
                     [(u "invalid_ids", e_repr e bad_to)]
            end ;
  if existsb (dict_mem str_eqb ns) to && negb (forallb (dict_mem str_eqb ns) to)
  then insert es "IXBRL_RELATIONSHIP_MIXED_FACT_AND_FOOTNOTES_IN_TOREFS" (Some (ERel x)) []
  else Ok es.

(** xhtml_parse_footnote_network.py:176-219: [order] has no value after the branches that do not
    assign it; the order 0 is false. *)
Definition default_arcrole : str := u "http://www.xbrl.org/2003/arcrole/fact-footnote".
Definition default_linkrole : str := u "http://www.xbrl.org/2003/role/link".
Definition parse_attributes (e : env) (x : rel) (es : erepo) : res (str * str * Q * erepo) :=
  do! a <- match given (r_arcrole x) with
           | None => Ok (default_arcrole, es)
           | Some s => if e_uri e s then Ok (s, es)
                       else do! es <- insert es "IXBRL_RELATIONSHIP_INVALID_ARCROLE" (Some (ERel x)) [(u "arcrole", s)] ;
                            Ok (default_arcrole, es)
           end ;
  let (arcrole, es) := a : str * erepo in
  do! l <- match given (r_linkrole x) with
           | None => Ok (default_linkrole, es)
           | Some s => if e_uri e s then Ok (s, es)
                       else do! es <- insert es "IXBRL_RELATIONSHIP_INVALID_LINKROLE" (Some (ERel x)) [(u "linkrole", s)] ;
                            Ok (default_linkrole, es)
           end ;
  let (linkrole, es) := l : str * erepo in
  do! o <- match given (r_order x) with
           | None => Ok (None, es)
           | Some s => match e_float e s with
                       | Some q => Ok (Some q, es)
                       | None => do! es <- insert es "IXBRL_RELATIONSHIP_INVALID_ORDER" (Some (ERel x)) [(u "order", s)] ;
                                 Ok (None, es)
                       end
           end ;
  let (order, es) := o : option Q * erepo in
  match order with
  | None => Raise UnboundLocalError
  | Some q => Ok (arcrole, linkrole, if Qeq_bool q 0 then 1%Q else q, es)
  end.

(** xhtml_parse_footnote_network.py:222-245 *)
Record arc := Arc { a_from : list str; a_to : list str; a_arcrole : str; a_linkrole : str; a_order : Q }.
Definition parse_relationship (e : env) (ns : notes) (fs : facts) (x : rel) (es : erepo) : res (arc * erepo) :=
  do! r <- parse_refs e x es ;
  let '(from, to, es) := r : list str * list str * erepo in
  do! es <- validate_refs e x from to ns fs es ;
  do! a <- parse_attributes e x es ;
  let '(arcrole, linkrole, order, es) := a : str * str * Q * erepo in
  Ok (Arc from to arcrole linkrole order, es).

(** xhtml_parse_footnote_network.py:359-367; the tuple is always true *)
Fixpoint parse_arcs (e : env) (ns : notes) (fs : facts) (xs : list rel) (es : erepo) : res (list arc * erepo) :=
  match xs with
  | [] => Ok ([], es)
  | x :: xs' =>
      do! p <- parse_relationship e ns fs x es ;
      let (a, es) := p : arc * erepo in
      do! q <- parse_arcs e ns fs xs' es ;
      let (arcs, es) := q : list arc * erepo in
      Ok (a :: arcs, es)
  end.

(** ** Networks *)

(** footnote_network_node.py:29-45; the children are known by their identifiers *)
Inductive target := TFact (text : str) | TNote (n : note).
Record node := Node {
  n_target : target; n_kids : list str; n_arcrole : str; n_linkrole : str; n_order : Q }.
Definition nodes := list (str * node).
Record network := Network { nw_linkrole : str; nw_nodes : nodes; nw_roots : list str }.

(** [facts.get_by_id(id)] *)
Definition get_by_id (fs : facts) (id : str) : res target :=
  match dict_get str_eqb fs id with Some t => Ok (TFact t) | None => Raise KeyError end.

(** [not object]: the truth of a fact is its value as a boolean (brel_fact.py:114-126) *)
Definition truth (t : target) : res bool :=
  match t with TFact text => fact_bool text | TNote _ => Ok true end.

(** xhtml_parse_footnote_network.py:267-277 *)
Fixpoint add_from (fs : facts) (roots : list str) (a : arc) (ids : list str) (d : nodes) : res nodes :=
  match ids with
  | [] => Ok d
  | id :: ids' =>
      if negb (dict_mem str_eqb d id) && mem id roots then
        do! o <- get_by_id fs id ;
        add_from fs roots a ids' (dict_set str_eqb d id (Node o [] (a_arcrole a) (a_linkrole a) 1%Q))
      else add_from fs roots a ids' d
  end.

(** xhtml_parse_footnote_network.py:279-299 *)
Fixpoint add_to (ns : notes) (fs : facts) (a : arc) (ids : list str) (d : nodes) : res nodes :=
  match ids with
  | [] => Ok d
  | id :: ids' =>
      if negb (dict_mem str_eqb d id) then
        do! o <- match dict_get str_eqb ns id with Some n => Ok (TNote n) | None => get_by_id fs id end ;
        do! t <- truth o ;
        if t then add_to ns fs a ids' (dict_set str_eqb d id (Node o [] (a_arcrole a) (a_linkrole a) (a_order a)))
        else add_to ns fs a ids' d
      else add_to ns fs a ids' d
  end.

(** xhtml_parse_footnote_network.py:266-299 *)
Fixpoint add_arcs (ns : notes) (fs : facts) (roots : list str) (arcs : list arc) (d : nodes) : res nodes :=
  match arcs with
  | [] => Ok d
  | a :: arcs' =>
      do! d <- add_from fs roots a (a_from a) d ;
      do! d <- add_to ns fs a (a_to a) d ;
      add_arcs ns fs roots arcs' d
  end.

(** xhtml_parse_footnote_network.py:248-303 *)
Definition create_nodes (e : env) (ns : notes) (fs : facts) (arcs : list arc) : res (nodes * list str) :=
  let all := flat_map (fun a => a_from a ++ a_to a) arcs in
  let internal := flat_map a_to arcs in
  let roots := e_set e (filter (fun i => negb (mem i internal)) all) in
  do! d <- add_arcs ns fs roots arcs [] ;
  if forallb (dict_mem str_eqb d) roots then Ok (d, roots) else Raise KeyError.

(** footnote_network_node.py:101-109: the children are sorted after every addition *)
Definition order_of (d : nodes) (id : str) : Q :=
  match dict_get str_eqb d id with Some n => n_order n | None => 1%Q end.
Definition add_child (d : nodes) (from to : str) : nodes :=
  match dict_get str_eqb d from with
  | Some n => dict_set str_eqb d from
      (Node (n_target n) (stable_sort (fun x y => Qle_bool (order_of d x) (order_of d y)) (n_kids n ++ [to]))
         (n_arcrole n) (n_linkrole n) (n_order n))
  | None => d
  end.

(** xhtml_parse_footnote_network.py:306-314 *)
Fixpoint connect (d : nodes) (pairs : list (str * str)) : res nodes :=
  match pairs with
  | [] => Ok d
  | (from, to) :: pairs' =>
      if dict_mem str_eqb d from && dict_mem str_eqb d to then connect (add_child d from to) pairs'
      else Raise KeyError
  end.
Definition pairs_of (arcs : list arc) : list (str * str) :=
  flat_map (fun a => list_prod (a_from a) (a_to a)) arcs.

(** xhtml_parse_footnote_network.py:317-328 *)
Definition build_network (e : env) (ns : notes) (fs : facts) (arcs : list arc) (linkrole : str) : res network :=
  do! p <- create_nodes e ns fs arcs ;
  let (d, roots) := p : nodes * list str in
  do! d <- connect d (pairs_of arcs) ;
  Ok (Network linkrole d roots).

(** xhtml_parse_footnote_network.py:336-343: the key is (link role, arc role) *)
Definition key_eqb (a b : str * str) : bool := str_eqb (fst a) (fst b) && str_eqb (snd a) (snd b).
Definition group (arcs : list arc) : list (str * str * list arc) :=
  fold_left (fun d a =>
    let k := (a_linkrole a, a_arcrole a) in
    dict_set key_eqb d k (match dict_get key_eqb d k with Some l => l | None => [] end ++ [a])) arcs [].

(** xhtml_parse_footnote_network.py:345-350: the second part of the key is taken for the link role *)
Definition build_networks (e : env) (ns : notes) (fs : facts) (arcs : list arc) : res (list network) :=
  map_res (fun g => build_network e ns fs (snd g) (snd (fst g))) (group arcs).

(** xhtml_parse_footnote_network.py:353-370 *)
Definition parse_relationships (e : env) (ns : notes) (fs : facts) (xs : list rel) (es : erepo)
  : res (list network * erepo) :=
  do! p <- parse_arcs e ns fs xs es ;
  let (arcs, es) := p : list arc * erepo in
  do! nws <- build_networks e ns fs arcs ;
  Ok (nws, es).
