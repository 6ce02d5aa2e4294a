(** Model of taxonomy discovery: brel/services/xml/xml_service.py,
    brel/services/xml/xml_file_parser_resolver.py, brel/services/file/file_service.py,
    brel/data/xml/xml_repository.py, brel/data/file/pyfs_file_repository.py,
    brel/parsers/utils/file_utils.py, brel/data/uri_rewrite/in_memory_uri_rewrite_repository.py,
    brel/parsers/XML/xml_parse_catalog.py and brel/contexts/factory.py.

    Simplifications:
    - files are texts (the bytes are decoded as UTF-8 once);
    - [urllib.parse.urljoin], [urllib.parse.urlparse(_).path], the network, the file system and
      the lxml parsers are parameters; every failure of the network or of a file is [OSError],
      whatever its Python class;
    - the order in which a Python set is iterated is the parameter [order];
    - Python's [RecursionError] is [OutOfFuel]. *)
From Verif Require Import Base Regex QNameModel ErrBase ErrTable ErrModel CtxModel.

(** ** Cache file names *)

(** [s.replace(pat, "")]; [skip] characters of a match remain to be skipped. *)
Fixpoint remove_from (skip : nat) (pat s : str) : str :=
  match s with
  | [] => []
  | c :: t =>
      match skip with
      | S k => remove_from k pat t
      | O => if starts_with pat s then remove_from (length pat - 1) pat t
             else c :: remove_from 0 pat t
      end
  end.
Definition remove_all (pat s : str) : str := remove_from 0 pat s.

(** [s.replace(a, b)] for single characters *)
Definition subst_char (a b : N) (s : str) : str := map (fun c => if N.eqb c a then b else c) s.

Definition is_alnum (c : N) : bool :=
  ((48 <=? c) && (c <=? 57) || (65 <=? c) && (c <=? 90) || (97 <=? c) && (c <=? 122))%N.

(** [re.search(r"\.([a-zA-Z0-9]+)$", uri)]: the text after the last full stop; [$] also matches
    before a final line feed. *)
Definition chop_newline (uri : str) : str :=
  match rev uri with c :: r => if N.eqb c 10 then rev r else uri | [] => uri end.
Definition file_format (uri : str) : str :=
  let pieces := split_char (ch ".") (chop_newline uri) in
  let e := last pieces [] in
  if (1 <? length pieces) && (0 <? length e) && forallb is_alnum e then ch "." :: e else [].

Definition backslash : N := 92%N.

(** file_utils.py:14-54 *)
Definition uri_to_filename (uri : str) : str :=
  let fmt := file_format uri in
  if negb (starts_with (u "http") uri) then
    let posix := subst_char backslash (ch "/") uri in
    if mem_char (ch "/") posix then last (split_char (ch "/") posix) [] else posix
  else
    let uri := remove_all (ch "." :: fmt) uri in
    let uri := if contains (u "http") uri
               then remove_all (u "www.") (remove_all (u "https://") (remove_all (u "http://") uri))
               else uri in
    let uri := subst_char (ch "/") (ch "_") uri in
    let uri := subst_char (ch ":") (ch "_") uri in
    let uri := subst_char (ch "?") (ch "_") uri in
    let uri := subst_char (ch ".") (ch "_") uri in
    let uri := subst_char backslash (ch "_") uri in
    uri ++ fmt.

(** ** URI rewriting *)

(** in_memory_uri_rewrite_repository.py:18-19 *)
Definition rules := list (str * str).
Definition rewrite_upsert (r : rules) (original replacement : str) : rules :=
  dict_set str_eqb r original replacement.

(** in_memory_uri_rewrite_repository.py:24-29 *)
Fixpoint rewrite (r : rules) (uri : str) : str :=
  match r with
  | [] => uri
  | (original, replacement) :: r' =>
      if starts_with original uri then replacement ++ skipn (length original) uri
      else rewrite r' uri
  end.

(** xml_parse_catalog.py:7 *)
Definition oasis : str := u "urn:oasis:names:tc:entity:xmlns:xml:catalog".

Definition clark (ns local : str) : str := u "{" ++ ns ++ u "}" ++ local.
Definition has_tag (tag : str) (x : xml) : bool := opt_eqb str_eqb (x_tag x) (Some tag).

(** "not x" for an optional string *)
Definition blank (o : option str) : bool := match o with Some (_ :: _) => false | _ => true end.

(** xml_parse_catalog.py:23-48: one pass over the rewriteURI elements, keeping the start strings
    seen, the rules and the errors. *)
Fixpoint catalog_rules (dir : list str) (l : list xml) (seen : list str) (r : rules) (es : repo xml)
  : res (rules * repo xml) :=
  match l with
  | [] => Ok (r, es)
  | child :: l' =>
      match attr child (u "uriStartString"), attr child (u "rewritePrefix") with
      | Some ((_ :: _) as original), Some ((_ :: _) as replacement) =>
          do! es <- (if existsb (str_eqb original) seen
                     then insert es "MULTIPLE_REWRITE_URIS_FOR_START_STRING" (Some child)
                            [(u "uri", original)]
                     else Ok es);
          catalog_rules dir l' (original :: seen)
            (rewrite_upsert r original (join (u "/") (dir ++ split_char (ch "/") replacement))) es
      | _, _ =>
          do! es <- insert es "REWRITE_URI_MISSING_ATTRIBUTE" (Some child) [];
          catalog_rules dir l' seen r es
      end
  end.

(** xml_parse_catalog.py:10-48 *)
Definition parse_catalog_xml (path : str) (root : xml) (r : rules) (es : repo xml)
  : res (rules * repo xml) :=
  do! es <- (if has_tag (clark oasis (u "catalog")) root then Ok es
             else insert es "INVALID_CATALOG_ROOT_NODE" (Some root) []);
  catalog_rules (removelast (split_char (ch "/") path))
    (filter (has_tag (clark oasis (u "rewriteURI"))) (x_kids root)) [] r es.

(** ** References *)

(** [content.split()]: [cur] is the word being read. *)
Fixpoint words (cur : str) (s : str) : list str :=
  match s with
  | [] => match cur with [] => [] | _ => [cur] end
  | c :: t => if is_space c
              then match cur with [] => words [] t | _ => cur :: words [] t end
              else words (cur ++ [c]) t
  end.


(** xml_service.py:84-86 *)
Definition href_key : str := u ":href=".
Definition schema_key : str := u "schemaLocation=".
Definition quotes (neg : bool) : cset := CSet neg [CRange 39 39; CRange 34 34].
Definition quoted (n : nat) : re :=
  RSeq (RChar (quotes false)) (RSeq (RGrp n (RRep (quotes true) 1 None)) (RChar (quotes false))).
Definition reference_pattern : re :=
  RAlt (RSeq (RLit href_key) (quoted 1)) (RSeq (RLit schema_key) (quoted 2)).

(** [reference_pattern.finditer(s)]: the groups of the matches from left to right. *)
Fixpoint finditer (fuel : nat) (s : str) : list caps :=
  match fuel with
  | O => []
  | S fuel =>
      match mt reference_pattern s [] (fun s' c => Some (s', c)) with
      | Some (s', c) => c :: finditer fuel s'
      | None => match s with [] => [] | _ :: t => finditer fuel t end
      end
  end.

(** xml_service.py:88-103: the references added for one match. *)
Definition match_references (c : caps) : res (list str) :=
  do! a <- (match dict_get Nat.eqb c 1 with
            | Some ((_ :: _) as href) =>
                do! h <- (if mem_char (ch "#") href
                          then match split_char (ch "#") href with
                               | [a; _] => Ok a
                               | _ => Raise ValueError
                               end
                          else Ok href);
                match h with [] => Ok [] | _ => Ok [h] end
            | _ => Ok []
            end);
  do! b <- (match dict_get Nat.eqb c 2 with
            | Some ((_ :: _) as loc) =>
                match words [] loc with
                | [] => Raise IndexError
                | w => Ok [last w []]
                end
            | _ => Ok []
            end);
  Ok (a ++ b).

(** xml_service.py:82-105: the members of the set, without repetitions. *)
Definition extract_references (content : str) : res (list str) :=
  do! l <- map_res match_references (finditer (S (length content)) content);
  Ok (nodup (list_eq_dec N.eq_dec) (concat l)).

(** ** Loading *)

Definition is_http (uri : str) : bool := starts_with (u "http") uri.

(** xml_repository.py:24-28 *)
Definition normalize_uri (uri : str) : str :=
  if is_http uri then uri else subst_char backslash (ch "/") uri.

Inductive parser_kind := XmlParser | XhtmlParser.

(** xml_file_parser_resolver.py:29-33 *)
Definition get_parser (uri : str) : res parser_kind :=
  if ends_with (u ".xml") uri then Ok XmlParser
  else if ends_with (u ".xsd") uri then Ok XmlParser
  else if ends_with (u ".xhtml") uri then Ok XhtmlParser
  else if ends_with (u ".htm") uri then Ok XhtmlParser
  else if ends_with (u ".html") uri then Ok XhtmlParser
  else Raise ValueError.

(** The cache directory (file name to text) and the parsed documents (normalised URI to tree). *)
Record cache (tree : Type) := Cache { files : list (str * str); trees : list (str * tree) }.
Arguments Cache {tree}. Arguments files {tree}. Arguments trees {tree}.
Definition empty_cache {tree} : cache tree := Cache [] [].

(** What the process sees of the outside world. *)
Record world (tree : Type) := World {
  w_urljoin : str -> str -> str;
  w_path : str -> str;
  w_remote : str -> option str;
  w_local : str -> option str;
  w_parse : parser_kind -> str -> option tree;
  w_order : list str -> list str }.
Arguments World {tree}. Arguments w_urljoin {tree}. Arguments w_path {tree}.
Arguments w_remote {tree}. Arguments w_local {tree}. Arguments w_parse {tree}. Arguments w_order {tree}.

(** A failure outside of the modelled code. *)
Definition or_error {A} (o : option A) : res A := match o with Some a => Ok a | None => Raise OSError end.

(** xml_service.py:47-57: the absolute URI of a reference, before rewriting *)
Definition absolute (urljoin : str -> str -> str) (uri referencing : str) : str :=
  if negb (is_http uri || is_http referencing) then
    let rsep := if mem_char backslash referencing then backslash else ch "/" in
    let usep := if mem_char backslash uri then backslash else ch "/" in
    join [usep] (removelast (split_char rsep referencing) ++ split_char usep uri)
  else urljoin referencing uri.

Section Load.
Context {tree : Type} (w : world tree) (r : rules).

Definition resolve (uri referencing : str) : str := rewrite r (absolute (w_urljoin w) uri referencing).

(** file_service.py:31-38, pyfs_file_repository.py:30-42 *)
Definition get_file (s : cache tree) (uri : str) : res str :=
  or_error (dict_get str_eqb (files s) (uri_to_filename uri)).
Definition has_file (s : cache tree) (uri : str) : bool := dict_mem str_eqb (files s) (uri_to_filename uri).
Definition add_file (s : cache tree) (uri : str) (text : str) : cache tree :=
  Cache (dict_set str_eqb (files s) (uri_to_filename uri) text) (trees s).

(** xml_repository.py:30-40 *)
Definition has_etree (s : cache tree) (uri : str) : bool := dict_mem str_eqb (trees s) (normalize_uri uri).
Definition add_etree (s : cache tree) (uri : str) (t : tree) : cache tree :=
  Cache (files s) (dict_set str_eqb (trees s) (normalize_uri uri) t).

(** xml_service.py:67-76 with file_service.py:40-68: the text given to the parser and the cache
    after it was fetched. *)
Definition fetch (s : cache tree) (remote : bool) (uri : str) : res (str * cache tree) :=
  if has_file s uri then (do! t <- get_file s uri; Ok (t, s))
  else if remote then
    do! t <- or_error (w_remote w uri);
    let s := add_file s uri t in
    do! t <- get_file s uri; Ok (t, s)
  else
    let path := w_path w uri in
    do! t <- or_error (w_local w path);
    let s := add_file s path t in
    do! t <- get_file s path; Ok (t, s).

(** [for x in l: s = f(x, s)] *)
Fixpoint for_each (f : str -> cache tree -> res (cache tree)) (l : list str) (s : cache tree) :=
  match l with
  | [] => Ok s
  | x :: l' => do! s <- f x s; for_each f l' s
  end.

(** xml_service.py:38-80 *)
Fixpoint add_etree_recursive (fuel : nat) (uri referencing : str) (s : cache tree) : res (cache tree) :=
  match fuel with
  | O => Raise OutOfFuel
  | S fuel =>
      let uri := resolve uri referencing in
      let remote := is_http uri || is_http referencing in
      if has_etree s uri then Ok s
      else
        do! p <- get_parser uri;
        do! fs <- fetch s remote uri;
        do! t <- or_error (w_parse w p (fst fs));
        let s := add_etree (snd fs) uri t in
        do! content <- get_file s uri;
        do! refs <- extract_references content;
        for_each (fun x => add_etree_recursive fuel x uri) (w_order w refs) s
  end.

(** factory.py:53-56 *)
Definition load_all (fuel : nat) (entrypoints : list str) (s : cache tree) : res (cache tree) :=
  for_each (fun x => add_etree_recursive fuel x (u ".")) entrypoints s.
End Load.

(** ** Contexts *)

Definition catalog_filepath : str := u "META-INF/catalog.xml".

(** factory.py:19-32: the first of the shortest paths (the sort is stable). *)
Definition get_catalog_filepath (filepaths : list str) : option str :=
  match filter (ends_with catalog_filepath) filepaths with
  | [] => None
  | p :: l => Some (fold_left (fun best q => if length q <? length best then q else best) l p)
  end.

(** [l.remove(x)] for a member of the list *)
Fixpoint remove_first (x : str) (l : list str) : list str :=
  match l with
  | [] => []
  | y :: l' => if str_eqb y x then l' else y :: remove_first x l'
  end.

(** factory.py:35-56 with [lxml.etree.parse] given by [parse_file]: the remaining entry points,
    the rules, the errors and the loaded documents. *)
Definition parse_catalog (parse_file : str -> option xml) (filepaths : list str)
  : res (list str * rules * repo xml) :=
  match get_catalog_filepath filepaths with
  | None | Some [] => Ok (filepaths, [], [])
  | Some p =>
      do! root <- or_error (parse_file p);
      do! re <- parse_catalog_xml p root [] [];
      Ok (remove_first p filepaths, fst re, snd re)
  end.

Definition create_filing_context {tree} (w : world tree) (parse_file : str -> option xml)
    (fuel : nat) (entrypoints : list str) : res (rules * repo xml * cache tree) :=
  do! x <- parse_catalog parse_file entrypoints;
  let '(paths, r, es) := x in
  do! s <- load_all w r fuel paths empty_cache;
  Ok (r, es, s).
