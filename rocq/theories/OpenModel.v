(** Model of opening a path: brel/brel_filing.py:82-93 (Filing.open), brel/parsers/path_loaders/
    and brel/parsers/filing_parser_factory.py.

    Simplifications:
    - the file system and archives are given by [fsys]; listing a directory never fails;
    - errors of reading an archive are [OSError], whatever their Python class;
    - the parser is represented by its kind and the context it is made for; what it then does is
      the subject of the other models;
    - Python's [RecursionError] is [OutOfFuel]. *)
From Verif Require Import Base Regex QNameModel ErrBase ErrTable ErrModel CtxModel DtsModel.

(** ** Path loaders *)

Record fsys := Fsys {
  fs_isfile : str -> bool;            (* os.path.isfile *)
  fs_isdir : str -> bool;             (* os.path.isdir *)
  fs_list : str -> list str;          (* os.listdir *)
  fs_zip : str -> option (list str)   (* ZipFile(path).namelist() *) }.

(** [s.endswith((a, b, ...))] *)
Definition ends_any (suffixes : list str) (s : str) : bool := existsb (fun e => ends_with e s) suffixes.

(** file_path_loader.py:16-30 *)
Definition file_loader_for (fs : fsys) (path : str) : bool :=
  ends_any [u ".xml"; u ".xhtml"] path &&
  (fs_isfile fs path || (starts_with (u "http://") path || starts_with (u "https://") path)).

(** folder_path_loader.py:34-39: the path of an entry *)
Definition entry_path (path name : str) : str :=
  let sep := if mem_char (ch "/") path then ch "/" else backslash in
  join (u "/") (split_char sep path ++ [name]).

(** folder_path_loader.py:49 (one suffix lacks its full stop) *)
Definition folder_suffixes : list str := [u ".xml"; u ".xhtml"; u ".htm"; u "html"; u ".xsd"].

(** folder_path_loader.py:27-63 *)
Fixpoint load_folder (fs : fsys) (fuel : nat) (path : str) : res (list str) :=
  match fuel with
  | O => Raise OutOfFuel
  | S fuel =>
      let entries := map (entry_path path) (fs_list fs path) in
      let found := filter (ends_any folder_suffixes) (filter (fs_isfile fs) entries) in
      do! sub <- map_res (load_folder fs fuel) (filter (fs_isdir fs) entries);
      Ok (found ++ concat sub)
  end.

(** zip_path_loader.py:16-25 *)
Definition zip_loader_for (path : str) : bool := ends_with (u ".zip") path.
Definition load_zip (fs : fsys) (path : str) : res (list str) :=
  do! names <- or_error (fs_zip fs path); Ok (filter (ends_any [u ".xml"; u ".xhtml"]) names).

(** path_loaders/factory.py:7-8, path_loader_resolver.py:18-23, file_path_loader.py:32-39 *)
Definition load_path (fs : fsys) (fuel : nat) (path : str) : res (list str) :=
  if file_loader_for fs path then Ok [path]
  else if fs_isdir fs path then load_folder fs fuel path
  else if zip_loader_for path then load_zip fs path
  else Raise ValueError.

(** ** The parser *)

Inductive filing_kind := XmlFiling | XhtmlFiling.

Definition is_xml_file (file : str) : bool := ends_with (u ".xml") file || ends_with (u ".xsd") file.
Definition is_known_file (file : str) : bool :=
  ends_with (u ".xml") file || ends_with (u ".xsd") file || ends_with (u ".htm") file ||
  ends_with (u ".html") file || ends_with (u ".xhtml") file.

(** contexts/factory.py:49-56 (see [DtsModel.create_filing_context]); the cache directory has
    content from earlier sessions (data/factory.py:87-89).  The list of files is changed by
    parse_catalog: the catalog is taken out. *)
Definition open_context {tree} (w : world tree) (parse_file : str -> option xml) (fuel : nat)
    (cached : list (str * str)) (files : list str) : res (list str * (rules * repo xml * cache tree)) :=
  do! x <- parse_catalog parse_file files;
  let '(paths, r, es) := x in
  do! s <- load_all w r fuel paths (Cache cached []);
  Ok (paths, (r, es, s)).

(** filing_parser_factory.py:20-48 *)
Definition create_parser {tree} (w : world tree) (parse_file : str -> option xml) (fuel : nat)
    (cached : list (str * str)) (files : list str) : res (filing_kind * (rules * repo xml * cache tree)) :=
  match files with
  | [] => Raise ValueError
  | _ =>
      do! x <- open_context w parse_file fuel cached files;
      let (files, ctx) := x in
      if forallb is_xml_file files then Ok (XmlFiling, ctx)
      else if forallb is_known_file files then Ok (XhtmlFiling, ctx)
      else Raise ValueError
  end.

(** brel_filing.py:82-93; a ValueError of the loader is raised again as ValueError. *)
Definition open_path {tree} (fs : fsys) (w : world tree) (parse_file : str -> option xml) (fuel : nat)
    (cached : list (str * str)) (path : str) : res (filing_kind * (rules * repo xml * cache tree)) :=
  do! files <- load_path fs fuel path;
  create_parser w parse_file fuel cached files.
