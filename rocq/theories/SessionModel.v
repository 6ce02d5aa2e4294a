(** Model of what a session leaves in the cache directory, whether it ends well or not:
    brel/services/xml/xml_service.py:38-80, brel/services/file/file_service.py:31-68,
    brel/contexts/factory.py:53-56 and brel/brel_filing.py:82-93.

    [DtsModel] and [OpenFilingModel] say what these functions return; here an exception comes with the
    cache as it was when it was raised ([SessionProofs.try_opens]: otherwise they do the same).
    Simplifications: those of DtsModel; a text is written to a file of the cache as a whole or not at all. *)
From Verif Require Import Base QNameModel ErrBase ErrModel CtxModel DtsModel OpenModel OpenFilingModel.

Section Try.
Context {tree : Type} (w : world tree) (r : rules).

(** xml_service.py:67-76 with file_service.py:40-68: a document that cannot be fetched leaves the cache as it is. *)
Definition fetch_try (s : cache tree) (remote : bool) (uri : str) : res str * cache tree :=
  if has_file s uri then (get_file s uri, s)
  else if remote then
    match w_remote w uri with
    | None => (Raise OSError, s)
    | Some t => let s := add_file s uri t in (get_file s uri, s)
    end
  else
    let path := w_path w uri in
    match w_local w path with
    | None => (Raise OSError, s)
    | Some t => let s := add_file s path t in (get_file s path, s)
    end.

(** [for x in l: f(x)] *)
Fixpoint each_try (f : str -> cache tree -> res unit * cache tree) (l : list str) (s : cache tree) : res unit * cache tree :=
  match l with
  | [] => (Ok tt, s)
  | x :: l' => let (o, s) := f x s in match o with Ok _ => each_try f l' s | Raise e => (Raise e, s) end
  end.

(** xml_service.py:38-80 *)
Fixpoint add_etree_try (fuel : nat) (uri referencing : str) (s : cache tree) : res unit * cache tree :=
  match fuel with
  | O => (Raise OutOfFuel, s)
  | S fuel =>
      let uri := resolve w r uri referencing in
      let remote := is_http uri || is_http referencing in
      if has_etree s uri then (Ok tt, s)
      else
        match get_parser uri with
        | Raise e => (Raise e, s)
        | Ok p =>
            let (o, s) := fetch_try s remote uri in
            match o with
            | Raise e => (Raise e, s)
            | Ok text =>
                match w_parse w p text with
                | None => (Raise OSError, s)
                | Some t =>
                    let s := add_etree s uri t in
                    match (do! content <- get_file s uri ; extract_references content) with
                    | Raise e => (Raise e, s)
                    | Ok refs => each_try (fun x => add_etree_try fuel x uri) (w_order w refs) s
                    end
                end
            end
        end
  end.

(** factory.py:53-56 *)
Definition load_all_try (fuel : nat) (entrypoints : list str) (s : cache tree) : res unit * cache tree :=
  each_try (fun x => add_etree_try fuel x (u ".")) entrypoints s.
End Try.

(** brel_filing.py:82-93 with filing_parser_factory.py:20-48: the files that are in the cache after the
    path was opened or could not be opened. The loader, the catalog and the parsers of a filing leave it as it is. *)
Definition files_left {tree} (fs : fsys) (w : world tree) (parse_file : str -> option xml) (fuel : nat)
    (cached : list (str * str)) (path : str) : list (str * str) :=
  match load_path fs fuel path with
  | Raise _ | Ok [] => cached
  | Ok l =>
      match parse_catalog parse_file l with
      | Raise _ => cached
      | Ok (paths, r, _) => files (snd (load_all_try w r fuel paths (Cache cached [])))
      end
  end.
