(** Model of opening a filing, from the path to the filing: brel/brel_filing.py:82-93 (Filing.open), with
    brel/parsers/filing_parser.py:40-50 (FilingParser.parse) and brel/parsers/factory.py:15-20.

    Simplifications: those of OpenModel, FilingModel and InlineFilingModel, which are put together here.
    A session that fails leaves files in the cache; SessionModel says which. *)
From Coq Require Import QArith.
From Verif Require Import Base QNameModel ErrBase ErrModel DateModel CtxModel DtsModel OpenModel.
From Verif Require TextModel FootModel NetModel FilingModel InlineFilingModel.
Local Open Scope nat_scope.

(** The calls of other libraries (see InlineFilingModel) *)
Record library := Library {
  lb_env : FootModel.env;
  lb_tostring : TextModel.xml -> str;
  lb_date : str -> res date;
  lb_float : str -> option bool;
  lb_era : list (part * str) -> res bool;
  lb_str : xml -> str;
  lb_number : str -> Q }.
(** The orders of sets and of the sort of networks (see FilingModel) *)
Record set_orders := SetOrders {
  so_edges : nat -> list NetModel.edge -> list NetModel.edge;
  so_roots : nat -> list nat -> list nat;
  so_shuffle : list nat -> list nat }.

Inductive opened := OpenedXml (f : FilingModel.filing) | OpenedInline (f : InlineFilingModel.inline_filing).

(** filing_parser.py:40-50, parsers/factory.py:15-20: the documents of an XML filing are seen without
    the texts between elements. *)
Definition parse_opened (lib : library) (so : set_orders) (fuel : nat) (kind : filing_kind)
    (docs : list (str * InlineFilingModel.tree)) (es : repo xml) : res opened :=
  match kind with
  | XmlFiling =>
      do! f <- FilingModel.parse_filing (lb_date lib) (lb_str lib) (lb_number lib) (so_edges so) (so_roots so) fuel (so_shuffle so)
                 (map (fun p => (fst p, InlineFilingModel.plain (snd p))) docs) es ;
      Ok (OpenedXml f)
  | XhtmlFiling =>
      do! f <- InlineFilingModel.parse_inline_filing (lb_env lib) (lb_tostring lib) fuel (lb_date lib) (lb_float lib) (lb_era lib)
                 (lb_str lib) (lb_number lib) (so_edges so) (so_roots so) (so_shuffle so) docs es ;
      Ok (OpenedInline f)
  end.

(** brel_filing.py:82-93: the filing and the files that are in the cache afterwards *)
Definition open_filing (lib : library) (so : set_orders) (fs : fsys) (w : world InlineFilingModel.tree) (parse_file : str -> option xml)
    (fuel : nat) (cached : list (str * str)) (path : str) : res (opened * list (str * str)) :=
  do! x <- open_path fs w parse_file fuel cached path ;
  let '(kind, (_, es, s)) := x in
  do! f <- parse_opened lib so fuel kind (trees s) es ;
  Ok (f, files s).
