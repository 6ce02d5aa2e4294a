(** What is expected of [open_edgar], in terms of the rows of the table of filings. *)
From Verif Require Import Base NumSpec EdgarModel.
Local Open Scope nat_scope.

(** A row of the table *)
Record row := Row { row_form : str; row_xbrl : str; row_date : str; row_accession : str; row_doc : str }.

(** The table with these rows *)
Definition table (rows : list row) : recent :=
  Recent (map row_form rows) (map row_xbrl rows) (map row_date rows) (map row_accession rows)
    (map row_doc rows).

(** The filings asked for *)
Definition wanted (type : str) (date : option str) (x : row) : Prop :=
  row_form x = type /\ row_xbrl x = u "1" /\ match date with Some d => row_date x = d | None => True end.

(** A date YYYY-MM-DD *)
Definition iso_date (s : str) (y m d : Z) : Prop :=
  exists a b c, s = a ++ u "-" ++ b ++ u "-" ++ c /\
    all_digits a /\ all_digits b /\ all_digits c /\ length a = 4 /\ length b = 2 /\ length c = 2 /\
    digits_val a = y /\ digits_val b = m /\ digits_val c = d.
Definition dated (x : row) : Prop := exists y m d, iso_date (row_date x) y m d.

(** Every filing that is asked for has a report date. *)
Definition all_dated (rows : list row) (type : str) (date : option str) : Prop :=
  forall x, In x rows -> wanted type date x -> dated x.

(** [s] is the day of [t] or a later one. *)
Definition not_before (s t : str) : Prop :=
  forall y m d y' m' d', iso_date s y m d -> iso_date t y' m' d' ->
    (y' < y \/ y' = y /\ (m' < m \/ m' = m /\ d' <= d))%Z.

(** The latest of the wanted filings, the first listed one of several of the same day *)
Definition latest (rows : list row) (type : str) (date : option str) (x : row) : Prop :=
  exists before after, rows = before ++ x :: after /\ wanted type date x /\
    (forall z, In z (before ++ after) -> wanted type date z -> not_before (row_date x) (row_date z)) /\
    (forall z, In z before -> wanted type date z -> row_date z <> row_date x).

(** The address of a filing in the archive: company number of ten characters, accession number
    without hyphens, document *)
Definition archive : str := u "https://www.sec.gov/Archives/edgar/data/".
Definition without_hyphens (s : str) : str := filter (fun c => negb (N.eqb c (ch "-"))) s.
Definition address (cik : str) (x : row) (doc : str) : str :=
  archive ++ repeat (ch "0") (10 - length cik) ++ cik ++ u "/" ++
  without_hyphens (row_accession x) ++ u "/" ++ doc.

(** Company numbers are written with digits *)
Definition company_number (cik : str) : Prop := all_digits cik /\ length cik <= 10.

(** Arguments that are accepted *)
Definition accepted {F} (w : world F) (cik type : str) (date : option str) : Prop :=
  company_number cik /\ (type = u "10-K" \/ type = u "10-Q" \/ type = u "8-K") /\
  match date with Some d => w_strptime w d = true | None => True end.

(** The metadata a call works with: a cached file younger than two days, else what the server
    sends *)
Definition works_with {F} (w : world F) (m : metadata) : Prop :=
  match w_cache w with
  | Some (age, c) => (age < 2 * 86400)%Z /\ m = c \/ (2 * 86400 <= age)%Z /\ w_server w = Some m
  | None => w_server w = Some m
  end.
