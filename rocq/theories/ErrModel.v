(** Model of brel/errors, brel/data/errors and the error getters of brel/brel_filing.py. *)
From Verif Require Import Base ErrBase ErrTable.

(** brel/errors/severity.py:4-7 *)
Definition severity_value (s : severity) : string :=
  match s with ERROR => "E" | WARNING => "W" | INFO => "I" end.

(** brel/errors/area.py:4-21 *)
Definition area_value (a : area) : string :=
  match a with
  | SCHEMA_DEFINITION => "SCH" | GENERAL_INSTANCE => "ING" | IXBRL_INSTANCE => "INI"
  | XML_INSTANCE => "INX" | JSON_INSTANCE => "INJ" | CSV_INSTANCE => "INC"
  | GENERAL_LINKBASE => "LNK" | CALCULATION_NETWORK => "CAL" | PRESENTATION_NETWORK => "PRE"
  | DEFINITION_NETWORK => "DEF" | FOOTNOTE_NETWORK => "FOO" | LABEL_NETWORK => "LAB"
  | REFERENCE_NETWORK => "REF" | TAXONOMY_PACKAGE => "TXP" | REPORT_PACKAGE => "RPK"
  | VALIDATION => "VAL" | MISC => "MSC"
  end.

(** Members of enums are compared by identity. *)
Definition severity_eqb (a b : severity) : bool :=
  match a, b with ERROR, ERROR | WARNING, WARNING | INFO, INFO => true | _, _ => false end.

Definition area_eqb (a b : area) : bool := String.eqb (area_value a) (area_value b).

(** Characters of a field name that [str.format] looks up directly as a keyword.  Other names
    (empty, numbers, with attributes or indices, with conversions or format specifications) are
    outside the model; [C43_templates_modelled] shows that no registered message has one. *)
Definition ident_char (c : N) : bool :=
  ((97 <=? c) && (c <=? 122) || (65 <=? c) && (c <=? 90) || (c =? 95))%N.

Definition ident (n : str) : bool :=
  match n with [] => false | _ => forallb ident_char n end.

(** [str.format] of the Python library, as used by brel/errors/error_instance.py:30.
    [field] is the name read so far when inside a replacement field. *)
Fixpoint format (kw : list (str * str)) (field : option str) (t : str) : res str :=
  match field with
  | None =>
      match t with
      | [] => Ok []
      | c :: t1 =>
          if (c =? ch "{")%N then
            match t1 with
            | [] => Raise ValueError
            | d :: t2 =>
                if (d =? ch "{")%N
                then (do! r <- format kw None t2; Ok (ch "{" :: r))
                else format kw (Some []) t1
            end
          else if (c =? ch "}")%N then
            match t1 with
            | [] => Raise ValueError
            | d :: t2 =>
                if (d =? ch "}")%N
                then (do! r <- format kw None t2; Ok (ch "}" :: r))
                else Raise ValueError
            end
          else (do! r <- format kw None t1; Ok (c :: r))
      end
  | Some n =>
      match t with
      | [] => Raise ValueError
      | c :: t1 =>
          if (c =? ch "{")%N then Raise ValueError
          else if (c =? ch "}")%N then
            if ident n then
              match dict_get str_eqb kw n with
              | None => Raise KeyError
              | Some v => do! r <- format kw None t1; Ok (v ++ r)
              end
            else Raise NotImplementedError
          else if mem_char c (u ":![") then Raise NotImplementedError
          else format kw (Some (n ++ [c])) t1
      end
  end.

(** brel/errors/error_instance.py:28-34 *)
Definition update_message (template : str) (kw : list (str * str)) : res str :=
  match format kw None template with
  | Raise KeyError => Raise ValueError
  | r => r
  end.

(** The registry is a dict literal: a later entry for a key replaces an earlier one
    (brel/errors/error_factory_registry.py:11). *)
Definition error_factory_registry : list (string * entry) :=
  fold_left (fun d kv => dict_set String.eqb d (fst kv) (snd kv)) registry [].

Section Errors.
(** Elements of the documents: the context of an error. *)
Variable elem : Type.

(** brel/errors/error_instance.py:11-26 (without the hint) *)
Record error := Error {
  er_severity : severity;
  er_area : area;
  er_code : str;
  er_message : str;
  er_xbrl : option (string * string * string);
  er_context : option elem }.

(** brel/errors/error_instance.py:60-74, qnames/qname.py [clark_notation] *)
Definition get_full_error_code (e : error) : str :=
  u (severity_value (er_severity e)) ++ u "-" ++ u (area_value (er_area e)) ++ u "-" ++ er_code e ++
  match er_xbrl e with
  | Some (uri, _, local) => u " [{" ++ u uri ++ u "}" ++ u local ++ u "]"
  | None => []
  end.

(** brel/errors/error_instance.py:76-77 *)
Definition error_str (e : error) : str := get_full_error_code e ++ u ": " ++ er_message e.

(** brel/data/errors/error_repository.py:35-50 *)
Definition create (code : string) (ctx : option elem) (kw : list (str * str)) : res error :=
  match dict_get String.eqb error_factory_registry code with
  | None => Raise ValueError
  | Some en =>
      do! m <- update_message (u (en_message en)) kw;
      Ok (Error (en_severity en) (en_area en) (u (en_code en)) m (en_xbrl en) ctx)
  end.

(** brel/data/errors/in_memory_error_repository.py:16-27 *)
Definition repo := list error.
Definition insert_premade (st : repo) (e : error) : repo := st ++ [e].
Definition get_all (st : repo) : list error := st.

(** brel/data/errors/error_repository.py:52-60: a failing [create] leaves the list as it was. *)
Definition insert (st : repo) (code : string) (ctx : option elem) (kw : list (str * str)) : res repo :=
  do! e <- create code ctx kw; Ok (insert_premade st e).

(** brel/data/errors/error_repository.py:62-65 *)
Definition upsert_if (st : repo) (cond : bool) (e : error) : repo :=
  if cond then insert_premade st e else st.

(** brel/data/errors/error_repository.py:67-69 *)
Definition get_by_severity (st : repo) (s : severity) : list error :=
  filter (fun e => severity_eqb (er_severity e) s) (get_all st).

(** brel/brel_filing.py:181-182 *)
Definition has_any_errors (st : repo) : bool := Nat.ltb 0 (length (get_all st)).
(** brel/brel_filing.py:184-188 *)
Definition get_all_errors (st : repo) : list error := get_all st.
(** brel/brel_filing.py:190-197 *)
Definition get_errors_by_area (st : repo) (a : area) : list error :=
  filter (fun e => area_eqb (er_area e) a) (get_all st).
(** brel/brel_filing.py:199-204 *)
Definition get_errors_by_severity (st : repo) (s : severity) : list error := get_by_severity st s.
(** brel/brel_filing.py:206-222 *)
Definition get_errors (st : repo) := get_errors_by_severity st ERROR.
Definition get_warnings (st : repo) := get_errors_by_severity st WARNING.
Definition get_infos (st : repo) := get_errors_by_severity st INFO.

(** What the parsers do with the repository: a failing [insert] raises and changes nothing. *)
Inductive op :=
| Insert (code : string) (ctx : option elem) (kw : list (str * str))
| InsertPremade (e : error)
| UpsertIf (cond : bool) (e : error)
| Clear.

Definition step (st : repo) (o : op) : repo :=
  match o with
  | Insert code ctx kw => match insert st code ctx kw with Ok st' => st' | Raise _ => st end
  | InsertPremade e => insert_premade st e
  | UpsertIf c e => upsert_if st c e
  | Clear => []
  end.

Definition run (st : repo) (ops : list op) : repo := fold_left step ops st.
End Errors.

Arguments er_severity {elem}. Arguments er_area {elem}. Arguments er_code {elem}.
Arguments er_message {elem}. Arguments er_xbrl {elem}. Arguments er_context {elem}.
Arguments get_full_error_code {elem}. Arguments error_str {elem}.
Arguments Error {elem}. Arguments create {elem}. Arguments insert {elem}.
Arguments insert_premade {elem}. Arguments get_all {elem}. Arguments upsert_if {elem}.
Arguments get_by_severity {elem}. Arguments has_any_errors {elem}. Arguments get_all_errors {elem}.
Arguments get_errors_by_area {elem}. Arguments get_errors_by_severity {elem}.
Arguments get_errors {elem}. Arguments get_warnings {elem}. Arguments get_infos {elem}.
Arguments Insert {elem}. Arguments InsertPremade {elem}. Arguments UpsertIf {elem}.
Arguments Clear {elem}. Arguments step {elem}. Arguments run {elem}.
