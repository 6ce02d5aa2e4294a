(** Types of the error tables (brel/errors). *)
From Verif Require Import Base.

(** brel/errors/severity.py:4-7 *)
Inductive severity := ERROR | WARNING | INFO.

(** brel/errors/area.py:4-21 *)
Inductive area :=
| SCHEMA_DEFINITION | GENERAL_INSTANCE | IXBRL_INSTANCE | XML_INSTANCE | JSON_INSTANCE
| CSV_INSTANCE | GENERAL_LINKBASE | CALCULATION_NETWORK | PRESENTATION_NETWORK
| DEFINITION_NETWORK | FOOTNOTE_NETWORK | LABEL_NETWORK | REFERENCE_NETWORK
| TAXONOMY_PACKAGE | REPORT_PACKAGE | VALIDATION | MISC.

(** The arguments of [ErrorInstance(...)] in one entry of
    brel/errors/error_factory_registry.py (the hint is left out): severity, area, numeric code,
    message template, XBRL error code (namespace, prefix, local name). *)
Record entry := Entry {
  en_severity : severity;
  en_area : area;
  en_code : string;
  en_message : string;
  en_xbrl : option (string * string * string) }.

(** One call [error_repository.insert(ErrorCode.X, ..., k1=..., k2=...)]: file, line, X, [k1; k2]. *)
Record site := Site {
  s_file : string;
  s_line : nat;
  s_code : string;
  s_kwargs : list string }.
