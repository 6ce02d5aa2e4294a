(** What is reported about the contexts and units of inline documents (C101). *)
From Verif Require Import Base PyNum QNameModel ErrModel CtxModel CtxSpec CtxReportSpec.

Definition id_of (x : xml) : str := str_opt (attr x (u "id")).
(** The identifier is one of these. *)
Definition used_again (ids : list str) (x : xml) : list notice :=
  report_unless (negb (existsb (str_eqb (id_of x)) ids)) (Report "IXBRL_DUPLICATE_ELEMENT_ID" x [(u "id", id_of x)]).

(** An identifier that is used again is reported; if it is that of a context that could be read, and this one
    can be read as well, twice. *)
Fixpoint contexts_reports (parse_date : str -> res date) (rep : repository) (taken seen : list str) (l : list xml) : list notice :=
  match l with
  | [] => []
  | x :: l =>
      used_again taken x ++ context_reports parse_date rep x ++
      (if context_readable x then used_again seen x else []) ++
      contexts_reports parse_date rep (id_of x :: taken) (if context_readable x then id_of x :: seen else seen) l
  end.
(** Of units likewise, whether or not this one can be read. *)
Fixpoint units_reports (taken seen : list str) (l : list xml) : list notice :=
  match l with
  | [] => []
  | x :: l =>
      used_again taken x ++ used_again seen x ++ unit_reports x (id_of x) ++
      units_reports (id_of x :: taken) (if unit_readable x then id_of x :: seen else seen) l
  end.
