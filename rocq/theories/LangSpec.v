(** Languages, labels and translations: what a user expects (C28-C31, C52, C53). *)
From Verif Require Import Base QNameModel CtxModel CtxSpec LangModel.

(** ** Languages *)

(** The first occurrence of [x] comes before any of [y]. *)
Definition comes_first (x y : str) (l : list str) : Prop :=
  exists pre post, l = pre ++ x :: post /\ ~ In y pre.
Definition before (x y : str) (l : list str) : Prop :=
  exists pre mid post, l = pre ++ x :: mid ++ y :: post.

(** [l] is [all] with each language once, where it occurs first. *)
Definition without_repetition (all l : list str) : Prop :=
  NoDup l /\ (forall x, In x l <-> In x all) /\
  (forall x y, x <> y -> In x all -> In y all -> (before x y l <-> comes_first x y all)).

(** The languages of a setting; an empty text sets nothing. *)
Inductive set_to : option langs -> list str -> Prop :=
| set_none : set_to None []
| set_empty : set_to (Some (LStr [])) []
| set_one s : s <> [] -> set_to (Some (LStr s)) [s]
| set_list l : set_to (Some (LList l)) l.
Inductive passed_as : option langs -> list str -> Prop :=
| passed_none : passed_as None []
| passed_one s : passed_as (Some (LStr s)) [s]
| passed_list l : passed_as (Some (LList l)) l.
Inductive if_allowed : bool -> list str -> list str -> Prop :=
| allowed l : if_allowed true l l
| forbidden l : if_allowed false l [].
Inductive system_languages : option str -> list str -> Prop :=
| system_unknown : system_languages None []
| system_empty : system_languages (Some []) []
| system_known s : s <> [] -> system_languages (Some s) [s].

(** The order of preference: call, filing, library, system, report, no language. *)
Definition preference (filing library : params) (system : option str) (available : list str)
  (passed : option langs) (allow_system allow_report allow_default : bool) (all : list str) : Prop :=
  exists a b c s s' r d,
    passed_as passed a /\ set_to (p_langs filing) b /\ set_to (p_langs library) c /\
    system_languages system s /\ if_allowed allow_system s s' /\ if_allowed allow_report available r /\
    if_allowed allow_default [[]] d /\ all = a ++ b ++ c ++ s' ++ r ++ d.

(** ** Labels *)

Definition english : list str := [u "en"; u "en-US"; u "en-GB"; u "EN"; u "EN-US"; u "EN-GB"].

(** The first label of the first English variant that occurs, else the first label. *)
Definition main_label (labels : list label) (x : label) : Prop :=
  (exists v, first_with (fun v => exists l, In l labels /\ l_lang l = v) english v /\
             first_with (fun l => l_lang l = v) labels x) \/
  ((forall l, In l labels -> ~ In (l_lang l) english) /\ exists rest, labels = x :: rest).

(** ** Parameters *)

Inductive effective : option bool -> option bool -> option bool -> bool -> Prop :=
| from_call b f l : effective (Some b) f l b
| from_filing b l : effective None (Some b) l b
| from_library b : effective None None (Some b) b
| from_nowhere : effective None None None false.

(** ** Translations *)

(** What stands before the first dash. *)
Definition language_of (s p : str) : Prop :=
  ~ In (ch "-") p /\ (s = p \/ exists r, s = p ++ ch "-" :: r).

Definition same_language (lower : str -> str) (match_locale : bool) (a b : str) : Prop :=
  if match_locale then lower a = lower b
  else exists p, language_of (lower a) p /\ language_of (lower b) p.

(** The language [l] gives the text [s] for the key [q]. *)
Inductive answers (lower : str -> str) (match_locale : bool) (t : translations) (q : qname) : str -> str -> Prop :=
| answers_default : answers lower match_locale t q [] (q_local q)
| answers_unknown l : (forall d, ~ In (q, d) t) -> answers lower match_locale t q l (q_local q)
| answers_entry l d e : l <> [] -> In (q, d) t ->
    first_with (fun e => same_language lower match_locale l (fst e)) d e ->
    answers lower match_locale t q l (snd e).

Inductive label_answers (lower : str -> str) (match_locale : bool) (labels : list label) (default : str)
  : str -> str -> Prop :=
| label_default : label_answers lower match_locale labels default [] default
| label_entry l x : l <> [] ->
    first_with (fun x => same_language lower match_locale l (l_lang x)) labels x ->
    label_answers lower match_locale labels default l (l_text x).

(** The first language with an answer decides. *)
Definition first_answer (ans : str -> str -> Prop) (languages : list str) (s : str) : Prop :=
  exists l, first_with (fun l => exists s', ans l s') languages l /\ ans l s.

(** The name of a text in the file of translations: [kind] and what stands before the first colon. *)
Definition text_name (kind : string) (name : str) (q : qname) : Prop :=
  exists n, ~ In (ch ":") n /\ (name = n \/ exists r, name = n ++ ch ":" :: r) /\
    q = QName (u "http://www.brel.com/translations/" ++ u kind) [] n.
Definition word (lower : str -> str) (match_locale : bool) (t : translations) (languages : list str) (kind : string) (name v : str) : Prop :=
  exists q, text_name kind name q /\ first_answer (answers lower match_locale t q) languages v.
(** The translated value of a characteristic: concepts and members have labels, units are in the file of
    translations, the rest is shown as it is. *)
Inductive translated (lower : str -> str) (match_locale : bool) (t : translations) (labels_of : element -> list label) (languages : list str)
  : characteristic -> str -> Prop :=
| tr_concept e v : first_answer (label_answers lower match_locale (labels_of e) (q_local (e_name e))) languages v ->
    translated lower match_locale t labels_of languages (ChConcept e) v
| tr_member d e a v : first_answer (label_answers lower match_locale (labels_of e) (q_local (e_name e))) languages v ->
    translated lower match_locale t labels_of languages (ChExplicit d e a) v
| tr_unit n ns ds v : word lower match_locale t languages "unit" n v -> translated lower match_locale t labels_of languages (ChUnit n ns ds) v
| tr_entity i s : translated lower match_locale t labels_of languages (ChEntity i s) (u "{" ++ s ++ u "}" ++ i)
| tr_period p : translated lower match_locale t labels_of languages (ChPeriod p) (value_str (ChPeriod p))
| tr_typed d v a : translated lower match_locale t labels_of languages (ChTyped d v a) v.

(** A line of the file of translations. *)
Definition line_for (q : qname) (key : str) (line : list str) : Prop :=
  exists ns local language locale text more,
    line = ns :: local :: language :: locale :: text :: more /\
    q = QName ns [] local /\ key = language ++ ch "-" :: locale.
Definition line_text (line : list str) : str := nth 4 line [].

(** ** Tables *)
Definition rows_in {A R} (convert : A -> list str -> res R) (languages : list str) (elements : list A)
  (rows : list R) : Prop := Forall2 (fun x r => convert x languages = Ok r) elements rows.
Definition fails_in {A R} (convert : A -> list str -> res R) (elements : list A) (language : str) : Prop :=
  exists x e, In x elements /\ convert x [language] = Raise e.
