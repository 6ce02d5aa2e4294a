(** Model of languages, labels, translations and output parameters:
    brel_filing.py (BF), config/brel_config.py (BC), services/translation/translation_service.py (TS),
    reportelements/i_report_element.py (RE), characteristics/brel_aspect.py (BA), brel_context.py (BX),
    brel_fact.py (FA).

    Simplifications:
    - [str.lower] is a parameter;
    - the languages that occur in the report are an argument; the code lists a set, in any order;
    - the rows of translations.csv are given as lists of fields;
    - rows of data frames are dictionaries of texts. *)
From Verif Require Import Base QNameModel CtxModel.

(** ** Labels *)

(** resource/brel_label.py:20-51 *)
Record label := Label { l_text : str; l_label : str; l_lang : str; l_role : str }.
(** brel_label.py:18: STANDARD_LABEL_ROLE *)
Definition standard_role : str := u "http://www.xbrl.org/2003/role/label".
Definition no_label : label := Label (u "NO_LABEL") [] [] standard_role.

(** RE 83-89, BA 78-82 *)
Definition has_label_with_language (labels : list label) (language : str) : bool :=
  existsb (fun l => str_eqb (l_lang l) language) labels.

(** [next((label for label in labels if label.get_language() == language), labels[0])] *)
Definition first_of_language (labels : list label) (language : str) (default : label) : label :=
  match find (fun l => str_eqb (l_lang l) language) labels with Some l => l | None => default end.

(** RE 91-130, BA 84-126 *)
Definition select_main_label (labels : list label) : label :=
  match labels with
  | [] => no_label
  | l0 :: _ =>
      if has_label_with_language labels (u "en") then first_of_language labels (u "en") l0
      else if has_label_with_language labels (u "en-US") then first_of_language labels (u "en-US") l0
      else if has_label_with_language labels (u "en-GB") then first_of_language labels (u "en-GB") l0
      else if has_label_with_language labels (u "EN") then first_of_language labels (u "EN") l0
      else if has_label_with_language labels (u "EN-US") then first_of_language labels (u "EN-US") l0
      else if has_label_with_language labels (u "EN-GB") then first_of_language labels (u "EN-GB") l0
      else l0
  end.

(** ** Output parameters *)

(** output_params.py: [languages] is a string or a list *)
Inductive langs := LStr (s : str) | LList (l : list str).
Inductive flag := MatchLocale | AllowMixed | AllowDefault | AllowSystem | AllowReport.
Record params := Params { p_langs : option langs; p_flags : flag -> option bool }.
Definition no_params : params := Params None (fun _ => None).
(** BC 8-17 *)
Definition initial_library : params := Params (Some (LList [])) (fun _ => Some true).

(** [x or []], then strings become lists; BF 112-118, BC 20-21 *)
Definition languages_or_empty (x : option langs) : list str :=
  match x with
  | None | Some (LStr []) => []
  | Some (LStr s) => [s]
  | Some (LList l) => l
  end.
(** BF 106-109 *)
Definition function_languages (x : option langs) : list str :=
  match x with None => [] | Some (LStr s) => [s] | Some (LList l) => l end.

(** BF 141-146 *)
Fixpoint deduplicate (seen : list str) (l : list str) : list str :=
  match l with
  | [] => []
  | x :: l' => if existsb (str_eqb x) seen then deduplicate seen l' else x :: deduplicate (x :: seen) l'
  end.

(** BF 99-148 *)
Definition get_preferred_languages (filing library : params) (system : option str) (available : list str)
  (passed : option langs) (allow_report allow_system allow_default : bool) : list str :=
  let system_list := match system with
    | Some (c :: s) => if allow_system then [c :: s] else []
    | _ => [] end in
  deduplicate []
    (function_languages passed ++ languages_or_empty (p_langs filing) ++ languages_or_empty (p_langs library)
     ++ system_list ++ (if allow_report then available else []) ++ (if allow_default then [[]] else [])).

(** BF 531-545; BC 33-37 *)
Definition get_preferred_output_parameter (filing library : params) (passed : option bool) (f : flag) : bool :=
  match passed with
  | Some b => b
  | None => match p_flags filing f with
            | Some b => b
            | None => match p_flags library f with Some b => b | None => false end
            end
  end.

(** BF 547-584: the flags for the system and for the report are passed in the wrong order *)
Definition infer_output_params (filing library : params) (system : option str) (available : list str)
  (passed : params) : params :=
  let eff f := get_preferred_output_parameter filing library (p_flags passed f) f in
  let languages := get_preferred_languages filing library system available (p_langs passed)
                     (eff AllowSystem) (eff AllowReport) (eff AllowDefault) in
  Params (Some (LList languages)) (fun f => Some (eff f)).

(** BF 586-591, BC 29-31: the parameters are replaced *)
Definition set_output_params (old new : params) : params := new.

(** ** Translations *)

Definition translations := list (qname * list (str * str)).

(** TS 26-45: each line is a list of fields; the first is the header *)
Definition load_line (t : translations) (line : list str) : res translations :=
  match line with
  | ns :: local :: language :: locale :: text :: _ =>
      let q := QName ns [] local in
      let d := match dict_get qname_eqb t q with Some d => d | None => [] end in
      Ok (dict_set qname_eqb t q (dict_set str_eqb d (language ++ u "-" ++ locale) text))
  | _ => Raise IndexError
  end.
Fixpoint load_lines (t : translations) (lines : list (list str)) : res translations :=
  match lines with
  | [] => Ok t
  | x :: lines' => do! t' <- load_line t x ; load_lines t' lines'
  end.
(** TS 21-45 *)
Definition load_from_csv (override : bool) (t : translations) (file : list (list str)) : res translations :=
  load_lines (if override then [] else t) (tl file).

Section Translate.
Variable lower : str -> str.
(** [__match_locale] *)
Variable match_locale : bool.

Definition language_part (s : str) : str := match split_char (ch "-") s with x :: _ => x | [] => [] end.

(** TS 47-55 *)
Definition languages_match (requested available : str) : bool :=
  let r := lower requested in
  let a := lower available in
  if match_locale then str_eqb r a else str_eqb (language_part r) (language_part a).

(** TS 57-79 *)
Definition get_single (t : translations) (q : qname) (language : str) : res str :=
  match language with
  | [] => Ok (q_local q)
  | _ =>
      match dict_get qname_eqb t q with
      | None => Ok (q_local q)
      | Some d =>
          match find (fun e => languages_match (lower language) (fst e)) d with
          | Some e => Ok (snd e)
          | None => Raise KeyError
          end
      end
  end.

(** TS 97-105: [except:] catches all *)
Fixpoint get_first (t : translations) (q : qname) (languages : list str) : res str :=
  match languages with
  | [] => Raise KeyError
  | l :: rest => match get_single t q l with Ok s => Ok s | Raise _ => get_first t q rest end
  end.

(** TS 81-105 for a text; [base] is the default *)
Definition base : str := u "http://www.brel.com/translations/".
Definition get_text (t : translations) (key : str) (languages : list str) : res str :=
  match split_char (ch ":") key with
  | p :: l :: _ => get_first t (QName (base ++ p) [] l) languages
  | _ => Raise IndexError
  end.

(** TS 130-146 *)
Definition get_label_with_language (labels : list label) (language : str) (default : label) : option label :=
  match language with
  | [] => Some default
  | _ => find (fun l => languages_match language (l_lang l)) labels
  end.

(** TS 107-128 *)
Fixpoint label_for (labels : list label) (languages : list str) (default : label) : res str :=
  match languages with
  | [] => Raise ValueError
  | l :: rest => match get_label_with_language labels l default with
                 | Some x => Ok (l_text x)
                 | None => label_for labels rest default
                 end
  end.
Definition get_from_labels (labels : list label) (languages : list str) (default : str) : res str :=
  label_for labels languages (Label default [] [] standard_role).

(** ** Rows of tables *)

Variable t : translations.
(** The labels of concepts and members, and of aspects. *)
Variable labels_of : element -> list label.
Variable aspect_labels : str -> list label.

(** concept_characteristic.py:36-43, explicit_dimension_characteristic.py:53-59,
    unit_characteristic.py:76-79, i_characteristic.py:66-69 *)
Definition localized_value (c : characteristic) (languages : list str) : res str :=
  match c with
  | ChConcept e | ChExplicit _ e _ => get_from_labels (labels_of e) languages (q_local (e_name e))
  | ChUnit n _ _ => get_text t (u "unit:" ++ n) languages
  | _ => Ok (value_str c)
  end.

(** BX 92-116 *)
Definition localized_characteristic (c : context) (a : str) (languages : list str) : res str :=
  match get_characteristic c a with
  | None => get_text t (u "literal:none") languages
  | Some x => localized_value x languages
  end.

(** BX 222-240, with languages *)
Fixpoint localized_aspects (c : context) (languages : list str) (aspects : list str) (row : list (str * str))
  : res (list (str * str)) :=
  match aspects with
  | [] => Ok row
  | a :: rest =>
      do! key <- get_from_labels (aspect_labels a) languages a ;
      do! value <- localized_characteristic c a languages ;
      localized_aspects c languages rest (dict_set str_eqb row key value)
  end.

(** FA 225-256 and BX 206-240; without languages as in CtxModel *)
Definition localized_fact (f : fact) (languages : list str) : res (list (str * str)) :=
  match languages with
  | [] => Ok (fact_to_dict f)
  | _ =>
      do! row <- localized_aspects (f_context f) languages (c_aspects (f_context f)) [] ;
      do! id_literal <- get_text t (u "literal:id") languages ;
      do! value_literal <- get_text t (u "literal:value") languages ;
      do! row' <- (match f_id f with
                   | Some (c :: i) => Ok (dict_set str_eqb row id_literal (c :: i))
                   | _ => do! none <- get_text t (u "literal:none") languages ;
                          Ok (dict_set str_eqb row id_literal none)
                   end) ;
      Ok (dict_set str_eqb row' value_literal (f_value f))
  end.
End Translate.

(** BA 141-173: the labels of the four core aspects; other aspects are made without labels (xml_parse_explicit_dimension.py:52,
    xml_parse_typed_dimension.py:64) *)
Definition core_label (text name lang : string) : label := Label (u text) (u name) (u lang) standard_role.
Definition core_aspect_labels (a : str) : list label :=
  if str_eqb a a_concept then
    [core_label "Concept [Axis]" "concept" "en-US"; core_label "Concept [Axe]" "concept" "fr-FR";
     core_label "Konzept [Achse]" "concept" "de-DE"; core_label "Concepto [Eje]" "concept" "es-ES"]
  else if str_eqb a a_period then
    [core_label "Period [Axis]" "period" "en-US"; Label (u "P" ++ 233%N :: u "riode [Axe]") (u "period") (u "fr-FR") standard_role;
     core_label "Periode [Achse]" "period" "de-DE"; core_label "Periodo [Eje]" "period" "es-ES"]
  else if str_eqb a a_entity then
    [core_label "Entity [Axis]" "entity" "en-US"; Label (u "Entit" ++ 233%N :: u " [Axe]") (u "entity") (u "fr-FR") standard_role;
     core_label "Organisation [Achse]" "entity" "de-DE"; core_label "Entidad [Eje]" "entity" "es-ES"]
  else if str_eqb a a_unit then
    [core_label "Unit [Axis]" "unit" "en-US"; Label (u "Unit" ++ 233%N :: u " [Axe]") (u "unit") (u "fr-FR") standard_role;
     core_label "Einheit [Achse]" "unit" "de-DE"; core_label "Unidad [Eje]" "unit" "es-ES"]
  else [].

(** ** Data frames: BF 498-529 *)
Section Frame.
Context {A R : Type}.
(** [element.convert_to_dict(languages, translation_service)] *)
Variable convert : A -> list str -> res R.

(** BF 520-526: the loop over the elements for one language *)
Fixpoint add_rows (language : str) (elements : list A) (data : list R) : list R :=
  match elements with
  | [] => data
  | x :: rest =>
      match convert x [language] with
      | Ok d => add_rows language rest (data ++ [d])
      | Raise _ => []
      end
  end.

Definition generate_rows (allow_mixed : bool) (languages : list str) (elements : list A) : res (list R) :=
  if allow_mixed then map_res (fun x => convert x languages) elements
  else Ok (fold_left (fun data l => add_rows l elements data) languages []).
End Frame.
