(** Model of the date and literal part of the iXBRL transformation registry,
    brel/parsers/XHMTL/xhtml_parse_transformation_registry.py (TR). *)
From Verif Require Import Base Regex Registry PyNum NumModel.

(** Keys of the dictionaries of date parts: "day", "month", "year", "era". *)
Inductive part := Day | Month | Year | Era.
Definition part_eqb (a b : part) : bool :=
  match a, b with
  | Day, Day | Month, Month | Year, Year | Era, Era => true
  | _, _ => false
  end.
Definition part_of (key : str) : part :=
  if str_eqb key (u "day") then Day
  else if str_eqb key (u "month") then Month
  else if str_eqb key (u "year") then Year
  else Era.

(** TR 604-629 match_regex_date_fact_value *)
Definition match_regex_date_fact_value (value format : str) : option (caps * nat) * log :=
  match dict_get str_eqb date_format_to_regex format with
  | None => (None, ["UNSUPPORTED_DATE_FORMAT"%string])
  | Some (r, n) =>
      match re_match r value with
      | None => (None, ["DATE_DOES_NOT_MATCH_EXPECTED_FORMAT"%string])
      | Some c => (Some (c, n), [])
      end
  end.

(** TR 632-649 parse_date_match: the order of the parts ... *)
Definition date_order (format : str) (is_recurring is_full : bool) : list part :=
  match dict_get str_eqb irregular_date_order_dict format with
  | Some o => map part_of o
  | None => (if is_recurring || is_full then [Day] else []) ++ [Month]
            ++ (if is_recurring then [] else [Year])
  end.
(** ... and the loop over it; a group that did not take part in the match is [None]. *)
Fixpoint read_groups (order : list part) (i : nat) (c : caps) (ngroups : nat)
  (acc : list (part * option str)) : res (list (part * option str)) :=
  match order with
  | [] => Ok acc
  | p :: order' =>
      do! g <- group ngroups c i ;
      read_groups order' (S i) c ngroups (dict_set part_eqb acc p g)
  end.

(** TR 688: normalise the digits of every part; iterating over [None] raises TypeError. *)
Fixpoint normalize_parts (ps : list (part * option str)) : res (list (part * str)) :=
  match ps with
  | [] => Ok []
  | (p, None) :: _ => Raise TypeError
  | (p, Some s) :: ps' =>
      do! rest <- normalize_parts ps' ; Ok ((p, normalize_digits_in_string s) :: rest)
  end.

Definition get_part (ps : list (part * str)) (p : part) : res str :=
  match dict_get part_eqb ps p with Some s => Ok s | None => Raise KeyError end.

Definition py_int_res (s : str) : res Z :=
  match py_int s with Some z => Ok z | None => Raise ValueError end.

(** TR 652-661 convert_japanese_imperial_date_to_gregorian *)
Definition convert_japanese (ps : list (part * str)) : res (list (part * str)) :=
  do! era <- get_part ps Era ;
  match dict_get str_eqb japanese_era_to_gregorian_period era with
  | None => Raise KeyError
  | Some ((y0, _, _), _) =>
      do! year <- get_part ps Year ;
      do! off <- (if str_eqb year (u "元") then Ok 1%Z else py_int_res year) ;
      Ok (dict_set part_eqb ps Year (z_to_str (Z.of_N y0 + off - 1)))
  end.

(** ["{:02n}".format(z)] *)
Definition fmt02 (z : Z) : str :=
  if ((0 <=? z) && (z <? 10))%Z then 48%N :: z_to_str z else z_to_str z.

(** [str.lower()], see [Registry.lower_table] *)
Definition lower_char (c : N) : N :=
  match dict_get N.eqb lower_table c with Some d => d | None => c end.
Definition lower (s : str) : str := map lower_char s.

(** TR 707-711: [fact_format[-2:] if fact_format[-3] == "-" else None] *)
Definition country_of (format : str) : res (option str) :=
  match rev format with
  | a :: b :: c :: _ => Ok (if N.eqb c 45 then Some [b; a]
                            else if contains (u "monthroman") format then Some (u "roman") else None)
  | _ => Raise IndexError
  end.

(** TR 716-719: index of the first month one of whose names is [name] *)
Fixpoint month_index (names : list (list str)) (name : str) (i : nat) : option nat :=
  match names with
  | [] => None
  | l :: names' => if existsb (str_eqb name) l then Some (S i) else month_index names' name (S i)
  end.

Definition indian_format : str := u "ixt:date-ind-day-monthname-year-hi".

(** TR 687-728 normalize_date_parts.  For the Indian national calendar (TR 722-725) the callee
    reads key "year" of the dictionary under construction, where it has not been stored yet
    (TR 664-672): KeyError. *)
Definition normalize_date_parts (raw : list (part * option str)) (format : str)
  : res (list (part * str)) :=
  do! ps <- normalize_parts raw ;
  do! ps <- (if contains (u "jpn") format then convert_japanese ps else Ok ps) ;
  do! out <- (match dict_get part_eqb ps Day with
              | Some d => do! z <- py_int_res d ; Ok [(Day, fmt02 z)]
              | None => Ok []
              end) ;
  do! out <- (match dict_get part_eqb ps Month with
              | Some m =>
                  do! country <- country_of format ;
                  match dict_get (opt_eqb str_eqb) country_to_month_names country with
                  | None => Raise KeyError
                  | Some names =>
                      match month_index names (lower m) 0 with
                      | Some i => Ok (dict_set part_eqb out Month (fmt02 (Z.of_nat i)))
                      | None => Ok out
                      end
                  end
              | None => Ok out
              end) ;
  match dict_get part_eqb ps Year with
  | Some y =>
      if str_eqb format indian_format then Raise KeyError
      else if Nat.eqb (length y) 2 then Ok (dict_set part_eqb out Year (u "20" ++ y))
      else if Nat.eqb (length y) 1 then Ok (dict_set part_eqb out Year (u "200" ++ y))
      else Ok (dict_set part_eqb out Year y)
  | None => Ok out
  end.

(** [datetime.date.fromisoformat] on the strings built at TR 794, i.e.
    year "-" two characters "-" two characters: accepted exactly when the string is
    YYYY-MM-DD with ASCII digits and names a day of the proleptic Gregorian calendar,
    years 1 to 9999. *)
Definition dig (c : N) : option Z :=
  if ((48 <=? c) && (c <=? 57))%N then Some (Z.of_N c - 48)%Z else None.
Definition is_leap (y : Z) : bool :=
  ((y mod 4 =? 0) && (negb (y mod 100 =? 0) || (y mod 400 =? 0)))%Z.
Definition month_len (y m : Z) : Z :=
  if (m =? 2)%Z then (if is_leap y then 29 else 28)
  else if ((m =? 4) || (m =? 6) || (m =? 9) || (m =? 11))%Z then 30 else 31.
Definition date_exists (y m d : Z) : bool :=
  ((1 <=? y) && (y <=? 9999) && (1 <=? m) && (m <=? 12) && (1 <=? d) && (d <=? month_len y m))%Z.
Definition fromisoformat_ok (s : str) : bool :=
  match s with
  | [a; b; c; d; s1; e; f; s2; g; h] =>
      match dig a, dig b, dig c, dig d, dig e, dig f, dig g, dig h with
      | Some a, Some b, Some c, Some d, Some e, Some f, Some g, Some h =>
          N.eqb s1 45 && N.eqb s2 45 &&
          date_exists (a * 1000 + b * 100 + c * 10 + d) (e * 10 + f) (g * 10 + h)
      | _, _, _, _, _, _, _, _ => false
      end
  | _ => false
  end.

(** TR 763-807 validate_date_fact_value.  [era_valid] is check_japanese_imperial_date_valid
    (TR 731-760), kept abstract: it is only called when the parts have an era, which never
    happens (see [C12_era_never_checked]). *)
Definition validate_date_fact_value (era_valid : list (part * str) -> res bool)
  (ps : list (part * str)) (is_recurring is_full : bool) : res log :=
  let has p := dict_mem part_eqb ps p in
  let e1 :=
    if is_recurring then
      (if has Year then ["YEAR_PRESENT_IN_RECURRING_DATE"%string] else []) ++
      (if negb (has Month) || negb (has Day)
       then ["MONTH_OR_DAY_NOT_PRESENT_IN_RECURRING_DATE"%string] else [])
    else if negb (has Year) || negb (has Month)
         then ["YEAR_OR_MONTH_NOT_PRESENT_IN_NON_RECURRING_DATE"%string] else [] in
  let e2 := if is_full && negb (has Day) then ["DAY_NOT_PRESENT_IN_FULL_DATE"%string] else [] in
  do! y <- (if is_recurring then Ok (u "2020") else get_part ps Year) ;
  do! m <- get_part ps Month ;
  do! d <- (if is_full then get_part ps Day else Ok (u "01")) ;
  let e3 := if fromisoformat_ok (y ++ u "-" ++ m ++ u "-" ++ d) then []
            else ["INVALID_GREGORIAN_DATE"%string] in
  do! e4 <- (if has Era then do! ok <- era_valid ps ;
                             Ok (if ok then [] else ["INVALID_JAPANESE_IMPERIAL_DATE"%string])
             else Ok []) ;
  Ok (e1 ++ e2 ++ e3 ++ e4).

(** TR 810-847 parse_date_fact_value *)
Definition parse_date_fact_value (era_valid : list (part * str) -> res bool)
  (value format : str) : res (str * log) :=
  let value := strip value in
  let is_full := contains (u "day") format && contains (u "year") format in
  let is_recurring := contains (u "day") format && negb (contains (u "year") format) in
  match match_regex_date_fact_value value format with
  | (None, errs) => Ok (value, errs)
  | (Some (c, n), _) =>
      do! raw <- read_groups (date_order format is_recurring is_full) 1 c n [] ;
      do! ps <- normalize_date_parts raw format ;
      do! errs <- validate_date_fact_value era_valid ps is_recurring is_full ;
      if is_full then
        do! y <- get_part ps Year ; do! m <- get_part ps Month ; do! d <- get_part ps Day ;
        Ok (y ++ u "-" ++ m ++ u "-" ++ d, errs)
      else if is_recurring then
        do! m <- get_part ps Month ; do! d <- get_part ps Day ;
        Ok (u "--" ++ m ++ u "-" ++ d, errs)
      else
        do! y <- get_part ps Year ; do! m <- get_part ps Month ;
        Ok (y ++ u "-" ++ m, errs)
  end.

(** TR 850-871 parse_literal_fact_value *)
Definition parse_literal_fact_value (value format : str) : str * log :=
  if str_eqb format (u "ixt:fixed-empty") then ([], [])
  else if str_eqb format (u "ixt:fixed-false") then (u "false", [])
  else if str_eqb format (u "ixt:fixed-true") then (u "true", [])
  else if str_eqb format (u "ixt:fixed-zero") then (u "0", [])
  else (value, ["UNSUPPORTED_LITERAL_FACT_FORMAT"%string]).

(** TR 1043-1084 parse_non_numerical_fact_value *)
Definition parse_non_numerical_fact_value (era_valid : list (part * str) -> res bool)
  (value : str) (format : option str) : res (str * log) :=
  match truthy format with
  | None => Ok (value, [])
  | Some f =>
      let f := current_format f in
      if starts_with (u "ixt:num") f || str_eqb f (u "ixt:fixed-zero")
      then Ok (value, ["UNSUPPORTED_NON_NUMERIC_FACT_FORMAT"%string])
      else if starts_with (u "ixt:date") f then
        if str_eqb f (u "ixt:datedaymonthyearin") then
          do! (v1, e1) <- parse_date_fact_value era_valid value (u "ixt:date-day-month-year") ;
          do! (v2, e2) <- parse_date_fact_value era_valid value (u "ixt:date-day-monthname-year-hi") ;
          Ok (match v1 with [] => v2 | _ => v1 end, e1 ++ e2)
        else parse_date_fact_value era_valid value f
      else Ok (parse_literal_fact_value value f)
  end.
