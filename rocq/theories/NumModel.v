(** Model of the numeric part of the iXBRL transformation registry,
    brel/parsers/XHMTL/xhtml_parse_transformation_registry.py (abbreviated TR below), and of
    brel/parsers/XHMTL/elements/parse_non_fraction.py (PNF). *)
From Verif Require Import Base Regex Registry PyNum.


(** TR 874-900 normalize_digits_in_string *)
Definition normalize_digit (c : N) : N :=
  match dict_get N.eqb digits_map c with Some d => d | None => c end.
Definition normalize_digits_in_string (s : str) : str := map normalize_digit s.

(** [str.replace(sep, "")] for a one-character separator *)
Definition remove_char (sep : N) (s : str) : str := filter (fun c => negb (N.eqb c sep)) s.

(** TR 949-957 process_number_part; [None] is a group that did not take part in the match.
    [not number_part] is true for [None] and for the empty string. *)
Definition process_number_part (p : option str) : str :=
  let p := match p with None | Some [] => [48%N] | Some s => s end in
  fold_left (fun s sep => remove_char sep s) separators p.

(** ["0" * n] for an integer n *)
Definition zeros (n : Z) : str := repeat 48%N (Z.to_nat n).

(** [s[i:]] and [s[:i]] for an integer index i, negative indices counting from the end,
    clamped to the string. *)
Definition slice_index (s : str) (i : Z) : nat :=
  let n := Z.of_nat (length s) in
  Z.to_nat (if (i <? 0)%Z then Z.max 0 (n + i) else Z.min n i).
Definition slice_from (s : str) (i : Z) : str := skipn (slice_index s i) s.
Definition slice_to (s : str) (i : Z) : str := firstn (slice_index s i) s.

(** TR 932-946 apply_scale *)
Definition apply_scale (whole dec : str) (scale : Z) : str * str :=
  if (scale <? 0)%Z then
    let whole := if (- scale >? Z.of_nat (length whole))%Z
                 then zeros (- scale - Z.of_nat (length whole)) ++ whole else whole in
    (slice_to whole scale, slice_from whole scale ++ dec)
  else
    let dec := if (scale >? Z.of_nat (length dec))%Z
               then dec ++ zeros (scale - Z.of_nat (length dec)) else dec in
    (whole ++ slice_to dec scale, slice_from dec scale).

(** TR 903-929 match_regex_numerical_fact_value: the match and the recorded errors *)
Definition match_regex_numerical_fact_value (value format : str) : option (caps * nat) * log :=
  match dict_get str_eqb number_format_to_regex format with
  | None => (None, ["UNSUPPORTED_NON_FRACTION_FACT_FORMAT"%string])
  | Some (r, n) =>
      match re_match r value with
      | None => (None, ["NUMBER_DOES_NOT_MATCH_EXPECTED_FORMAT"%string])
      | Some c => (Some (c, n), [])
      end
  end.

(** TR 960-982 process_numerical_fact_value; all patterns of the table have two groups, so
    [match.group(1)] and [match.group(2)] never raise. *)
Definition process_numerical_fact_value (c : caps) (scale_attr : str) : str * log :=
  let whole := process_number_part (dict_get Nat.eqb c 1) in
  let dec := process_number_part (dict_get Nat.eqb c 2) in
  let '(scale, errs) := match py_int scale_attr with
                        | Some z => (z, [])
                        | None => (0%Z, ["INVALID_SCALE_ATTRIBUTE_VALUE"%string])
                        end in
  let '(whole, dec) := apply_scale whole dec scale in
  (whole ++ [46%N] ++ dec, errs).

(** TR 985-1000 normalize_numerical_fact_value *)
Definition is_zero_char (c : N) : bool := N.eqb c 48.
Definition normalize_numerical_fact_value (v : str) : str :=
  let v := normalize_digits_in_string v in
  let v := rdrop_while is_zero_char v in
  let v := if ends_with [46%N] v then removelast v else v in
  let v := drop_while is_zero_char v in
  if starts_with [46%N] v then 48%N :: v else v.

(** [legacy_to_current_formats.get(f, f)] *)
Definition current_format (f : str) : str :=
  match dict_get str_eqb legacy_to_current_formats f with Some g => g | None => f end.

(** TR 1003-1040 parse_numerical_fact_value *)
Definition parse_numerical_fact_value (value format scale_attr : str) : str * log :=
  if str_eqb format (u "ixt:fixed-zero") then ([48%N], [])
  else
    let format := current_format format in
    let value := strip value in
    match match_regex_numerical_fact_value value format with
    | (None, errs) => (value, errs)
    | (Some (c, _), errs) =>
        let '(v, errs') := process_numerical_fact_value c scale_attr in
        (normalize_numerical_fact_value v, errs ++ errs')
    end.

(** PNF 84-137 process_non_fraction_value.  [py_float s] is Python's [float(s)] as far as it is
    observed: [None] when it raises, [Some b] with b telling whether the value is negative.
    A missing attribute is [None]; an empty attribute is false in [if not format]. *)
Definition truthy (o : option str) : option str :=
  match o with Some [] => None | _ => o end.

Definition process_non_fraction_value (py_float : str -> option bool)
  (text format scale sign : option str) : str * log :=
  let '(sign, e0) := match truthy sign with
                     | Some s => if str_eqb s (u "-") then (Some s, [])
                                 else (None, ["IXBRL_INVALID_SIGN_ATTRIBUTE_VALUE"%string])
                     | None => (sign, [])
                     end in
  let value := match text with Some t => t | None => [] end in
  let scale := match truthy scale with Some s => s | None => [48%N] end in
  let finish (format : str) :=
    let '(v, e) := parse_numerical_fact_value value format scale in
    (match sign with
     | Some s => if str_eqb s (u "-") then 45%N :: v else v
     | None => v
     end, e0 ++ e) in
  match truthy format with
  | Some f => finish f
  | None =>
      match py_float value with
      | None => ([], e0 ++ ["IXBRL_NON_NUMERICAL_NON_FRACTION_FACT_VALUE"%string])
      | Some true => ([], e0 ++ ["IXBRL_NEGATIVE_NON_FRACTION_FACT_VALUE"%string])
      | Some false => finish (u "ixt:num-dot-decimal")
      end
  end.

(** PNF 20-36 parse_decimals_or_precision: an integer or infinity ("INF"). *)
Inductive decimals := Finite (z : Z) | Infinite.
Definition parse_decimals_or_precision (o : option str) : res (option decimals) :=
  match o with
  | None => Ok None
  | Some s =>
      match py_int s with
      | Some z => Ok (Some (Finite z))
      | None => if str_eqb s (u "INF") then Ok (Some Infinite) else Raise ValueError
      end
  end.

Definition is_some {A} (o : option A) : bool := match o with Some _ => true | None => false end.
Definition opt_str_eqb := opt_eqb str_eqb.

