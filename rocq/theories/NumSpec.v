(** Specification of numeric transformations, independent of the model: what number a text
    shows, what a plain decimal numeral denotes, when a numeral is canonical. *)
From Verif Require Import Base.
From Coq Require Export QArith Qpower.
Local Open Scope nat_scope.

Definition is_digit (c : N) : bool := ((48 <=? c) && (c <=? 57))%N.
Definition all_digits (s : str) : Prop := forallb is_digit s = true.

(** Value of a string of decimal digits. *)
Definition digits_val (s : str) : Z :=
  fold_left (fun acc c => (acc * 10 + (Z.of_N c - 48))%Z) s 0%Z.

(** Value of the digits [w] before and [f] after a decimal point. *)
Definition dec_val (w f : str) : Q :=
  (inject_Z (digits_val (w ++ f)) * Qpower 10 (- Z.of_nat (length f)))%Q.

(** [numeral s q]: [s] is a plain decimal numeral ("ddd" or "ddd.ddd") denoting [q]. *)
Definition numeral (s : str) (q : Q) : Prop :=
  exists w f, w <> [] /\ all_digits w /\ all_digits f /\
    ((f = [] /\ s = w) \/ (f <> [] /\ s = w ++ [46%N] ++ f)) /\ (dec_val w f == q)%Q.

(** Canonical numerals: no superfluous leading zero, no trailing zero after the point, no bare
    point. *)
Definition canonical (s : str) : Prop :=
  exists w f, all_digits w /\ all_digits f /\
    (w = [48%N] \/ exists c w', w = c :: w' /\ c <> 48%N) /\
    ((f = [] /\ s = w) \/ (exists f' c, f = f' ++ [c] /\ c <> 48%N /\ s = w ++ [46%N] ++ f)).

(** The digits of a text, other characters removed. *)
Definition digits_only (s : str) : str := filter is_digit s.

(** [written point groups t a b]: the text [t] consists of the part [a] before the decimal
    point (digits and grouping characters) and, when [b] is not empty, the decimal point and the
    part [b] (digits and spaces) after it. *)
Definition written (point : N) (groups : str) (t a b : str) : Prop :=
  forallb (fun c => is_digit c || mem_char c groups) a = true /\
  forallb (fun c => is_digit c || N.eqb c 32) b = true /\
  t = match b with [] => a | _ => a ++ [point] ++ b end.

(** The number shown by such a text. *)
Definition shown (a b : str) : Q := dec_val (digits_only a) (digits_only b).

(** The decimal point and the grouping characters of the formats with separators
    (iXBRL transformation registry). *)
Definition separator_formats : list (str * (N * str)) := [
  (u "ixt:num-dot-decimal", (46%N, u ", "));
  (u "ixt:num-comma-decimal", (44%N, u ". "));
  (u "ixt:num-dot-decimal-apos", (46%N, u ", '`´’′"));
  (u "ixt:num-comma-decimal-apos", (44%N, u ". '`´’′"));
  (* names of the same formats in earlier versions of the registry *)
  (u "ixt:numdotdecimal", (46%N, u ", "));
  (u "ixt:numdotdecimalin", (46%N, u ", "));
  (u "ixt:numcommadecimal", (44%N, u ". "));
  (u "ixt:numcommadot", (46%N, u ", "));
  (u "ixt:numspacedot", (46%N, u ", "));
  (u "ixt:numcomma", (44%N, u ". "));
  (u "ixt:numdotcomma", (44%N, u ". "));
  (u "ixt:numspacecomma", (44%N, u ". "))].

(** Formats with named units: digits may be ASCII or full width. *)
Definition is_wide_digit (c : N) : bool :=
  is_digit c || ((65296 <=? c) && (c <=? 65305))%N.
Definition ascii_digit (c : N) : N := if (65296 <=? c)%N then (c - 65248)%N else c.
Definition wide_digits (s : str) : str := map ascii_digit (filter is_wide_digit s).

(** [unit_written groups t a m]: text [t] is a major amount [a] (digits and grouping
    characters), some words without digits, and a minor amount [m] of one or two digits,
    possibly followed by words without digits. *)
Definition unit_written (groups : str) (t a m : str) : Prop :=
  exists x words rest,
    t = a ++ [x] ++ words ++ m ++ rest /\
    a <> [] /\ forallb (fun c => is_wide_digit c || mem_char c groups) a = true /\
    (is_wide_digit x || mem_char x groups) = false /\
    forallb (fun c => negb (is_wide_digit c)) words = true /\
    forallb is_wide_digit m = true /\ 1 <= length m <= 2 /\
    forallb (fun c => negb (is_wide_digit c)) rest = true.

Definition unit_formats : list (str * str) := [
  (u "ixt:num-unit-decimal", u ".,，");
  (u "ixt:num-unit-decimal-apos", u ".,，'`´’′＇");
  (u "ixt:numunitdecimal", u ".,，"); (u "ixt:numunitdecimalin", u ".,，")].

(** The amount: major units and hundredths. *)
Definition unit_amount (a m : str) : Q :=
  (inject_Z (digits_val (wide_digits a)) + inject_Z (digits_val (wide_digits m)) / 100)%Q.
