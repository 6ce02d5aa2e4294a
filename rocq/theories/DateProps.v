(** Properties C09-C13: date transformations. *)
From Verif Require Import Base Regex RegexProofs Registry PyNum NumModel NumSpec NumProofs
  NumMatchProofs DateModel DateSpec DateProofs DateMatchProofs DateNameProofs DateNumProofs DateEraProofs.
Local Open Scope nat_scope.

Lemma month_in_range_some z : (1 <= z <= 12)%Z -> month_in_range z = Some (Z.to_nat z).
Proof. intros H. unfold month_in_range. destruct (andb _ _) eqn:E; [reflexivity|].
  apply andb_false_iff in E. rewrite !Z.leb_gt in E. lia. Qed.
Lemma month_in_range_none z : ~ (1 <= z <= 12)%Z -> month_in_range z = None.
Proof. intros H. unfold month_in_range. destruct (andb _ _) eqn:E; [|reflexivity].
  apply andb_prop in E. rewrite !Z.leb_le in E. lia. Qed.

(** What a recorded error list should be for a date [y]-[m]-[d]. *)
Definition reports (errs : log) (possible : Prop) : Prop :=
  (possible /\ errs = []) \/ (~ possible /\ errs = ["INVALID_GREGORIAN_DATE"%string]).

Lemma outcome_full y m d : (1 <= m <= 12)%Z ->
  exists errs, outcome (Some y) (Some (Z.to_nat m)) (Some d) = Ok (iso (Some y) (Some m) (Some d), errs) /\
    reports errs (real_day y m d).
Proof.
  intros Hm. unfold outcome. rewrite Z2Nat.id by lia. eexists. split; [reflexivity|].
  unfold reports. rewrite <- date_exists_spec. destruct (date_exists y m d); [left|right]; auto.
Qed.

(** *** C09: numeric dates *)

Theorem C09_numeric_date_iso : forall era_valid fmt fs dig trail ps text m,
  In (fmt, (fs, dig, trail)) numeric_date_formats ->
  numeric_text dig trail fs ps (strip text) ->
  piece fs ps FMonth = Some m -> (1 <= num_val m <= 12)%Z ->
  date_possible (year_num fs ps) (num_val m) (day_num fs ps) ->
  parse_date_fact_value era_valid text fmt =
    Ok (iso (year_num fs ps) (Some (num_val m)) (day_num fs ps), []).
Proof.
  intros ev fmt fs dig trail ps text m Hin Ht Hm Hr Hp.
  destruct (numeric_run ev _ _ _ _ _ _ Hin Ht) as (m' & Hm' & ->).
  assert (m' = m) as -> by congruence. rewrite month_in_range_some by exact Hr. unfold outcome.
  rewrite Z2Nat.id by lia. f_equal. f_equal.
  destruct (year_num fs ps) as [y|], (day_num fs ps) as [d|]; cbn [date_possible] in Hp; try reflexivity.
  - apply date_exists_spec in Hp. rewrite Hp. reflexivity.
  - apply Z.leb_le in Hp. rewrite Hp. reflexivity.
Qed.

(** A text that is not such a date is left alone and reported. *)
Theorem C09_numeric_date_rejected : forall era_valid fmt fs dig trail text,
  In (fmt, (fs, dig, trail)) numeric_date_formats ->
  (forall ps, ~ numeric_text dig trail fs ps (strip text)) ->
  parse_date_fact_value era_valid text fmt = Ok (strip text, ["DATE_DOES_NOT_MATCH_EXPECTED_FORMAT"%string]).
Proof. exact numeric_reject. Qed.

(** The reading of a text as a numeric date is unique, so the above is not ambiguous. *)
Theorem C09_numeric_date_unique : forall dig trail fs ps ps' text,
  numeric_text dig trail fs ps text -> numeric_text dig trail fs ps' text -> ps' = ps.
Proof. intros. eapply numeric_unique; eauto. Qed.

(** The same through the entry point used for every non-numeric fact, also for the older format
    names that mean these formats. *)
Theorem C09_through_entry_point : forall era_valid fmt f fs dig trail text,
  In (fmt, (fs, dig, trail)) numeric_date_formats ->
  f = fmt \/ In (f, fmt) legacy_to_current_formats ->
  parse_non_numerical_fact_value era_valid text (Some f) = parse_date_fact_value era_valid text fmt.
Proof.
  intros ev fmt f fs dig trail text Hin Hf.
  assert (Hc : f <> [] /\ current_format f = fmt).
  { assert (Hall : forallb (fun e => let fmt := fst e in
        negb (str_eqb fmt []) && str_eqb (current_format fmt) fmt &&
        forallb (fun l => negb (str_eqb (snd l) fmt) ||
                          negb (str_eqb (fst l) []) && str_eqb (current_format (fst l)) fmt) legacy_to_current_formats)
        numeric_date_formats = true) by (vm_compute; reflexivity).
    rewrite forallb_forall in Hall. apply Hall in Hin. cbn [fst] in Hin.
    apply andb_prop in Hin as [Hin H3]. apply andb_prop in Hin as [H1 H2].
    destruct Hf as [->|Hf].
    - apply negb_true_iff, str_eqb_neq in H1. apply str_eqb_eq in H2. auto.
    - rewrite forallb_forall in H3. apply H3 in Hf. cbn [fst snd] in Hf. rewrite str_eqb_refl in Hf.
      apply andb_prop in Hf as [H4 H5]. apply negb_true_iff, str_eqb_neq in H4. apply str_eqb_eq in H5. auto. }
  destruct Hc as [Hne Hc]. unfold parse_non_numerical_fact_value, truthy.
  destruct f as [|c f]; [congruence|]. rewrite Hc.
  assert (Hall : forallb (fun e => let f := fst e in
     negb (starts_with (u "ixt:num") f || str_eqb f (u "ixt:fixed-zero")) && starts_with (u "ixt:date") f &&
     negb (str_eqb f (u "ixt:datedaymonthyearin"))) numeric_date_formats = true) by (vm_compute; reflexivity).
  rewrite forallb_forall in Hall. apply Hall in Hin. cbn [fst] in Hin.
  apply andb_prop in Hin as [Hin H3]. apply andb_prop in Hin as [H1 H2].
  apply negb_true_iff in H1, H3. rewrite H1, H2, H3. reflexivity.
Qed.

Example C09_ex1 : numeric_text devanagari_or_ascii false [FDay; FMonth; FYear] [u "9"; u "02"; u "24"] (u "9. of 02/24") /\
  date_possible (year_num [FDay; FMonth; FYear] [u "9"; u "02"; u "24"]) 2 (Some 9%Z) /\
  parse_date_fact_value (fun _ => Raise KeyError) (u " 9. of 02/24 ") (u "ixt:date-day-month-year") = Ok (u "2024-02-09", []).
Proof.
  split; [|split].
  - apply (nt_more _ _ FDay (u "9") (u ". of ") _ _ (u "02/24")); [split; cbn; auto|reflexivity|discriminate|].
    apply (nt_more _ _ FMonth (u "02") (u "/") _ _ (u "24")); [split; cbn; auto|reflexivity|discriminate|].
    apply (nt_last _ _ FYear (u "24") []); [split; cbn; auto|reflexivity|reflexivity].
  - apply date_exists_spec. vm_compute. reflexivity.
  - vm_compute. reflexivity.
Qed.
Example C09_ex2 : parse_non_numerical_fact_value (fun _ => Raise KeyError) (u "２０１９年１２月３１日") (Some (u "ixt:dateyearmonthdaycjk"))
  = Ok (u "2019-12-31", []) /\
  parse_date_fact_value (fun _ => Raise KeyError) (u "2019-12") (u "ixt:date-year-month-day")
  = Ok (u "2019-12", ["DATE_DOES_NOT_MATCH_EXPECTED_FORMAT"%string]).
Proof. split; vm_compute; reflexivity. Qed.

(** *** C10: month names *)

(** In the listed formats (62 formats, 22 languages), whatever text is accepted, the month comes
    out as the month named by the spelling found in the text. *)
Theorem C10_month_names : forall era_valid fmt lang fs text,
  In (fmt, (lang, fs)) name_date_formats ->
  parse_date_fact_value era_valid text fmt = Ok (strip text, ["DATE_DOES_NOT_MATCH_EXPECTED_FORMAT"%string]) \/
  exists ps s m errs, laid_out no_ascii_digit ps (strip text) /\
    (forall f p, f <> FMonth -> piece fs ps f = Some p -> num (lens_of f) p) /\
    piece fs ps FMonth = Some s /\ names_month lang (lower s) m /\
    parse_date_fact_value era_valid text fmt =
      Ok (iso (year_num fs ps) (Some (Z.of_nat m)) (day_num fs ps), errs).
Proof.
  intros ev fmt lang fs text Hin. destruct (name_format_run ev _ _ _ text Hin) as [H|H]; [left; exact H|right].
  destruct H as (ps & s & m & _ & Hl & Hn & Hs & Hm & E). exists ps, s, m. rewrite E. unfold outcome.
  eexists. repeat split; eauto; try apply Hm.
  all: try (intros; eapply Hn; eauto).
Qed.

(** With a full month name in the text, surrounded by digits and punctuation, it is that month
    that comes out. *)
Theorem C10_full_month_names : forall era_valid fmt lang fs text a w b n m out errs,
  In (fmt, (lang, fs)) full_name_formats ->
  strip text = a ++ w ++ b -> forallb plain a = true -> forallb plain b = true ->
  1 <= m <= 12 -> names_of lang m n -> lower w = n ->
  parse_date_fact_value era_valid text fmt = Ok (out, errs) ->
  errs = ["DATE_DOES_NOT_MATCH_EXPECTED_FORMAT"%string] \/ exists y d, out = iso y (Some (Z.of_nat m)) d.
Proof.
  intros ev fmt lang fs text a w b n m out errs Hin Et Ha Hb Hm Hn Hw Hp.
  destruct (full_name_run ev _ _ _ _ _ _ _ _ _ _ _ Hin Et Ha Hb Hm Hn Hw Hp) as [H|(y & d & H)]; [left; exact H|right].
  exists y, d. unfold outcome in H. congruence.
Qed.

Lemma in_names (l : list (str * (str * list field))) x : existsb (fun y => str_eqb (fst y) (fst x) && str_eqb (fst (snd y)) (fst (snd x)) && list_eqb field_eqb (snd (snd y)) (snd (snd x))) l = true -> In x l.
Proof.
  intros H. apply existsb_exists in H as ([a [b c]] & Hi & H). destruct x as [a' [b' c']]. cbn in H.
  apply andb_prop in H as [H H3]. apply andb_prop in H as [H1 H2].
  apply str_eqb_eq in H1, H2. subst. apply (list_eqb_true field_eqb field_eqb_spec) in H3. subst. exact Hi.
Qed.

Example C10_ex :
  In (u "ixt:date-day-monthname-year-hr", (u "hr", [FDay; FMonth; FYear])) full_name_formats /\
  names_of (u "hr") 3 (u "ožujka") /\
  strip (u " 7. OŽUJKA 2021 ") = u "7. " ++ u "OŽUJKA" ++ u " 2021" /\ lower (u "OŽUJKA") = u "ožujka" /\
  parse_date_fact_value (fun _ => Raise KeyError) (u " 7. OŽUJKA 2021 ") (u "ixt:date-day-monthname-year-hr") = Ok (u "2021-03-07", []).
Proof.
  split; [apply in_names; vm_compute; reflexivity|]. split; [|split; [|split]]; try (vm_compute; reflexivity).
  exists (match dict_get str_eqb month_names (u "hr") with Some l => l | None => [] end), (words "ožujak ožujka ozujak ozujka").
  split; [|split; [vm_compute; reflexivity|right; left; reflexivity]].
  apply (dict_get_in str_eqb str_eqb_spec). reflexivity.
Qed.

(** Not every supported language is right.  Dutch: every month from April on is one too many,
    Lithuanian: from September on one too few; German and some Greek, Welsh spellings are accepted
    and then abort. *)
Theorem C10_month_names_refuted :
  parse_date_fact_value (fun _ => Ok true) (u "5 april 2020") (u "ixt:date-day-monthname-year-nl") = Ok (u "2020-05-05", []) /\
  parse_date_fact_value (fun _ => Ok true) (u "5 december") (u "ixt:date-day-monthname-nl")
    = Ok (u "--13-05", ["INVALID_GREGORIAN_DATE"%string]) /\
  parse_date_fact_value (fun _ => Ok true) (u "2020 m. spalio 5 d.") (u "ixt:date-year-monthname-day-lt") = Ok (u "2020-09-05", []) /\
  parse_date_fact_value (fun _ => Ok true) (u "5 Maj 2020") (u "ixt:date-day-monthname-year-de") = Raise KeyError /\
  parse_date_fact_value (fun _ => Ok true) (u "5 IΑΝ 2020") (u "ixt:date-day-monthname-year-el") = Raise KeyError /\
  parse_date_fact_value (fun _ => Ok true) (u "fawrth 2020") (u "ixt:date-monthname-year-cy") = Raise KeyError.
Proof. repeat split; vm_compute; reflexivity. Qed.

(** German "5. Mai 2020" and "5. Dezember 2020" are not accepted at all. *)
Theorem C10_german_may_december_rejected :
  parse_date_fact_value (fun _ => Ok true) (u "5. Mai 2020") (u "ixt:date-day-monthname-year-de")
    = Ok (u "5. Mai 2020", ["DATE_DOES_NOT_MATCH_EXPECTED_FORMAT"%string]) /\
  parse_date_fact_value (fun _ => Ok true) (u "5. Dezember 2020") (u "ixt:date-day-monthname-year-de")
    = Ok (u "5. Dezember 2020", ["DATE_DOES_NOT_MATCH_EXPECTED_FORMAT"%string]).
Proof. split; vm_compute; reflexivity. Qed.

(** *** C11: impossible dates *)

Definition full_fields (fs : list field) : Prop := In FDay fs /\ In FYear fs.

Theorem C11_numeric_full_dates_checked : forall era_valid fmt fs dig trail ps text y m d,
  In (fmt, (fs, dig, trail)) numeric_date_formats ->
  numeric_text dig trail fs ps (strip text) ->
  year_num fs ps = Some y -> piece fs ps FMonth = Some m -> day_num fs ps = Some d ->
  (1 <= num_val m <= 12)%Z ->
  exists out errs, parse_date_fact_value era_valid text fmt = Ok (out, errs) /\ reports errs (real_day y (num_val m) d).
Proof.
  intros ev fmt fs dig trail ps text y m d Hin Ht Hy Hm Hd Hr.
  destruct (numeric_run ev _ _ _ _ _ _ Hin Ht) as (m' & Hm' & E).
  assert (m' = m) as -> by congruence. rewrite month_in_range_some, Hy, Hd in E by exact Hr.
  destruct (outcome_full y (num_val m) d Hr) as (errs & E' & Hrep). eexists _, errs. split; [|exact Hrep].
  rewrite E. exact E'.
Qed.

Theorem C11_name_full_dates_checked : forall era_valid fmt lang fs text out errs,
  In (fmt, (lang, fs)) name_date_formats -> full_fields fs ->
  parse_date_fact_value era_valid text fmt = Ok (out, errs) ->
  errs = ["DATE_DOES_NOT_MATCH_EXPECTED_FORMAT"%string] \/
  exists y m d, out = iso (Some y) (Some m) (Some d) /\ reports errs (real_day y m d).
Proof.
  intros ev fmt lang fs text out errs Hin [Hd Hy] E.
  destruct (name_format_run ev _ _ _ text Hin) as [H|H].
  - left. change NOMATCH with ["DATE_DOES_NOT_MATCH_EXPECTED_FORMAT"%string] in H. congruence.
  - right. destruct H as (ps & s & m & Hlen & _ & _ & _ & Hm & E'). rewrite E in E'.
    pose proof (piece_has fs ps FDay Hlen) as HD. pose proof (piece_has fs ps FYear Hlen) as HY.
    assert (HH : forall f, In f fs -> has_field f fs = true).
    { intros f Hf. apply existsb_exists. exists f. split; [exact Hf|]. destruct f; reflexivity. }
    rewrite (HH _ Hd) in HD. rewrite (HH _ Hy) in HY.
    unfold year_num, day_num in E'.
    destruct (piece fs ps FYear) as [y|]; [|discriminate]. destruct (piece fs ps FDay) as [d|]; [|discriminate].
    cbn [option_map] in E'. destruct Hm as [Hm _].
    destruct (outcome_full (year_meant y) (Z.of_nat m) (num_val d) ltac:(lia)) as (errs' & E2 & Hr).
    rewrite Nat2Z.id in E2. rewrite E2 in E'. exists (year_meant y), (Z.of_nat m), (num_val d).
    assert (out = iso (Some (year_meant y)) (Some (Z.of_nat m)) (Some (num_val d)) /\ errs = errs') as [-> ->]
      by (split; congruence). auto.
Qed.

Example C11_ex :
  real_day 2024 2 29 /\ ~ real_day 2023 2 29 /\ ~ real_day 1900 2 29 /\
  parse_date_fact_value (fun _ => Ok true) (u "29/2/2024") (u "ixt:date-day-month-year") = Ok (u "2024-02-29", []) /\
  parse_date_fact_value (fun _ => Ok true) (u "29/2/2023") (u "ixt:date-day-month-year")
    = Ok (u "2023-02-29", ["INVALID_GREGORIAN_DATE"%string]) /\
  parse_date_fact_value (fun _ => Ok true) (u "Feb 29th, 1900") (u "ixt:date-monthname-day-year-en")
    = Ok (u "1900-02-29", ["INVALID_GREGORIAN_DATE"%string]).
Proof.
  split; [apply date_exists_spec; vm_compute; reflexivity|].
  split; [rewrite <- date_exists_spec; vm_compute; discriminate|].
  split; [rewrite <- date_exists_spec; vm_compute; discriminate|].
  repeat split; vm_compute; reflexivity.
Qed.

(** Dates without a year are never checked: an impossible day is accepted silently. *)
Theorem C11_recurring_refuted :
  (forall y, ~ real_day y 2 30) /\
  parse_date_fact_value (fun _ => Ok true) (u "30/02") (u "ixt:date-day-month") = Ok (u "--02-30", []) /\
  parse_date_fact_value (fun _ => Ok true) (u "0/02") (u "ixt:date-day-month") = Ok (u "--02-00", []).
Proof.
  split; [|split; vm_compute; reflexivity].
  intros y (_ & _ & _ & n & (k & Hk & H) & Hn). cbn in Hk. injection Hk as <-. lia.
Qed.
Theorem C11_recurring_never_reported : forall era_valid fmt fs dig trail ps text out errs,
  In (fmt, (fs, dig, trail)) numeric_date_formats -> ~ In FYear fs ->
  numeric_text dig trail fs ps (strip text) ->
  parse_date_fact_value era_valid text fmt = Ok (out, errs) -> errs = [].
Proof.
  intros ev fmt fs dig trail ps text out errs Hin Hy Ht E.
  destruct (numeric_run ev _ _ _ _ _ _ Hin Ht) as (m & Hm & E'). rewrite E in E'.
  assert (Hn : year_num fs ps = None).
  { unfold year_num. destruct (piece fs ps FYear) as [y|] eqn:Ep; [|reflexivity]. exfalso. apply Hy.
    clear -Ep. revert ps Ep. induction fs as [|g fs IH]; intros [|p ps] Ep; try discriminate.
    destruct g; cbn in Ep; try (right; eapply IH; exact Ep). left. reflexivity. }
  rewrite Hn in E'. unfold outcome in E'. destruct (month_in_range (num_val m)); congruence.
Qed.

(** *** C12: Japanese imperial dates *)

Theorem C12_era_year : forall era_valid day text e y m d first z,
  era_text day (strip text) e y m d -> In (e, first) eras -> era_year first y = Some z ->
  (1 <= num_val m <= 12)%Z ->
  exists errs,
  parse_date_fact_value era_valid text (if day then u "ixt:date-jpn-era-year-month-day" else u "ixt:date-jpn-era-year-month")
    = Ok (iso (Some z) (Some (num_val m)) (if day then Some (num_val d) else None), errs) /\
  (if day then reports errs (real_day z (num_val m) (num_val d)) else errs = []).
Proof.
  intros ev day text e y m d first z Ht Hin Hz Hm. fold (jfmt day). rewrite (era_run ev day text e y m d first Ht Hin).
  unfold era_outcome. rewrite Hz, month_in_range_some by exact Hm. destruct day.
  - apply outcome_full, Hm.
  - exists []. split; [|reflexivity]. unfold outcome. rewrite Z2Nat.id by lia.
    assert (Hpos : (1 <= z)%Z).
    { destruct Ht as (s1 & s2 & s3 & s4 & s5 & s6 & f0 & _ & _ & _ & _ & _ & _ & _ & Hy & _).
      destruct (japanese_parts e y [] [] false first Hin Hy) as (z' & Ez & Hzr & _).
      assert (z' = z) as -> by congruence. lia. }
    apply Z.leb_le in Hpos. rewrite Hpos. reflexivity.
Qed.

(** The year is the first year of the era plus n minus one; the first year may be written 元. *)
Theorem C12_era_year_value : forall first y,
  (y = u "元" -> era_year first y = Some first) /\
  (digits_in fullwidth_or_ascii [1; 2] y -> era_year first y = Some (first + num_val y - 1)%Z).
Proof.
  intros first y. split; [intros ->; reflexivity|]. intros [H _]. unfold era_year.
  destruct (str_eqb_spec y (u "元")) as [->|]; [vm_compute in H; discriminate|]. rewrite H. reflexivity.
Qed.

Theorem C12_other_texts_rejected : forall era_valid day text,
  (forall e y m d, ~ era_text day (strip text) e y m d) ->
  parse_date_fact_value era_valid text (if day then u "ixt:date-jpn-era-year-month-day" else u "ixt:date-jpn-era-year-month")
    = Ok (strip text, ["DATE_DOES_NOT_MATCH_EXPECTED_FORMAT"%string]).
Proof. intros ev day text. exact (era_reject ev day text). Qed.

Example C12_ex :
  era_text true (u "令和 元年5月１日") (u "令和") (u "元") (u "5") (u "１") /\ In (u "令和", 2019%Z) eras /\
  parse_date_fact_value (fun _ => Ok true) (u "令和 元年5月１日") (u "ixt:date-jpn-era-year-month-day") = Ok (u "2019-05-01", []).
Proof.
  split; [|split; [cbn; auto 10|vm_compute; reflexivity]].
  exists (u " "), [], [], [], [], [], 2019%Z. repeat split; try reflexivity; cbn; auto 12.
Qed.

(** A date outside the era is never reported: the check is not reached for any text and format,
    whatever it would say. *)
Theorem C12_era_never_checked : forall era_valid era_valid' text fmt,
  parse_date_fact_value era_valid text fmt = parse_date_fact_value era_valid' text fmt.
Proof. exact era_check_unused. Qed.
Theorem C12_outside_era_refuted :
  parse_date_fact_value (fun _ => Ok false) (u "平成40年1月1日") (u "ixt:date-jpn-era-year-month-day") = Ok (u "2028-01-01", []) /\
  parse_date_fact_value (fun _ => Ok false) (u "昭和元年1月1日") (u "ixt:date-jpn-era-year-month-day") = Ok (u "1926-01-01", []).
Proof. split; vm_compute; reflexivity. Qed.

(** *** C13: conversion never raises *)

Theorem C13_name_formats_never_raise : forall era_valid fmt lang fs text,
  In (fmt, (lang, fs)) name_date_formats ->
  exists out errs, parse_date_fact_value era_valid text fmt = Ok (out, errs).
Proof.
  intros ev fmt lang fs text Hin. destruct (name_format_run ev _ _ _ text Hin) as [H|H]; [eauto|].
  destruct H as (ps & s & m & _ & _ & _ & _ & _ & ->). unfold outcome. eauto.
Qed.

Local Opaque date_format_to_regex country_to_month_names irregular_date_order_dict.

(** Numeric and imperial formats abort exactly on a month number outside 1-12. *)
Theorem C13_numeric_raises_iff : forall era_valid fmt fs dig trail text,
  In (fmt, (fs, dig, trail)) numeric_date_formats ->
  (exists e, parse_date_fact_value era_valid text fmt = Raise e) <->
  (exists ps m, numeric_text dig trail fs ps (strip text) /\ piece fs ps FMonth = Some m /\ ~ (1 <= num_val m <= 12)%Z).
Proof.
  intros ev fmt fs dig trail text Hin. split.
  - intros (e & E).
    destruct (numeric_formats_re _ _ _ _ Hin) as (cs & ncs & bs & Hr & Hi & Hcs & Hncs & Hne).
    destruct (re_match (rseq (REps :: fre cs ncs trail 1 fs)) (strip text)) as [c|] eqn:Em.
    + apply re_match_sound in Em as (s' & HM). destruct HM as (s1 & c1 & [-> ->] & HM).
      destruct (fre_sound cs ncs dig trail Hcs Hncs _ _ _ _ _ _ Hne HM) as (ps & t & Ht & Es & He & _).
      pose proof (strip_at_end _ _ _ Es He) as ->. rewrite app_nil_r in Es. rewrite <- Es in Ht.
      destruct (numeric_run ev _ _ _ _ _ _ Hin Ht) as (m & Hm & E'). exists ps, m. split; [exact Ht|]. split; [exact Hm|].
      intros Hr'. rewrite month_in_range_some in E' by exact Hr'. rewrite E in E'. discriminate.
    + exfalso. unfold parse_date_fact_value, match_regex_date_fact_value in E. rewrite Hr, Em in E. discriminate.
  - intros (ps & m & Ht & Hm & Hr). exists KeyError.
    destruct (numeric_run ev _ _ _ _ _ _ Hin Ht) as (m' & Hm' & ->).
    assert (m' = m) as -> by congruence. rewrite month_in_range_none by exact Hr. reflexivity.
Qed.
Theorem C13_era_raises_iff : forall era_valid day text e y m d,
  era_text day (strip text) e y m d ->
  (exists x, parse_date_fact_value era_valid text (if day then u "ixt:date-jpn-era-year-month-day" else u "ixt:date-jpn-era-year-month") = Raise x) <->
  ~ (1 <= num_val m <= 12)%Z.
Proof.
  intros ev day text e y m d Ht. fold (jfmt day).
  assert (exists first, In (e, first) eras) as (first & Hin).
  { destruct Ht as (s1 & s2 & s3 & s4 & s5 & s6 & f0 & Hf & _). eauto. }
  rewrite (era_run ev day text e y m d first Ht Hin). unfold era_outcome. split.
  - intros (x & E) Hr. rewrite month_in_range_some in E by exact Hr. unfold outcome in E. discriminate.
  - intros Hr. rewrite month_in_range_none by exact Hr. exists KeyError. reflexivity.
Qed.

Local Transparent date_format_to_regex country_to_month_names irregular_date_order_dict.

Theorem C13_never_raises_refuted :
  parse_date_fact_value (fun _ => Ok true) (u "5/13/2020") (u "ixt:date-day-month-year") = Raise KeyError /\
  parse_date_fact_value (fun _ => Ok true) (u "5 jan 2020") (u "ixt:date-day-monthname-year-sl") = Raise IndexError /\
  parse_date_fact_value (fun _ => Ok true) (u "5 xii 2021") (u "ixt:date-day-monthroman-year") = Raise TypeError /\
  parse_date_fact_value (fun _ => Ok true) (u "5 चैत्र 1942") (u "ixt:date-ind-day-monthname-year-hi") = Raise KeyError.
Proof. repeat split; vm_compute; reflexivity. Qed.

(** The roman month of a full date also lands in the year. *)
Theorem C09_roman_month_refuted :
  parse_date_fact_value (fun _ => Ok true) (u "5 XII 2021") (u "ixt:date-day-monthroman-year")
    = Ok (u "XII-12-05", ["INVALID_GREGORIAN_DATE"%string]).
Proof. vm_compute; reflexivity. Qed.

Example C13_ex :
  (exists ps m, numeric_text is_digit false [FMonth; FDay; FYear] ps (u "31/12/2020") /\
     piece [FMonth; FDay; FYear] ps FMonth = Some m /\ ~ (1 <= num_val m <= 12)%Z) /\
  parse_date_fact_value (fun _ => Ok true) (u "31/12/2020") (u "ixt:date-month-day-year") = Raise KeyError /\
  parse_date_fact_value (fun _ => Ok true) (u "le 14 août") (u "ixt:date-day-monthname-year-fr")
    = Ok (u "le 14 août", ["DATE_DOES_NOT_MATCH_EXPECTED_FORMAT"%string]).
Proof.
  split; [|split; vm_compute; reflexivity].
  exists [u "31"; u "12"; u "2020"], (u "31"). split; [|split; [reflexivity|vm_compute; intuition congruence]].
  apply (nt_more _ _ FMonth (u "31") (u "/") _ _ (u "12/2020")); [split; cbn; auto|reflexivity|discriminate|].
  apply (nt_more _ _ FDay (u "12") (u "/") _ _ (u "2020")); [split; cbn; auto|reflexivity|discriminate|].
  apply (nt_last _ _ FYear (u "2020") []); [split; cbn; auto|reflexivity|reflexivity].
Qed.

Print Assumptions C09_numeric_date_iso.
Print Assumptions C09_numeric_date_rejected.
Print Assumptions C09_numeric_date_unique.
Print Assumptions C09_through_entry_point.
Print Assumptions C09_roman_month_refuted.
Print Assumptions C10_month_names.
Print Assumptions C10_full_month_names.
Print Assumptions C10_month_names_refuted.
Print Assumptions C10_german_may_december_rejected.
Print Assumptions C11_numeric_full_dates_checked.
Print Assumptions C11_name_full_dates_checked.
Print Assumptions C11_recurring_refuted.
Print Assumptions C11_recurring_never_reported.
Print Assumptions C12_era_year.
Print Assumptions C12_era_year_value.
Print Assumptions C12_other_texts_rejected.
Print Assumptions C12_era_never_checked.
Print Assumptions C12_outside_era_refuted.
Print Assumptions C13_name_formats_never_raise.
Print Assumptions C13_numeric_raises_iff.
Print Assumptions C13_era_raises_iff.
Print Assumptions C13_never_raises_refuted.
