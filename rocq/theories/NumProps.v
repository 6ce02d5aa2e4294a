(** Properties C01-C08: numeric transformations. *)
From Verif Require Import Base Regex Registry PyNum NumModel NumSpec NumProofs NumMatchProofs.
Local Open Scope nat_scope.

(** *** C01: scaling is exact multiplication by a power of ten *)

Theorem C01_scale_exact : forall w f z w' f',
  apply_scale w f z = (w', f') -> (dec_val w' f' == dec_val w f * Qpower 10 z)%Q.
Proof. exact apply_scale_value. Qed.

(** No digit is lost or invented: the digits are the old ones, padded with zeros on the left
    (negative scale) or on the right (positive scale). *)
Theorem C01_scale_digits : forall w f z w' f',
  apply_scale w f z = (w', f') ->
  exists l r, w' ++ f' = repeat 48%N l ++ (w ++ f) ++ repeat 48%N r /\
              (l = 0 \/ (z < 0)%Z) /\ (r = 0 \/ (0 < z)%Z).
Proof. exact apply_scale_sequence. Qed.

Example C01_ex : apply_scale (u "12") (u "345") (-4) = ([], u "0012345") /\
                 apply_scale (u "12") (u "345") 5 = (u "1234500", []).
Proof. split; vm_compute; reflexivity. Qed.

(** *** C02: a displayed non-zero number is read as the number it shows *)

Theorem C02_number_as_shown : forall fmt point groups text a b attr z,
  In (fmt, (point, groups)) separator_formats ->
  written point groups (strip text) a b ->
  py_int attr = Some z ->
  ~ (shown a b == 0)%Q ->
  exists out, parse_numerical_fact_value text fmt attr = (out, []) /\
              numeral out (shown a b * Qpower 10 z)%Q.
Proof.
  intros fmt point groups text a b attr z Hin Hw Hz Hnz.
  destruct (parse_written fmt point groups text a b attr Hin Hw) as (w & f & Hwd & Hfd & Hv & Hp).
  unfold scale_of in Hv, Hp. rewrite Hz in Hv, Hp. cbn [fst snd] in Hv, Hp.
  exists (norm w f). split; [exact Hp|].
  assert (Hnz' : ~ (dec_val w f == 0)%Q).
  { rewrite Hv. intros E. apply Qmult_integral in E as [E|E]; [auto|]. apply (Qpower10_nz z E). }
  destruct (norm_numeral w f Hwd Hfd Hnz') as [(w0 & f0 & ? & ? & ? & ? & Hq) _].
  exists w0, f0. repeat split; auto. rewrite Hq. exact Hv.
Qed.

Lemma py_int_3 : py_int (u "3") = Some 3%Z. Proof. vm_compute; reflexivity. Qed.
Example C02_ex :
  written 46 (u ", ") (strip (u " 1,234.50 ")) (u "1,234") (u "50") /\
  ~ (shown (u "1,234") (u "50") == 0)%Q /\
  parse_numerical_fact_value (u " 1,234.50 ") (u "ixt:num-dot-decimal") (u "3") = (u "1234500", []).
Proof. repeat split; vm_compute; try reflexivity; discriminate. Qed.

(** *** C03: canonical output *)

Theorem C03_canonical : forall fmt point groups text a b attr,
  In (fmt, (point, groups)) separator_formats ->
  written point groups (strip text) a b -> ~ (shown a b == 0)%Q ->
  canonical (fst (parse_numerical_fact_value text fmt attr)).
Proof.
  intros fmt point groups text a b attr Hin Hw Hnz.
  destruct (parse_written fmt point groups text a b attr Hin Hw) as (w & f & Hwd & Hfd & Hv & Hp).
  rewrite Hp. cbn [fst].
  apply norm_numeral; auto. rewrite Hv. intros E. apply Qmult_integral in E as [E|E]; [auto|].
  apply (Qpower10_nz _ E).
Qed.

(** Two texts, possibly in different formats and with different scales, that show the same
    number after scaling produce the same string. *)
Theorem C03_unique : forall fmt1 point1 groups1 text1 a1 b1 attr1 z1 fmt2 point2 groups2 text2 a2 b2 attr2 z2,
  In (fmt1, (point1, groups1)) separator_formats ->
  In (fmt2, (point2, groups2)) separator_formats ->
  written point1 groups1 (strip text1) a1 b1 ->
  written point2 groups2 (strip text2) a2 b2 ->
  py_int attr1 = Some z1 -> py_int attr2 = Some z2 ->
  (shown a1 b1 * Qpower 10 z1 == shown a2 b2 * Qpower 10 z2)%Q ->
  parse_numerical_fact_value text1 fmt1 attr1 = parse_numerical_fact_value text2 fmt2 attr2.
Proof.
  intros fmt1 point1 groups1 text1 a1 b1 attr1 z1 fmt2 point2 groups2 text2 a2 b2 attr2 z2
    Hin1 Hin2 Hw1 Hw2 Hz1 Hz2 E.
  destruct (parse_written _ _ _ _ _ _ attr1 Hin1 Hw1) as (w & f & Hwd & Hfd & Hv & Hp).
  destruct (parse_written _ _ _ _ _ _ attr2 Hin2 Hw2) as (w' & f' & Hwd' & Hfd' & Hv' & Hp').
  unfold scale_of in *. rewrite Hz1 in *. rewrite Hz2 in *. cbn [fst snd] in *.
  rewrite Hp, Hp'. f_equal. apply norm_ext; auto. rewrite Hv, Hv'. exact E.
Qed.

(** Canonical numerals with the same value are the same string. *)
Theorem C03_canonical_numerals_unique : forall s1 s2 q1 q2,
  canonical s1 -> canonical s2 -> numeral s1 q1 -> numeral s2 q2 -> (q1 == q2)%Q -> s1 = s2.
Proof. exact canonical_unique. Qed.

Example C03_ex :
  fst (parse_numerical_fact_value (u "1 200,50") (u "ixt:num-comma-decimal") (u "0"))
  = fst (parse_numerical_fact_value (u "0,001.2005") (u "ixt:num-dot-decimal") (u "3")).
Proof. vm_compute; reflexivity. Qed.

(** *** C04: a displayed zero.  The full property ("is converted to a string denoting zero") is
    false of the code: the exact behaviour is that a shown zero is converted to the empty
    string. *)

Theorem C04_zero_becomes_empty : forall fmt point groups text a b attr,
  In (fmt, (point, groups)) separator_formats ->
  written point groups (strip text) a b -> (shown a b == 0)%Q ->
  fst (parse_numerical_fact_value text fmt attr) = [].
Proof.
  intros fmt point groups text a b attr Hin Hw H0.
  destruct (parse_written fmt point groups text a b attr Hin Hw) as (w & f & Hwd & Hfd & Hv & Hp).
  rewrite Hp. cbn [fst]. apply norm_zero; auto. rewrite Hv, H0. reflexivity.
Qed.

Lemma numeral_not_empty q : ~ numeral [] q.
Proof.
  intros (w & f & Hne & _ & _ & [[_ E]|[_ E]] & _); [congruence|].
  destruct w; discriminate.
Qed.

Theorem C04_zero_refuted :
  exists text, written 46 (u ", ") (strip text) (u "0") (u "00") /\
    (shown (u "0") (u "00") == 0)%Q /\
    ~ numeral (fst (parse_numerical_fact_value text (u "ixt:num-dot-decimal") (u "0"))) 0.
Proof.
  exists (u "0.00"). split; [repeat split; vm_compute; reflexivity|]. split; [vm_compute; reflexivity|].
  assert (fst (parse_numerical_fact_value (u "0.00") (u "ixt:num-dot-decimal") (u "0")) = []) as ->
    by (vm_compute; reflexivity).
  apply numeral_not_empty.
Qed.

(** With the current name of the dash format zero is read as "0", whatever the text. *)
Theorem C04_fixed_zero : forall text attr,
  parse_numerical_fact_value text (u "ixt:fixed-zero") attr = ([48%N], []).
Proof. intros; reflexivity. Qed.
Example C04_fixed_zero_numeral : numeral [48%N] 0.
Proof.
  exists [48%N], []. repeat split; [discriminate|left; auto].
Qed.

(** With the legacy names of the dash formats the text is kept and an error is reported. *)
Theorem C04_legacy_dash_refuted : forall text attr fmt,
  In fmt [u "ixt:zerodash"; u "ixt:numdash"] ->
  parse_numerical_fact_value text fmt attr
  = (strip text, ["UNSUPPORTED_NON_FRACTION_FACT_FORMAT"%string]).
Proof.
  intros text attr fmt [<-|[<-|[]]]; apply parse_unknown_format; vm_compute; reflexivity.
Qed.

(** *** C05: grouping separators never change the number *)

Theorem C05_separators_irrelevant : forall fmt point groups text1 a1 b1 text2 a2 b2 attr,
  In (fmt, (point, groups)) separator_formats ->
  written point groups (strip text1) a1 b1 ->
  written point groups (strip text2) a2 b2 ->
  digits_only a1 = digits_only a2 -> digits_only b1 = digits_only b2 ->
  parse_numerical_fact_value text1 fmt attr = parse_numerical_fact_value text2 fmt attr.
Proof.
  intros fmt point groups text1 a1 b1 text2 a2 b2 attr Hin Hw1 Hw2 Ea Eb.
  destruct (parse_written _ _ _ _ _ _ attr Hin Hw1) as (w & f & Hwd & Hfd & Hv & Hp).
  destruct (parse_written _ _ _ _ _ _ attr Hin Hw2) as (w' & f' & Hwd' & Hfd' & Hv' & Hp').
  rewrite Hp, Hp'. f_equal. apply norm_ext; auto. rewrite Hv, Hv'.
  unfold shown. rewrite Ea, Eb. reflexivity.
Qed.

Example C05_ex :
  written 46 (u ", '`´’′") (strip (u "1’234,567.8 9")) (u "1’234,567") (u "8 9") /\
  written 46 (u ", '`´’′") (strip (u "1234567.89")) (u "1234567") (u "89") /\
  digits_only (u "1’234,567") = digits_only (u "1234567").
Proof. repeat split; vm_compute; reflexivity. Qed.

(** *** C06: a number in the wrong format is kept verbatim and reported once *)

(** All formats brel knows: a text that is not of the form the format prescribes. *)
Definition well_formed (fmt text : str) : Prop :=
  (exists point groups a b, In (fmt, (point, groups)) separator_formats /\ written point groups text a b) \/
  (exists groups a m, In (fmt, groups) unit_formats /\ unit_written groups text a m).

Definition known_format (f : str) : bool :=
  existsb (str_eqb f) (map fst separator_formats ++ map fst unit_formats).

Lemma legacy_all_ok :
  forallb (fun p => negb (dict_mem str_eqb number_format_to_regex (snd p)) || known_format (fst p))
    legacy_to_current_formats = true.
Proof. vm_compute; reflexivity. Qed.
Lemma current_all_ok : forallb (fun p => known_format (fst p)) number_format_to_regex = true.
Proof. vm_compute; reflexivity. Qed.

Lemma known_format_in f :
  known_format f = true -> In f (map fst separator_formats) \/ In f (map fst unit_formats).
Proof.
  unfold known_format. intros H. apply existsb_exists in H as (x & Hx & Ex).
  apply str_eqb_eq in Ex. subst x. apply in_app_or; exact Hx.
Qed.

Lemma cases_gen {V} (known : str -> bool) (d1 : list (str * V)) (d2 : list (str * str)) fmt :
  forallb (fun p => negb (dict_mem str_eqb d1 (snd p)) || known (fst p)) d2 = true ->
  forallb (fun p => known (fst p)) d1 = true ->
  known fmt = true \/
  dict_get str_eqb d1 (match dict_get str_eqb d2 fmt with Some g => g | None => fmt end) = None.
Proof.
  intros H2 H1. destruct (dict_get str_eqb d2 fmt) as [g|] eqn:Eg.
  - apply (dict_get_in _ str_eqb_spec) in Eg. rewrite forallb_forall in H2. specialize (H2 _ Eg).
    cbn [fst snd] in H2. unfold dict_mem in H2. destruct (dict_get str_eqb d1 g); auto.
  - destruct (dict_get str_eqb d1 fmt) eqn:E; [|auto].
    apply (dict_get_in _ str_eqb_spec) in E. rewrite forallb_forall in H1. specialize (H1 _ E). auto.
Qed.

Lemma current_format_cases fmt :
  In fmt (map fst separator_formats) \/ In fmt (map fst unit_formats) \/
  dict_get str_eqb number_format_to_regex (current_format fmt) = None.
Proof.
  destruct (cases_gen known_format number_format_to_regex legacy_to_current_formats fmt
              legacy_all_ok current_all_ok) as [H|H]; [apply known_format_in in H; tauto|].
  right; right; exact H.
Qed.

Theorem C06_wrong_format_verbatim : forall fmt text attr,
  fmt <> u "ixt:fixed-zero" ->
  ~ well_formed fmt (strip text) ->
  exists err, parse_numerical_fact_value text fmt attr = (strip text, [err]).
Proof.
  intros fmt text attr Hz Hn.
  destruct (current_format_cases fmt) as [H|[H|H]].
  - apply in_map_iff in H as ([f [point groups]] & E & Hin). cbn in E; subst f.
    eexists. apply (parse_not_written fmt point groups text attr Hin).
    intros a b Hw. apply Hn. left. eauto 8.
  - apply in_map_iff in H as ([f groups] & E & Hin). cbn in E; subst f.
    eexists. apply (parse_unit_not_written fmt groups text attr Hin).
    intros a m Hw. apply Hn. right. eauto 8.
  - eexists. apply parse_unknown_format; [|exact H]. apply str_eqb_neq; exact Hz.
Qed.

(** A well-formed text records no format error; an unreadable scale adds one error and is
    treated as scale 0. *)
Theorem C06_well_formed_no_error : forall fmt text attr z,
  well_formed fmt (strip text) -> py_int attr = Some z ->
  snd (parse_numerical_fact_value text fmt attr) = [].
Proof.
  intros fmt text attr z [(point & groups & a & b & Hin & Hw)|(groups & a & m & Hin & Hw)] Hz.
  - destruct (parse_written _ _ _ _ _ _ attr Hin Hw) as (w & f & _ & _ & _ & ->).
    unfold scale_of. rewrite Hz. reflexivity.
  - destruct (parse_unit_written _ _ _ _ _ attr Hin Hw) as (w & f & _ & _ & _ & ->).
    unfold scale_of. rewrite Hz. reflexivity.
Qed.

Theorem C06_bad_scale : forall fmt text attr,
  well_formed fmt (strip text) -> py_int attr = None ->
  parse_numerical_fact_value text fmt attr =
    (fst (parse_numerical_fact_value text fmt (u "0")), ["INVALID_SCALE_ATTRIBUTE_VALUE"%string]).
Proof.
  assert (H0 : scale_of (u "0") = (0%Z, [])) by (vm_compute; reflexivity).
  intros fmt text attr Hwf Hz.
  assert (Ha : scale_of attr = (0%Z, ["INVALID_SCALE_ATTRIBUTE_VALUE"%string]))
    by (unfold scale_of; rewrite Hz; reflexivity).
  destruct Hwf as [(point & groups & a & b & Hin & Hw)|(groups & a & m & Hin & Hw)].
  - destruct (parse_written _ _ _ _ _ _ attr Hin Hw) as (w & f & Hwd & Hfd & Hv & Hp).
    destruct (parse_written _ _ _ _ _ _ (u "0") Hin Hw) as (w' & f' & Hwd' & Hfd' & Hv' & Hp').
    rewrite Hp, Hp', Ha. cbn [fst snd]. f_equal. apply norm_ext; auto.
    rewrite Hv, Hv', Ha, H0. reflexivity.
  - destruct (parse_unit_written _ _ _ _ _ attr Hin Hw) as (w & f & Hwd & Hfd & Hv & Hp).
    destruct (parse_unit_written _ _ _ _ _ (u "0") Hin Hw) as (w' & f' & Hwd' & Hfd' & Hv' & Hp').
    rewrite Hp, Hp', Ha. cbn [fst snd]. f_equal. apply norm_ext; auto.
    rewrite Hv, Hv', Ha, H0. reflexivity.
Qed.

Example C06_ex : parse_numerical_fact_value (u " 12..5 ") (u "ixt:num-dot-decimal") (u "0")
  = (u "12..5", ["NUMBER_DOES_NOT_MATCH_EXPECTED_FORMAT"%string]) /\
  parse_numerical_fact_value (u "12.5") (u "ixt:num-dot-decimal") (u "x")
  = (u "12.5", ["INVALID_SCALE_ATTRIBUTE_VALUE"%string]).
Proof. split; vm_compute; reflexivity. Qed.

(** *** C07: numbers with named units.  Proved for minor amounts of two digits; for minor
    amounts of one digit the property is false of the code, which reads tenths. *)

Theorem C07_two_digit_minor_partial : forall fmt groups text a m attr z,
  In (fmt, groups) unit_formats ->
  unit_written groups (strip text) a m -> length m = 2 ->
  py_int attr = Some z -> ~ (unit_amount a m == 0)%Q ->
  exists out, parse_numerical_fact_value text fmt attr = (out, []) /\
              numeral out (unit_amount a m * Qpower 10 z)%Q /\ canonical out.
Proof.
  intros fmt groups text a m attr z Hin Hw Hl Hz Hnz.
  destruct (parse_unit_written fmt groups text a m attr Hin Hw) as (w & f & Hwd & Hfd & Hv & Hp).
  unfold scale_of in Hv, Hp. rewrite Hz in Hv, Hp. cbn [fst snd] in Hv, Hp.
  rewrite (unit_two_digits _ _ _ _ Hw Hl) in Hv.
  exists (norm w f). split; [exact Hp|].
  assert (Hnz' : ~ (dec_val w f == 0)%Q).
  { rewrite Hv. intros E. apply Qmult_integral in E as [E|E]; [auto|]. apply (Qpower10_nz z E). }
  destruct (norm_numeral w f Hwd Hfd Hnz') as [(w0 & f0 & ? & ? & ? & ? & Hq) Hc].
  split; [|exact Hc]. exists w0, f0. repeat split; auto. rewrite Hq. exact Hv.
Qed.

Theorem C07_one_digit_minor : forall fmt groups text a m attr z,
  In (fmt, groups) unit_formats ->
  unit_written groups (strip text) a m -> length m = 1 ->
  py_int attr = Some z ->
  let tenths := (inject_Z (digits_val (wide_digits a)) + inject_Z (digits_val (wide_digits m)) / 10)%Q in
  ~ (tenths == 0)%Q ->
  exists out, parse_numerical_fact_value text fmt attr = (out, []) /\
              numeral out (tenths * Qpower 10 z)%Q.
Proof.
  intros fmt groups text a m attr z Hin Hw Hl Hz tenths Hnz.
  destruct (parse_unit_written fmt groups text a m attr Hin Hw) as (w & f & Hwd & Hfd & Hv & Hp).
  unfold scale_of in Hv, Hp. rewrite Hz in Hv, Hp. cbn [fst snd] in Hv, Hp.
  rewrite (unit_one_digit _ _ _ _ Hw Hl) in Hv. fold tenths in Hv.
  exists (norm w f). split; [exact Hp|].
  assert (Hnz' : ~ (dec_val w f == 0)%Q).
  { rewrite Hv. intros E. apply Qmult_integral in E as [E|E]; [auto|]. apply (Qpower10_nz z E). }
  destruct (norm_numeral w f Hwd Hfd Hnz') as [(w0 & f0 & ? & ? & ? & ? & Hq) Hc].
  exists w0, f0. repeat split; auto. rewrite Hq. exact Hv.
Qed.

Lemma written_5_7 : unit_written (u ".,，") (strip (u "5 pounds 7 pence")) (u "5") (u "7").
Proof.
  exists 32%N, (u "pounds "), (u " pence"). repeat split; vm_compute; try reflexivity; try lia; discriminate.
Qed.

Lemma numeral_functional s q1 q2 : numeral s q1 -> numeral s q2 -> (q1 == q2)%Q.
Proof.
  intros (w & f & Hne & Hw & Hf & Hs & Hq) (w' & f' & Hne' & Hw' & Hf' & Hs' & Hq').
  assert (np : forall a b c, all_digits a -> a = b ++ [46%N] ++ c -> False).
  { intros a b c Ha ->. apply all_digits_app in Ha as [_ Ha]. apply all_digits_app in Ha as [Ha _].
    discriminate Ha. }
  assert (E : w = w' /\ f = f').
  { destruct Hs as [[-> ->]|[Hfn ->]], Hs' as [[-> E]|[Hf'n E]].
    - auto.
    - exfalso; eapply (np w); eauto.
    - exfalso; eapply (np w'); eauto.
    - apply (app_split_stop is_digit w w' 46%N 46%N f f' Hw Hw' eq_refl eq_refl) in E as (-> & _ & ->). auto. }
  destruct E as [<- <-]. rewrite <- Hq. exact Hq'.
Qed.

Theorem C07_one_digit_refuted :
  exists text a m, unit_written (u ".,，") (strip text) a m /\
    ~ numeral (fst (parse_numerical_fact_value text (u "ixt:num-unit-decimal") (u "0"))) (unit_amount a m).
Proof.
  exists (u "5 pounds 7 pence"), (u "5"), (u "7"). split; [exact written_5_7|].
  intros H.
  assert (E : fst (parse_numerical_fact_value (u "5 pounds 7 pence") (u "ixt:num-unit-decimal") (u "0"))
              = u "5.7") by (vm_compute; reflexivity).
  rewrite E in H.
  assert (H' : numeral (u "5.7") (57 # 10)).
  { exists (u "5"), (u "7"). repeat split; try (vm_compute; congruence).
    right; split; [discriminate|reflexivity]. }
  pose proof (numeral_functional _ _ _ H H') as C. vm_compute in C. discriminate.
Qed.

Example C07_ex :
  unit_written (u ".,，") (strip (u "12,345 euro and 67 cents")) (u "12,345") (u "67") /\
  parse_numerical_fact_value (u "12,345 euro and 67 cents") (u "ixt:num-unit-decimal") (u "0")
  = (u "12345.67", []).
Proof.
  split; [|vm_compute; reflexivity].
  exists 32%N, (u "euro and "), (u " cents"). repeat split; vm_compute; try reflexivity; try lia; discriminate.
Qed.

(** *** C08: the sign attribute *)

Theorem C08_minus : forall py_float text format scale,
  format <> None -> format <> Some [] ->
  process_non_fraction_value py_float text format scale (Some (u "-")) =
    let '(v, errs) := process_non_fraction_value py_float text format scale None in
    (45%N :: v, errs).
Proof.
  intros py_float text [[|c f]|] scale H1 H2; try congruence.
  unfold process_non_fraction_value. cbn [truthy].
  change (str_eqb (u "-") (u "-")) with true. change (truthy (Some (u "-"))) with (Some (u "-")).
  cbn iota beta. change (str_eqb (u "-") (u "-")) with true. cbn iota.
  destruct (parse_numerical_fact_value _ _ _). reflexivity.
Qed.

Theorem C08_other_sign : forall py_float text format scale s,
  s <> [] -> s <> u "-" ->
  process_non_fraction_value py_float text format scale (Some s) =
    let '(v, errs) := process_non_fraction_value py_float text format scale None in
    (v, "IXBRL_INVALID_SIGN_ATTRIBUTE_VALUE"%string :: errs).
Proof.
  intros py_float text format scale s H1 H2.
  unfold process_non_fraction_value.
  assert (truthy (Some s) = Some s) as -> by (destruct s; [congruence|reflexivity]).
  change (truthy None) with (@None str).
  destruct (str_eqb_spec s (u "-")) as [E|_]; [congruence|].
  destruct (truthy format) as [f|].
  - destruct (parse_numerical_fact_value _ _ _). reflexivity.
  - destruct (py_float _) as [[]|]; [reflexivity| |reflexivity].
    destruct (parse_numerical_fact_value _ _ _). reflexivity.
Qed.

(** Without a format: a text that is no number, or a negative number, is not accepted; a
    non-negative one is read in the format num-dot-decimal, negated by sign "-". *)
Theorem C08_no_format : forall py_float t scale sign,
  sign = None \/ sign = Some (u "-") ->
  process_non_fraction_value py_float (Some t) None scale sign =
    match py_float t with
    | None => ([], ["IXBRL_NON_NUMERICAL_NON_FRACTION_FACT_VALUE"%string])
    | Some true => ([], ["IXBRL_NEGATIVE_NON_FRACTION_FACT_VALUE"%string])
    | Some false =>
        process_non_fraction_value py_float (Some t) (Some (u "ixt:num-dot-decimal")) scale sign
    end.
Proof.
  intros py_float t scale sign [->| ->]; unfold process_non_fraction_value; cbn [truthy];
    change (str_eqb (u "-") (u "-")) with true; destruct (py_float t) as [[]|]; reflexivity.
Qed.

Example C08_ex :
  process_non_fraction_value (fun _ => Some false) (Some (u "1,234")) (Some (u "ixt:num-dot-decimal"))
    (Some (u "3")) (Some (u "-")) = (u "-1234000", []).
Proof. vm_compute; reflexivity. Qed.

(** A signed zero is read as a lone minus sign. *)
Example C08_signed_zero :
  process_non_fraction_value (fun _ => Some false) (Some (u "0")) (Some (u "ixt:num-dot-decimal"))
    None (Some (u "-")) = (u "-", []).
Proof. vm_compute; reflexivity. Qed.

Print Assumptions C01_scale_exact.
Print Assumptions C01_scale_digits.
Print Assumptions C02_number_as_shown.
Print Assumptions C03_canonical.
Print Assumptions C03_unique.
Print Assumptions C03_canonical_numerals_unique.
Print Assumptions C04_zero_becomes_empty.
Print Assumptions C04_zero_refuted.
Print Assumptions C04_fixed_zero.
Print Assumptions C04_legacy_dash_refuted.
Print Assumptions C05_separators_irrelevant.
Print Assumptions C06_wrong_format_verbatim.
Print Assumptions C06_well_formed_no_error.
Print Assumptions C06_bad_scale.
Print Assumptions C07_two_digit_minor_partial.
Print Assumptions C07_one_digit_minor.
Print Assumptions C07_one_digit_refuted.
Print Assumptions C08_minus.
Print Assumptions C08_other_sign.
Print Assumptions C08_no_format.
