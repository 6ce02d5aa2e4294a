(** Proofs about the date transformations. *)
From Verif Require Import Base Regex RegexProofs Registry PyNum NumModel NumSpec NumProofs
  NumMatchProofs DateModel DateSpec.
Local Open Scope nat_scope.

(** ** Numbers *)

Lemma in_digit_range c : is_digit c = true -> exists k, (0 <= k <= 9)%Z /\ c = Z.to_N (48 + k).
Proof.
  intros H. apply is_digit_range in H. exists (Z.of_N c - 48)%Z. split; [exact H|lia].
Qed.

Lemma digit_value_range c d : digit_value c = Some d -> (0 <= d <= 9)%Z.
Proof.
  unfold digit_value. destruct (find _ _) as [z|] eqn:E; [|discriminate].
  apply find_some in E as [_ E]. apply andb_prop in E as [E1 E2].
  apply N.leb_le in E1, E2. intros [= <-]. lia.
Qed.

Definition block10 (z : N) : list N := map (fun k => (z + N.of_nat k)%N) (seq 0 10).

Lemma in_block10 z c : (z <= c <= z + 9)%N -> In c (block10 z).
Proof.
  intros H. unfold block10. apply in_map_iff. exists (N.to_nat (c - z)). split; [lia|].
  apply in_seq. lia.
Qed.

(** Normalising a digit of one of the scripts gives the ASCII digit of the same value. *)
Lemma normalize_digit_value c d : digit_value c = Some d -> normalize_digit c = Z.to_N (48 + d).
Proof.
  assert (H : forallb (fun z => forallb (fun c => match digit_value c with
      | Some d => N.eqb (normalize_digit c) (Z.to_N (48 + d)) | None => false end) (block10 z))
      digit_blocks = true) by (vm_compute; reflexivity).
  intros Hd. pose proof Hd as Hd'. unfold digit_value in Hd'.
  destruct (find _ _) as [z|] eqn:E; [|discriminate].
  apply find_some in E as [Hz E]. apply andb_prop in E as [E1 E2]. apply N.leb_le in E1, E2.
  rewrite forallb_forall in H. specialize (H z Hz). rewrite forallb_forall in H.
  specialize (H c (in_block10 z c (conj E1 E2))). rewrite Hd in H. apply N.eqb_eq, H.
Qed.

Definition norm := normalize_digits_in_string.

Lemma norm_num s : forallb is_num_char s = true ->
  all_digits (norm s) /\ digits_val (norm s) = num_val s /\ length (norm s) = length s.
Proof.
  intros H. assert (Hg : all_digits (norm s) /\ forall a,
      fold_left (fun acc c => (acc * 10 + (Z.of_N c - 48))%Z) (norm s) a =
      fold_left (fun acc c => (acc * 10 + match digit_value c with Some d => d | None => 0 end)%Z) s a).
  { induction s as [|c s IH]; [split; reflexivity|].
    cbn [forallb] in H. apply andb_prop in H as [Hc Hs]. destruct (IH Hs) as [Ha Hv].
    unfold is_num_char in Hc. destruct (digit_value c) as [d|] eqn:E; [|discriminate].
    pose proof (digit_value_range _ _ E). pose proof (normalize_digit_value _ _ E) as En.
    change (norm (c :: s)) with (normalize_digit c :: norm s). rewrite En. split.
    - apply all_digits_cons. split; [|exact Ha]. unfold is_digit.
      apply andb_true_intro; split; apply N.leb_le; lia.
    - intros a. cbn [fold_left]. rewrite Hv, E. do 2 f_equal. lia. }
  destruct Hg as [Ha Hv]. split; [exact Ha|]. split; [apply Hv|]. apply map_length.
Qed.

(** [int] of a non-empty string of ASCII digits *)
Lemma digit_of_ascii c : is_digit c = true -> digit_of c = Some (Z.of_N c - 48)%Z.
Proof.
  intros H. unfold digit_of, nd_zeros. cbn [find]. unfold is_digit in H.
  change (48 + 9)%N with 57%N. rewrite H. apply andb_prop in H as [H _]. apply N.leb_le in H.
  f_equal. lia.
Qed.

Lemma int_digits_ascii s : all_digits s -> forall a b, (s <> [] \/ b = true) ->
  int_digits s a b = Some (fold_left (fun acc c => (acc * 10 + (Z.of_N c - 48))%Z) s a).
Proof.
  induction s as [|c s IH]; intros H a b Hb.
  - destruct Hb as [| ->]; [congruence|]. reflexivity.
  - apply all_digits_cons in H as [Hc Hs]. cbn [int_digits fold_left].
    destruct (N.eqb_spec c 95) as [->|_]; [discriminate Hc|].
    rewrite digit_of_ascii by exact Hc. apply IH; auto.
Qed.

Lemma digit_not_space c : is_digit c = true -> is_space c = false.
Proof.
  intros H. destruct (in_digit_range c H) as (k & Hk & ->).
  assert (Hall : forallb (fun k => negb (is_space (48 + N.of_nat k))) (seq 0 10) = true) by reflexivity.
  rewrite forallb_forall in Hall. specialize (Hall (Z.to_nat k)).
  assert (Hi : In (Z.to_nat k) (seq 0 10)) by (apply in_seq; lia). apply Hall in Hi.
  replace (48 + N.of_nat (Z.to_nat k))%N with (Z.to_N (48 + k)) in Hi by lia.
  apply negb_true_iff in Hi. exact Hi.
Qed.

Lemma strip_digits s : all_digits s -> strip s = s.
Proof.
  intros H. destruct s as [|c s]; [reflexivity|].
  unfold strip, lstrip. pose proof H as H'. apply all_digits_cons in H' as [Hc _].
  cbn [drop_while]. rewrite digit_not_space by exact Hc.
  unfold rstrip. destruct (exists_last (l := c :: s)) as (p & x & E); [discriminate|].
  rewrite E. apply rdrop_while_fix. apply digit_not_space.
  rewrite E in H. apply all_digits_app in H as [_ H]. apply all_digits_cons in H. tauto.
Qed.

Lemma py_int_digits s : all_digits s -> s <> [] -> py_int s = Some (digits_val s).
Proof.
  intros H Hn. unfold py_int. rewrite strip_digits by exact H. destruct s as [|c s]; [congruence|].
  pose proof H as H'. apply all_digits_cons in H' as [Hc _].
  destruct (N.eqb_spec c 45) as [->|_]; [discriminate Hc|].
  destruct (N.eqb_spec c 43) as [->|_]; [discriminate Hc|].
  apply int_digits_ascii; [exact H|left; discriminate].
Qed.

Lemma z_range_in z n : (0 <= z < Z.of_nat n)%Z -> In z (map Z.of_nat (seq 0 n)).
Proof.
  intros H. apply in_map_iff. exists (Z.to_nat z). split; [lia|]. apply in_seq. lia.
Qed.

Lemma fmt02_two z : (0 <= z < 100)%Z -> fmt02 z = two z.
Proof.
  assert (H : forallb (fun z => str_eqb (fmt02 z) (two z)) (map Z.of_nat (seq 0 100)) = true)
    by (vm_compute; reflexivity).
  intros Hz. rewrite forallb_forall in H. specialize (H z (z_range_in z 100 Hz)).
  apply str_eqb_eq, H.
Qed.

Lemma two_digits i j : (0 <= i <= 9)%Z -> (0 <= j <= 9)%Z ->
  two (10 * i + j) = [Z.to_N (48 + i); Z.to_N (48 + j)].
Proof.
  intros Hi Hj. unfold two.
  rewrite <- (Z.div_unique (10 * i + j) 10 i j) by lia.
  rewrite <- (Z.mod_unique (10 * i + j) 10 i j) by lia. reflexivity.
Qed.

Lemma four_digits a b c d : (0 <= a <= 9)%Z -> (0 <= b <= 9)%Z -> (0 <= c <= 9)%Z -> (0 <= d <= 9)%Z ->
  four (1000 * a + 100 * b + 10 * c + d) = [Z.to_N (48 + a); Z.to_N (48 + b); Z.to_N (48 + c); Z.to_N (48 + d)].
Proof.
  intros Ha Hb Hc Hd. unfold four.
  rewrite <- (Z.div_unique (1000 * a + 100 * b + 10 * c + d) 100 (10 * a + b) (10 * c + d)) by lia.
  rewrite <- (Z.mod_unique (1000 * a + 100 * b + 10 * c + d) 100 (10 * a + b) (10 * c + d)) by lia.
  rewrite !two_digits by assumption. reflexivity.
Qed.

Definition year_str (y : str) : str :=
  if Nat.eqb (length y) 2 then u "20" ++ y else if Nat.eqb (length y) 1 then u "200" ++ y else y.

Lemma year_str_four y : all_digits y -> In (length y) [1; 2; 4] ->
  year_str y = four (if Nat.eqb (length y) 4 then digits_val y else 2000 + digits_val y).
Proof.
  intros H Hl. destruct y as [|a [|b [|c [|d [|e y]]]]]; cbn in Hl; try lia.
  - apply all_digits_cons in H as [Ha _]. apply in_digit_range in Ha as (i & Hi & ->).
    unfold digits_val. cbn [fold_left length Nat.eqb].
    match goal with |- _ = four ?z => replace z with (1000*2+100*0+10*0+i)%Z by lia end.
    rewrite (four_digits 2 0 0 i) by lia. reflexivity.
  - apply all_digits_cons in H as [Ha H]. apply in_digit_range in Ha as (i & Hi & ->).
    apply all_digits_cons in H as [Ha _]. apply in_digit_range in Ha as (j & Hj & ->).
    unfold digits_val. cbn [fold_left length Nat.eqb].
    match goal with |- _ = four ?z => replace z with (1000*2+100*0+10*i+j)%Z by lia end.
    rewrite (four_digits 2 0 i j) by lia. reflexivity.
  - apply all_digits_cons in H as [Ha H]. apply in_digit_range in Ha as (i & Hi & ->).
    apply all_digits_cons in H as [Ha H]. apply in_digit_range in Ha as (j & Hj & ->).
    apply all_digits_cons in H as [Ha H]. apply in_digit_range in Ha as (k & Hk & ->).
    apply all_digits_cons in H as [Ha _]. apply in_digit_range in Ha as (l & Hl' & ->).
    unfold digits_val. cbn [fold_left length Nat.eqb].
    match goal with |- _ = four ?z => replace z with (1000*i+100*j+10*k+l)%Z by lia end.
    rewrite four_digits by lia. reflexivity.
Qed.

Lemma two_ex n : (0 <= n <= 99)%Z -> exists i j, (0 <= i <= 9)%Z /\ (0 <= j <= 9)%Z /\ n = (10 * i + j)%Z.
Proof.
  intros H. exists (n / 10)%Z, (n mod 10)%Z.
  pose proof (Z.div_mod n 10). pose proof (Z.mod_pos_bound n 10). lia.
Qed.

Lemma dig_ok k : (0 <= k <= 9)%Z -> dig (Z.to_N (48 + k)) = Some k.
Proof.
  intros H. unfold dig.
  replace ((48 <=? Z.to_N (48 + k)) && (Z.to_N (48 + k) <=? 57))%N with true.
  - f_equal. lia.
  - symmetry. apply andb_true_intro; split; apply N.leb_le; lia.
Qed.

Lemma fromiso_ok y m d : (0 <= y <= 9999)%Z -> (0 <= m <= 99)%Z -> (0 <= d <= 99)%Z ->
  fromisoformat_ok (four y ++ u "-" ++ two m ++ u "-" ++ two d) = date_exists y m d.
Proof.
  intros Hy Hm Hd.
  assert (exists a b, (0 <= a <= 99)%Z /\ (0 <= b <= 99)%Z /\ y = (100 * a + b)%Z) as (y1 & y2 & Hy1 & Hy2 & ->).
  { exists (y / 100)%Z, (y mod 100)%Z. pose proof (Z.div_mod y 100). pose proof (Z.mod_pos_bound y 100). lia. }
  destruct (two_ex y1 Hy1) as (a & b & ? & ? & ->). destruct (two_ex y2 Hy2) as (c & e & ? & ? & ->).
  destruct (two_ex m Hm) as (f & g & ? & ? & ->). destruct (two_ex d Hd) as (h & i & ? & ? & ->).
  replace (100 * (10 * a + b) + (10 * c + e))%Z with (1000 * a + 100 * b + 10 * c + e)%Z by lia.
  rewrite four_digits, !two_digits by assumption.
  change (u "-") with [45%N]. cbn [app fromisoformat_ok].
  rewrite !dig_ok by assumption. cbn [N.eqb Pos.eqb andb]. f_equal; lia.
Qed.

(** ** The calendar *)

Lemma is_leap_spec y : is_leap y = true <-> leap y.
Proof.
  unfold is_leap, leap.
  rewrite andb_true_iff, orb_true_iff, negb_true_iff, !Z.eqb_eq, Z.eqb_neq.
  rewrite !Z.mod_divide by lia. split.
  - intros [H4 [H|H]]; [left; auto|right; auto].
  - intros [[H4 H]|H]; [auto|]. split; [|auto]. eapply Z.divide_trans; [|exact H]. exists 100%Z; reflexivity.
Qed.

Lemma date_exists_spec y m d : date_exists y m d = true <-> real_day y m d.
Proof.
  unfold date_exists, real_day. rewrite !andb_true_iff, !Z.leb_le.
  assert (Hm : (1 <= m <= 12)%Z -> month_has y m (month_len y m) /\ forall n, month_has y m n -> n = month_len y m).
  { intros H.
    assert (Hc : In m [1;2;3;4;5;6;7;8;9;10;11;12]%Z) by (cbn; lia).
    unfold month_has, month_len. cbn [In] in Hc.
    destruct (is_leap y) eqn:El.
    - apply is_leap_spec in El.
      repeat destruct Hc as [<-|Hc]; try contradiction; cbn; split;
        try (eexists; split; [reflexivity|]; first [left; split; [reflexivity|split; [exact El|reflexivity]]
                                      | right; split; [intros [? _]; discriminate|reflexivity]]);
        intros n (k & [= <-] & [(? & _ & ->)|(Hn & ->)]); try reflexivity; try discriminate;
        exfalso; apply Hn; auto.
    - assert (El' : ~ leap y) by (rewrite <- is_leap_spec; congruence).
      repeat destruct Hc as [<-|Hc]; try contradiction; cbn; split;
        try (eexists; split; [reflexivity|]; right; split; [intros [? ?]; first [contradiction|discriminate]|reflexivity]);
        intros n (k & [= <-] & [(? & ? & ->)|(Hn & ->)]); try reflexivity; try discriminate; contradiction. }
  split.
  - intros (((((H1 & H2) & H3) & H4) & H5) & H6). destruct (Hm (conj H3 H4)) as [Hh _].
    repeat split; try assumption. exists (month_len y m). split; assumption.
  - intros ((H1 & H2) & (H3 & H4) & H5 & n & Hn & H6). destruct (Hm (conj H3 H4)) as [_ Hu].
    rewrite <- (Hu n Hn). repeat split; assumption.
Qed.

Lemma date_exists_day1 y m : (0 <= y <= 9999)%Z -> (1 <= m <= 12)%Z -> date_exists y m 1 = (1 <=? y)%Z.
Proof.
  intros Hy Hm. unfold date_exists.
  assert (1 <= month_len y m)%Z by (unfold month_len; repeat match goal with |- context [if ?b then _ else _] => destruct b end; lia).
  replace (y <=? 9999)%Z with true by (symmetry; apply Z.leb_le; lia).
  replace (1 <=? m)%Z with true by (symmetry; apply Z.leb_le; lia).
  replace (m <=? 12)%Z with true by (symmetry; apply Z.leb_le; lia).
  replace (1 <=? month_len y m)%Z with true by (symmetry; apply Z.leb_le; lia).
  rewrite !andb_true_r. reflexivity.
Qed.

(** ** From parts to the result *)

(** The end of [normalize_date_parts], after the era conversion. *)
Definition norm_tail (ps : list (part * str)) (format : str) : res (list (part * str)) :=
  do! out <- (match dict_get part_eqb ps Day with
              | Some d => do! z <- py_int_res d ; Ok [(Day, fmt02 z)]
              | None => Ok []
              end) ;
  do! out <- (match dict_get part_eqb ps Month with
              | Some m =>
                  do! country <- country_of format ;
                  match dict_get (opt_eqb str_eqb) country_to_month_names country with
                  | None => Raise KeyError
                  | Some names =>
                      match month_index names (lower m) 0 with
                      | Some i => Ok (dict_set part_eqb out Month (fmt02 (Z.of_nat i)))
                      | None => Ok out
                      end
                  end
              | None => Ok out
              end) ;
  match dict_get part_eqb ps Year with
  | Some y =>
      if str_eqb format indian_format then Raise KeyError
      else if Nat.eqb (length y) 2 then Ok (dict_set part_eqb out Year (u "20" ++ y))
      else if Nat.eqb (length y) 1 then Ok (dict_set part_eqb out Year (u "200" ++ y))
      else Ok (dict_set part_eqb out Year y)
  | None => Ok out
  end.

Lemma normalize_date_parts_eq raw format :
  normalize_date_parts raw format =
  (do! ps <- normalize_parts raw ;
   do! ps <- (if contains (u "jpn") format then convert_japanese ps else Ok ps) ;
   norm_tail ps format).
Proof. reflexivity. Qed.

Definition opt_list {A} (o : option A) : list A := match o with Some x => [x] | None => [] end.
Definition opt_all {A} (P : A -> Prop) (o : option A) : Prop := match o with Some x => P x | None => True end.

Definition ascii_num (lens : list nat) (s : str) : Prop := all_digits s /\ In (length s) lens.

Lemma ascii_num_2_val s : ascii_num [1; 2] s -> (0 <= digits_val s < 100)%Z /\ s <> [].
Proof.
  intros [H Hl]. pose proof (digits_val_bound s H) as Hb. split.
  - destruct s as [|a [|b [|c s]]]; cbn in Hl; try lia; cbn [length] in Hb;
      try change (10 ^ Z.of_nat 1)%Z with 10%Z in Hb; try change (10 ^ Z.of_nat 2)%Z with 100%Z in Hb; lia.
  - destruct s; [cbn in Hl; lia|discriminate].
Qed.

Definition year_val (s : str) : Z := if Nat.eqb (length s) 4 then digits_val s else 2000 + digits_val s.
Lemma year_val_bound s : ascii_num [1; 2; 4] s -> (0 <= year_val s <= 9999)%Z.
Proof.
  intros [H Hl]. pose proof (digits_val_bound s H) as Hb. unfold year_val.
  destruct s as [|a [|b [|c [|d [|e s]]]]]; cbn [length In] in Hl; try lia; cbn [length] in Hb;
    cbn [length Nat.eqb]; try change (10 ^ Z.of_nat 1)%Z with 10%Z in Hb;
    try change (10 ^ Z.of_nat 2)%Z with 100%Z in Hb; try change (10 ^ Z.of_nat 4)%Z with 10000%Z in Hb; lia.
Qed.

Lemma norm_tail_eq ps fmt country names m :
  str_eqb fmt indian_format = false ->
  country_of fmt = Ok country ->
  dict_get (opt_eqb str_eqb) country_to_month_names country = Some names ->
  opt_all (ascii_num [1; 2]) (dict_get part_eqb ps Day) ->
  opt_all (ascii_num [1; 2; 4]) (dict_get part_eqb ps Year) ->
  dict_get part_eqb ps Month = Some m ->
  norm_tail ps fmt = Ok (
    opt_list (option_map (fun d => (Day, two (digits_val d))) (dict_get part_eqb ps Day)) ++
    opt_list (option_map (fun i => (Month, fmt02 (Z.of_nat i))) (month_index names (lower m) 0)) ++
    opt_list (option_map (fun y => (Year, four (year_val y))) (dict_get part_eqb ps Year))).
Proof.
  intros Hi Hc Hn Hd Hy Hm. unfold norm_tail. rewrite Hm, Hc. cbn [bind]. rewrite Hn, Hi.
  assert (Hday : (match dict_get part_eqb ps Day with
              | Some d => do! z <- py_int_res d ; Ok [(Day, fmt02 z)]
              | None => Ok []
              end) = Ok (opt_list (option_map (fun d => (Day, two (digits_val d))) (dict_get part_eqb ps Day)))).
  { destruct (dict_get part_eqb ps Day) as [d|]; [|reflexivity]. cbn in Hd.
    destruct (ascii_num_2_val d Hd) as [Hb Hne]. destruct Hd as [Hd _].
    unfold py_int_res. rewrite py_int_digits by assumption. cbn [bind]. rewrite fmt02_two by exact Hb.
    reflexivity. }
  rewrite Hday. cbn [bind]. clear Hday.
  assert (Hyear : forall y, dict_get part_eqb ps Year = Some y -> forall out : list (part * str),
     (if Nat.eqb (length y) 2 then Ok (dict_set part_eqb out Year (u "20" ++ y))
      else if Nat.eqb (length y) 1 then Ok (dict_set part_eqb out Year (u "200" ++ y))
      else Ok (dict_set part_eqb out Year y)) = Ok (dict_set part_eqb out Year (four (year_val y)))).
  { intros y E out. rewrite E in Hy. cbn in Hy. destruct Hy as [Hy Hl].
    pose proof (year_str_four y Hy Hl) as Es. unfold year_val. rewrite <- Es. unfold year_str.
    destruct (Nat.eqb (length y) 2); [reflexivity|]. destruct (Nat.eqb (length y) 1); reflexivity. }
  destruct (month_index names (lower m) 0) as [i|]; cbn [bind];
    (destruct (dict_get part_eqb ps Year) as [y|]; [rewrite (Hyear y eq_refl)|]);
    destruct (dict_get part_eqb ps Day) as [d|]; reflexivity.
Qed.

(** Everything after the era conversion. *)
Definition finish (ev : list (part * str) -> res bool) (ps : list (part * str)) (is_recurring is_full : bool)
  : res (str * log) :=
  do! errs <- validate_date_fact_value ev ps is_recurring is_full ;
  if is_full then
    do! y <- get_part ps Year ; do! m <- get_part ps Month ; do! d <- get_part ps Day ;
    Ok (y ++ u "-" ++ m ++ u "-" ++ d, errs)
  else if is_recurring then
    do! m <- get_part ps Month ; do! d <- get_part ps Day ;
    Ok (u "--" ++ m ++ u "-" ++ d, errs)
  else
    do! y <- get_part ps Year ; do! m <- get_part ps Month ;
    Ok (y ++ u "-" ++ m, errs).

Definition INV : log := ["INVALID_GREGORIAN_DATE"%string].

(** The outcome in terms of the numbers. *)
Definition outcome (y : option Z) (m : option nat) (d : option Z) : res (str * log) :=
  match m with
  | None => Raise KeyError
  | Some m =>
      let m := Z.of_nat m in
      Ok (iso y (Some m) d,
          match y, d with
          | Some y, Some d => if date_exists y m d then [] else INV
          | Some y, None => if (1 <=? y)%Z then [] else INV
          | None, _ => []
          end)
  end.

Lemma finish_eq ev (d : option Z) (m : option nat) (y : option Z) rec full :
  rec = match y with None => true | Some _ => false end ->
  full = match y, d with Some _, Some _ => true | _, _ => false end ->
  (y = None -> d <> None) ->
  opt_all (fun d => 0 <= d < 100)%Z d -> opt_all (fun m => 1 <= m <= 12) m ->
  opt_all (fun y => 0 <= y <= 9999)%Z y ->
  finish ev (opt_list (option_map (fun d => (Day, two d)) d) ++
             opt_list (option_map (fun i => (Month, fmt02 (Z.of_nat i))) m) ++
             opt_list (option_map (fun y => (Year, four y)) y)) rec full = outcome y m d.
Proof.
  intros -> -> Hyd Hd Hm Hy. destruct m as [m|].
  - cbn [opt_all] in Hm. cbn [option_map opt_list]. rewrite fmt02_two by lia.
    destruct y as [y|], d as [d|]; cbn [opt_all option_map opt_list app] in *.
    + unfold finish, validate_date_fact_value, get_part, outcome, dict_mem, iso.
      cbn [dict_get part_eqb negb orb andb app bind].
      rewrite (fromiso_ok y (Z.of_nat m) d) by lia. destruct (date_exists y (Z.of_nat m) d); reflexivity.
    + unfold finish, validate_date_fact_value, get_part, outcome, dict_mem, iso.
      cbn [dict_get part_eqb negb orb andb app bind].
      change (u "01") with (two 1).
      rewrite (fromiso_ok y (Z.of_nat m) 1) by lia. rewrite date_exists_day1 by lia. cbn [app]. rewrite app_nil_r.
      destruct (1 <=? y)%Z; reflexivity.
    + unfold finish, validate_date_fact_value, get_part, outcome, dict_mem, iso.
      cbn [dict_get part_eqb negb orb andb app bind].
      change (u "01") with (two 1). change (u "2020") with (four 2020).
      rewrite (fromiso_ok 2020 (Z.of_nat m) 1) by lia. rewrite date_exists_day1 by lia. reflexivity.
    + exfalso; apply Hyd; reflexivity.
  - cbn [option_map opt_list app].
    destruct y as [y|], d as [d|]; try (exfalso; apply Hyd; reflexivity); cbn; reflexivity.
Qed.
