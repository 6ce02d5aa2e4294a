From Verif Require Import Base Regex RegexProofs Registry PyNum NumModel NumSpec.
Local Open Scope nat_scope.
Import ListNotations.

(** ** Digit strings *)

Lemma digits_val_acc s : forall a,
  fold_left (fun acc c => (acc * 10 + (Z.of_N c - 48))%Z) s a
  = (a * 10 ^ Z.of_nat (length s) + digits_val s)%Z.
Proof.
  unfold digits_val. induction s as [|c s IH]; intros a; cbn [fold_left length].
  - cbn. lia.
  - rewrite IH, (IH (0 * 10 + _)%Z). rewrite Nat2Z.inj_succ, Z.pow_succ_r by lia. ring.
Qed.

Lemma digits_val_app a b :
  digits_val (a ++ b) = (digits_val a * 10 ^ Z.of_nat (length b) + digits_val b)%Z.
Proof. unfold digits_val at 1. rewrite fold_left_app, digits_val_acc. reflexivity. Qed.

Lemma digits_val_cons c s :
  digits_val (c :: s) = ((Z.of_N c - 48) * 10 ^ Z.of_nat (length s) + digits_val s)%Z.
Proof. change (c :: s) with ([c] ++ s). rewrite digits_val_app. reflexivity. Qed.

Lemma digits_val_zeros n : digits_val (repeat 48%N n) = 0%Z.
Proof.
  induction n as [|n IH]; [reflexivity|]. cbn [repeat]. rewrite digits_val_cons, IH.
  change (Z.of_N 48) with 48%Z. lia.
Qed.

Lemma pow10_pos n : (0 < 10 ^ Z.of_nat n)%Z.
Proof. apply Z.pow_pos_nonneg; lia. Qed.

Lemma is_digit_range c : is_digit c = true -> (0 <= Z.of_N c - 48 <= 9)%Z.
Proof. unfold is_digit. rewrite andb_true_iff, !N.leb_le. lia. Qed.

Lemma all_digits_app a b : all_digits (a ++ b) <-> all_digits a /\ all_digits b.
Proof. unfold all_digits. rewrite forallb_app, andb_true_iff. reflexivity. Qed.

Lemma all_digits_cons c a : all_digits (c :: a) <-> is_digit c = true /\ all_digits a.
Proof. unfold all_digits; cbn. rewrite andb_true_iff. reflexivity. Qed.

Lemma all_digits_zeros n : all_digits (repeat 48%N n).
Proof. unfold all_digits. induction n; [reflexivity|]. cbn; auto. Qed.

Lemma digits_val_bound s : all_digits s -> (0 <= digits_val s < 10 ^ Z.of_nat (length s))%Z.
Proof.
  induction s as [|c s IH]; intros H.
  - cbn; lia.
  - apply all_digits_cons in H as [Hc Hs]. apply is_digit_range in Hc. specialize (IH Hs).
    rewrite digits_val_cons. cbn [length]. rewrite Nat2Z.inj_succ, Z.pow_succ_r by lia.
    pose proof (pow10_pos (length s)). nia.
Qed.

(** ** dec_val *)

Lemma Q10_nz : ~ (10 == 0)%Q. Proof. discriminate. Qed.

Lemma Qpower10_Z n : (Qpower 10 (Z.of_nat n) == inject_Z (10 ^ Z.of_nat n))%Q.
Proof.
  induction n as [|n IH].
  - reflexivity.
  - rewrite Nat2Z.inj_succ. unfold Z.succ. rewrite Qpower_plus by apply Q10_nz.
    rewrite IH. rewrite Z.pow_add_r by lia. rewrite inject_Z_mult. reflexivity.
Qed.

Lemma Qpow_cancel n : (Qpower 10 (- Z.of_nat n) * Qpower 10 (Z.of_nat n) == 1)%Q.
Proof.
  rewrite <- Qpower_plus by apply Q10_nz. rewrite Z.add_opp_diag_l. reflexivity.
Qed.

Lemma dec_val_shift w x f :
  (dec_val (w ++ x) f == dec_val w (x ++ f) * Qpower 10 (Z.of_nat (length x)))%Q.
Proof.
  unfold dec_val. rewrite <- app_assoc. rewrite <- Qmult_assoc. rewrite <- Qpower_plus by apply Q10_nz.
  rewrite app_length, Nat2Z.inj_add. apply Qmult_comp; [reflexivity|].
  replace (- (Z.of_nat (length x) + Z.of_nat (length f)) + Z.of_nat (length x))%Z
    with (- Z.of_nat (length f))%Z by lia. reflexivity.
Qed.

Lemma dec_val_pad_right w f n : (dec_val w (f ++ repeat 48%N n) == dec_val w f)%Q.
Proof.
  unfold dec_val. rewrite app_assoc, digits_val_app, digits_val_zeros, Z.add_0_r, repeat_length.
  rewrite inject_Z_mult, <- Qpower10_Z, app_length, repeat_length, Nat2Z.inj_add.
  rewrite <- Qmult_assoc, <- Qpower_plus by apply Q10_nz.
  replace (Z.of_nat n + - (Z.of_nat (length f) + Z.of_nat n))%Z with (- Z.of_nat (length f))%Z by lia.
  reflexivity.
Qed.

Lemma dec_val_pad_left w f n : (dec_val (repeat 48%N n ++ w) f == dec_val w f)%Q.
Proof.
  unfold dec_val. rewrite <- app_assoc, digits_val_app, digits_val_zeros. reflexivity.
Qed.

Lemma dec_val_zero_iff w f : (dec_val w f == 0)%Q <-> digits_val (w ++ f) = 0%Z.
Proof.
  unfold dec_val. split.
  - intros H. apply Qmult_integral in H as [H|H].
    + unfold Qeq in H; cbn in H. lia.
    + exfalso. pose proof (Qpow_cancel (length f)) as Hc. rewrite H in Hc. discriminate.
  - intros ->. reflexivity.
Qed.

(** ** C01: apply_scale *)

Definition padl (w : str) (z : Z) : str :=
  if (- z >? Z.of_nat (length w))%Z then zeros (- z - Z.of_nat (length w)) ++ w else w.
Definition padr (f : str) (z : Z) : str :=
  if (z >? Z.of_nat (length f))%Z then f ++ zeros (z - Z.of_nat (length f)) else f.

Lemma apply_scale_eq w f z :
  apply_scale w f z =
  if (z <? 0)%Z
  then (firstn (slice_index (padl w z) z) (padl w z), skipn (slice_index (padl w z) z) (padl w z) ++ f)
  else (w ++ firstn (slice_index (padr f z) z) (padr f z), skipn (slice_index (padr f z) z) (padr f z)).
Proof. reflexivity. Qed.

Lemma apply_scale_value w f z w' f' :
  apply_scale w f z = (w', f') ->
  (dec_val w' f' == dec_val w f * Qpower 10 z)%Q.
Proof.
  rewrite apply_scale_eq.
  destruct (Z.ltb_spec z 0) as [Hz|Hz].
  - assert (Hv : (dec_val (padl w z) f == dec_val w f)%Q).
    { unfold padl. destruct (- z >? _)%Z; [apply dec_val_pad_left|reflexivity]. }
    assert (Hl : (- z <= Z.of_nat (length (padl w z)))%Z).
    { unfold padl. destruct (Z.gtb_spec (- z) (Z.of_nat (length w))) as [Hg|Hg]; [|lia].
      unfold zeros. rewrite app_length, repeat_length. lia. }
    set (w1 := padl w z) in *.
    assert (Hi : (Z.of_nat (slice_index w1 z) = Z.of_nat (length w1) + z)%Z).
    { unfold slice_index. destruct (Z.ltb_spec z 0); lia. }
    set (i := slice_index w1 z) in *.
    intros E; inversion E; subst w' f'; clear E.
    rewrite <- Hv. rewrite <- (firstn_skipn i w1) at 3.
    rewrite dec_val_shift. rewrite <- Qmult_assoc, <- Qpower_plus by apply Q10_nz.
    rewrite skipn_length.
    replace (Z.of_nat (length w1 - i) + z)%Z with 0%Z by lia.
    change (Qpower 10 0) with 1%Q. rewrite Qmult_1_r. reflexivity.
  - assert (Hv : (dec_val w (padr f z) == dec_val w f)%Q).
    { unfold padr. destruct (z >? _)%Z; [apply dec_val_pad_right|reflexivity]. }
    assert (Hl : (z <= Z.of_nat (length (padr f z)))%Z).
    { unfold padr. destruct (Z.gtb_spec z (Z.of_nat (length f))) as [Hg|Hg]; [|lia].
      unfold zeros. rewrite app_length, repeat_length. lia. }
    set (f1 := padr f z) in *.
    assert (Hi : (Z.of_nat (slice_index f1 z) = z)%Z).
    { unfold slice_index. destruct (Z.ltb_spec z 0); lia. }
    set (i := slice_index f1 z) in *.
    intros E; inversion E; subst w' f'; clear E.
    rewrite <- Hv. rewrite dec_val_shift. rewrite firstn_skipn.
    rewrite firstn_length.
    replace (Z.of_nat (Nat.min i (length f1))) with z by lia. reflexivity.
Qed.

Lemma all_digits_firstn n s : all_digits s -> all_digits (firstn n s).
Proof.
  intros H. rewrite <- (firstn_skipn n s) in H. apply all_digits_app in H. tauto.
Qed.
Lemma all_digits_skipn n s : all_digits s -> all_digits (skipn n s).
Proof.
  intros H. rewrite <- (firstn_skipn n s) in H. apply all_digits_app in H. tauto.
Qed.

Lemma padl_digits w z : all_digits w -> all_digits (padl w z).
Proof.
  intros H. unfold padl, zeros. destruct (_ >? _)%Z; [|exact H].
  apply all_digits_app; auto using all_digits_zeros.
Qed.
Lemma padr_digits w z : all_digits w -> all_digits (padr w z).
Proof.
  intros H. unfold padr, zeros. destruct (_ >? _)%Z; [|exact H].
  apply all_digits_app; auto using all_digits_zeros.
Qed.

Lemma apply_scale_digits w f z w' f' :
  apply_scale w f z = (w', f') -> all_digits w -> all_digits f -> all_digits w' /\ all_digits f'.
Proof.
  rewrite apply_scale_eq.
  destruct (z <? 0)%Z; intros E Hw Hf; inversion E; subst w' f'; clear E; rewrite all_digits_app;
    auto using all_digits_firstn, all_digits_skipn, padl_digits, padr_digits.
Qed.

(** No digit is lost or invented apart from padding zeros: the digit sequence is the old one,
    padded with zeros on one side. *)
Lemma apply_scale_sequence w f z w' f' :
  apply_scale w f z = (w', f') ->
  exists l r, w' ++ f' = repeat 48%N l ++ (w ++ f) ++ repeat 48%N r /\
              (l = 0 \/ (z < 0)%Z) /\ (r = 0 \/ (0 < z)%Z).
Proof.
  rewrite apply_scale_eq.
  destruct (Z.ltb_spec z 0) as [Hz|Hz]; intros E; inversion E; subst w' f'; clear E.
  - rewrite app_assoc, firstn_skipn. unfold padl, zeros. destruct (- z >? _)%Z.
    + exists (Z.to_nat (- z - Z.of_nat (length w))), 0. cbn [repeat].
      rewrite app_nil_r, <- app_assoc. auto.
    + exists 0, 0. cbn. rewrite app_nil_r. auto.
  - rewrite <- app_assoc, firstn_skipn. unfold padr, zeros.
    destruct (Z.gtb_spec z (Z.of_nat (length f))) as [Hg|Hg].
    + exists 0, (Z.to_nat (z - Z.of_nat (length f))). cbn [repeat app].
      rewrite <- app_assoc. repeat split; [left; reflexivity|right; lia].
    + exists 0, 0. cbn. rewrite app_nil_r. auto.
Qed.

(** ** Normalisation *)

Lemma normalize_digit_ascii c : (c < 128)%N -> normalize_digit c = c.
Proof.
  intros H. unfold normalize_digit.
  destruct (dict_get N.eqb digits_map c) as [d|] eqn:E; [|reflexivity].
  exfalso. apply (dict_get_in N.eqb N.eqb_spec) in E.
  assert (Hall : forallb (fun p => (128 <=? fst p)%N) digits_map = true) by (vm_compute; reflexivity).
  rewrite forallb_forall in Hall. apply Hall in E. cbn in E. apply N.leb_le in E. lia.
Qed.

Lemma is_digit_lt128 c : is_digit c = true -> (c < 128)%N.
Proof. unfold is_digit. rewrite andb_true_iff, !N.leb_le. lia. Qed.

Lemma normalize_digits_id s : all_digits s -> normalize_digits_in_string s = s.
Proof.
  induction s as [|c s IH]; intros H; [reflexivity|].
  apply all_digits_cons in H as [Hc Hs]. cbn. f_equal; [|apply IH; exact Hs].
  apply normalize_digit_ascii, is_digit_lt128, Hc.
Qed.

Lemma normalize_digits_app a b :
  normalize_digits_in_string (a ++ b) = normalize_digits_in_string a ++ normalize_digits_in_string b.
Proof. apply map_app. Qed.

Lemma rdrop_while_app_stop {A} (f : A -> bool) (l r : list A) x :
  forallb f r = true -> f x = false -> rdrop_while f ((l ++ [x]) ++ r) = l ++ [x].
Proof.
  intros Hr Hx. unfold rdrop_while. rewrite !rev_app_distr. cbn [rev app].
  rewrite drop_while_app_stop; [| |exact Hx].
  - cbn. rewrite rev_involutive. reflexivity.
  - apply forallb_forall. intros y Hy. rewrite <- in_rev in Hy.
    rewrite forallb_forall in Hr. auto.
Qed.

Lemma rdrop_while_fix {A} (f : A -> bool) l x : f x = false -> rdrop_while f (l ++ [x]) = l ++ [x].
Proof. intros H. rewrite <- (app_nil_r (l ++ [x])) at 1. apply rdrop_while_app_stop; auto. Qed.

Lemma ends_with_snoc x l y : ends_with [x] (l ++ [y]) = N.eqb x y.
Proof. unfold ends_with. rewrite rev_app_distr. cbn. apply andb_true_r. Qed.

Definition ltrim (w : str) : str := drop_while is_zero_char w.
Definition rtrim (f : str) : str := rdrop_while is_zero_char f.

(** What normalisation computes for digits [w] . [f]. *)
Definition norm (w f : str) : str :=
  match rtrim f with
  | [] => ltrim w
  | _ => (match ltrim w with [] => [48%N] | w0 => w0 end) ++ [46%N] ++ rtrim f
  end.

Lemma rdrop_app_nonempty (w f : str) x :
  is_zero_char x = false ->
  rdrop_while is_zero_char (w ++ [x] ++ f) = w ++ [x] ++ rtrim f.
Proof.
  intros Hx. unfold rtrim. destruct (rdrop_while_split is_zero_char f) as (q & Hq & Hz & He).
  rewrite Hq at 1. destruct He as [He|(p & y & He & Hy)]; rewrite He.
  - cbn [app]. change (w ++ x :: q) with (w ++ [x] ++ q).
    rewrite app_assoc, rdrop_while_app_stop by assumption. reflexivity.
  - replace (w ++ [x] ++ (p ++ [y]) ++ q) with (((w ++ [x] ++ p) ++ [y]) ++ q)
      by (rewrite <- !app_assoc; reflexivity).
    rewrite rdrop_while_app_stop by assumption. rewrite <- !app_assoc. reflexivity.
Qed.

Lemma ltrim_app_stop w x r : is_zero_char x = false -> ltrim (w ++ x :: r) = ltrim w ++ x :: r.
Proof.
  intros Hx. unfold ltrim. induction w as [|c w IH]; cbn; [rewrite Hx; reflexivity|].
  destruct (is_zero_char c); [exact IH|reflexivity].
Qed.

Lemma ltrim_digits w : all_digits w -> all_digits (ltrim w).
Proof.
  intros H. destruct (drop_while_split is_zero_char w) as (p & Hp & _).
  unfold ltrim. rewrite Hp in H. apply all_digits_app in H; tauto.
Qed.
Lemma rtrim_digits w : all_digits w -> all_digits (rtrim w).
Proof.
  intros H. destruct (rdrop_while_split is_zero_char w) as (q & Hq & _).
  unfold rtrim. rewrite Hq in H. apply all_digits_app in H; tauto.
Qed.

Lemma digit_not_point c : is_digit c = true -> N.eqb 46 c = false.
Proof. unfold is_digit. rewrite andb_true_iff, !N.leb_le. intros. apply N.eqb_neq; lia. Qed.

Lemma normalize_norm w f :
  all_digits w -> all_digits f -> normalize_numerical_fact_value (w ++ [46%N] ++ f) = norm w f.
Proof.
  intros Hw Hf. unfold normalize_numerical_fact_value.
  assert (normalize_digits_in_string (w ++ [46%N] ++ f) = w ++ [46%N] ++ f) as ->.
  { rewrite !normalize_digits_app, (normalize_digits_id w), (normalize_digits_id f) by assumption.
    cbn [normalize_digits_in_string map]. rewrite normalize_digit_ascii by lia. reflexivity. }
  rewrite rdrop_app_nonempty by reflexivity.
  unfold norm. pose proof (rtrim_digits f Hf) as Hrd.
  destruct (rtrim f) as [|c0 t0] eqn:E.
  - cbn [app]. rewrite ends_with_snoc, N.eqb_refl, removelast_last.
    fold (ltrim w). pose proof (ltrim_digits w Hw) as Hl.
    destruct (ltrim w) as [|c l]; [reflexivity|].
    apply all_digits_cons in Hl as [Hc _]. cbn [starts_with].
    rewrite digit_not_point by exact Hc. reflexivity.
  - destruct (@exists_last _ (c0 :: t0)) as (p & y & Ey); [discriminate|].
    rewrite Ey in Hrd |- *. apply all_digits_app in Hrd as [_ Hy].
    apply all_digits_cons in Hy as [Hy _].
    replace (w ++ [46%N] ++ p ++ [y]) with ((w ++ [46%N] ++ p) ++ [y])
      by (rewrite <- !app_assoc; reflexivity).
    rewrite ends_with_snoc, digit_not_point by exact Hy.
    replace ((w ++ [46%N] ++ p) ++ [y]) with (w ++ 46%N :: (p ++ [y]))
      by (rewrite <- !app_assoc; reflexivity).
    fold (ltrim (w ++ 46%N :: (p ++ [y]))). rewrite ltrim_app_stop by reflexivity.
    pose proof (ltrim_digits w Hw) as Hl.
    destruct (ltrim w) as [|c l].
    + destruct p; reflexivity.
    + apply all_digits_cons in Hl as [Hc _]. cbn [app starts_with].
      rewrite digit_not_point by exact Hc. cbn. destruct p; reflexivity.
Qed.

Lemma zero_chars s : forallb is_zero_char s = true -> s = repeat 48%N (length s).
Proof.
  induction s as [|c s IH]; cbn; intros H; [reflexivity|].
  apply andb_prop in H as [Hc H]. apply N.eqb_eq in Hc. rewrite <- IH by exact H. congruence.
Qed.

Lemma dec_val_ltrim w f : (dec_val (ltrim w) f == dec_val w f)%Q.
Proof.
  destruct (drop_while_split is_zero_char w) as (p & Hp & Hz & _).
  unfold ltrim. rewrite Hp at 2. rewrite (zero_chars p Hz). symmetry. apply dec_val_pad_left.
Qed.

Lemma dec_val_rtrim w f : (dec_val w (rtrim f) == dec_val w f)%Q.
Proof.
  destruct (rdrop_while_split is_zero_char f) as (q & Hq & Hz & _).
  unfold rtrim. rewrite Hq at 2. rewrite (zero_chars q Hz). symmetry. apply dec_val_pad_right.
Qed.

Lemma ltrim_head w : ltrim w = [] \/ exists c t, ltrim w = c :: t /\ c <> 48%N.
Proof.
  destruct (drop_while_split is_zero_char w) as (p & Hp & Hz & Hx). unfold ltrim.
  destruct (drop_while is_zero_char w) as [|c t]; [left; reflexivity|right].
  exists c, t. split; [reflexivity|]. apply N.eqb_neq in Hx. exact Hx.
Qed.

Lemma rtrim_last f : rtrim f = [] \/ exists p c, rtrim f = p ++ [c] /\ c <> 48%N.
Proof.
  destruct (rdrop_while_split is_zero_char f) as (q & Hq & Hz & [H|(p & c & H & Hc)]).
  - left; exact H.
  - right; exists p, c. split; [exact H|]. apply N.eqb_neq in Hc; exact Hc.
Qed.

Lemma digits_val_nonzero_head c t : all_digits (c :: t) -> c <> 48%N -> (0 < digits_val (c :: t))%Z.
Proof.
  intros H Hc. apply all_digits_cons in H as [Hd Ht].
  rewrite digits_val_cons. apply is_digit_range in Hd. apply digits_val_bound in Ht.
  pose proof (pow10_pos (length t)). assert (Z.of_N c <> 48%Z) by lia. nia.
Qed.

Lemma digits_val_nonzero_last p c : all_digits (p ++ [c]) -> c <> 48%N -> (0 < digits_val (p ++ [c]))%Z.
Proof.
  intros H Hc. apply all_digits_app in H as [Hp Hd]. apply all_digits_cons in Hd as [Hd _].
  rewrite digits_val_app. cbn [length]. change (10 ^ Z.of_nat 1)%Z with 10%Z.
  apply digits_val_bound in Hp. apply is_digit_range in Hd.
  unfold digits_val at 2; cbn [fold_left]. lia.
Qed.

Lemma norm_zero w f : all_digits w -> all_digits f ->
  (dec_val w f == 0)%Q <-> norm w f = [].
Proof.
  intros Hw Hf. split.
  - intros H. rewrite <- dec_val_rtrim, <- dec_val_ltrim in H.
    apply dec_val_zero_iff in H. pose proof (ltrim_digits w Hw) as Hl. pose proof (rtrim_digits f Hf) as Hr.
    unfold norm. rewrite digits_val_app in H.
    pose proof (digits_val_bound _ Hl). pose proof (digits_val_bound _ Hr).
    pose proof (pow10_pos (length (rtrim f))).
    destruct (rtrim_last f) as [Ef|(p & c & Ef & Hc)].
    + rewrite Ef in *. destruct (ltrim_head w) as [Ew|(c & t & Ew & Hc)]; [exact Ew|].
      rewrite Ew in *. pose proof (digits_val_nonzero_head c t Hl Hc). nia.
    + rewrite Ef in *. pose proof (digits_val_nonzero_last p c Hr Hc). nia.
  - intros H. unfold norm in H. rewrite <- dec_val_rtrim, <- dec_val_ltrim.
    destruct (rtrim f) as [|c t]; [|destruct (ltrim w); discriminate].
    rewrite H. reflexivity.
Qed.

Lemma norm_numeral w f : all_digits w -> all_digits f -> ~ (dec_val w f == 0)%Q ->
  numeral (norm w f) (dec_val w f) /\ canonical (norm w f).
Proof.
  intros Hw Hf Hnz.
  assert (Hne : norm w f <> []) by (intros E; apply Hnz, norm_zero; assumption).
  pose proof (ltrim_digits w Hw) as Hl. pose proof (rtrim_digits f Hf) as Hr.
  unfold norm in *.
  destruct (rtrim_last f) as [Ef|(p & c & Ef & Hc)].
  - rewrite Ef in *. destruct (ltrim_head w) as [Ew|(c & t & Ew & Hc)]; [congruence|].
    split.
    + exists (ltrim w), []. repeat split; auto.
      rewrite <- (dec_val_rtrim w f), Ef. apply dec_val_ltrim.
    + exists (ltrim w), []. repeat split; auto. right; exists c, t; auto.
  - set (w0 := match ltrim w with [] => [48%N] | w0 => w0 end) in *.
    assert (Hw0 : all_digits w0 /\ w0 <> [] /\ (dec_val w0 f == dec_val w f)%Q /\
                  (w0 = [48%N] \/ exists c w', w0 = c :: w' /\ c <> 48%N)).
    { unfold w0. destruct (ltrim_head w) as [Ew|(c' & t' & Ew & Hc')].
      - rewrite Ew. repeat split; [discriminate| |left; reflexivity].
        rewrite <- (dec_val_ltrim w f), Ew. apply (dec_val_pad_left [] f 1).
      - rewrite Ew in Hl |- *. repeat split; [exact Hl|discriminate| |right; eauto].
        rewrite <- Ew. apply dec_val_ltrim. }
    destruct Hw0 as (H1 & H2 & H3 & H4).
    rewrite Ef in Hr |- *.
    assert (match p ++ [c] with [] => ltrim w | _ => w0 ++ [46%N] ++ p ++ [c] end
            = w0 ++ [46%N] ++ p ++ [c]) as -> by (destruct p; reflexivity).
    split.
    + exists w0, (p ++ [c]). repeat split; auto.
      * right. split; [destruct p; discriminate|reflexivity].
      * rewrite <- Ef. rewrite dec_val_rtrim. exact H3.
    + exists w0, (p ++ [c]). repeat split; auto. right. exists p, c. auto.
Qed.

(** ** Uniqueness of canonical numerals *)

Lemma digits_eq_same_length a b :
  all_digits a -> all_digits b -> length a = length b -> digits_val a = digits_val b -> a = b.
Proof.
  revert b; induction a as [|x a IH]; intros [|y b] Ha Hb Hlen Hv; try discriminate; [reflexivity|].
  apply all_digits_cons in Ha as [Hx Ha]. apply all_digits_cons in Hb as [Hy Hb].
  injection Hlen as Hlen. rewrite !digits_val_cons, Hlen in Hv.
  pose proof (digits_val_bound _ Ha). pose proof (digits_val_bound _ Hb). rewrite Hlen in *.
  pose proof (pow10_pos (length b)).
  assert (Z.of_N x = Z.of_N y) by nia. assert (x = y) by lia. subst.
  f_equal. apply IH; auto. lia.
Qed.

Lemma digits_lt_length c a b :
  all_digits (c :: a) -> all_digits b -> c <> 48%N -> length b <= length a ->
  (digits_val b < digits_val (c :: a))%Z.
Proof.
  intros Ha Hb Hc Hl. apply all_digits_cons in Ha as [Hd Ha].
  apply digits_val_bound in Hb. apply digits_val_bound in Ha. apply is_digit_range in Hd.
  rewrite digits_val_cons.
  assert (10 ^ Z.of_nat (length b) <= 10 ^ Z.of_nat (length a))%Z by (apply Z.pow_le_mono_r; lia).
  assert (Z.of_N c <> 48%Z) by lia. nia.
Qed.

(** Whole parts of canonical numerals: "0" or no leading zero. *)
Definition lead_ok (w : str) : Prop := w = [48%N] \/ exists c w', w = c :: w' /\ c <> 48%N.

Lemma lead_ok_lt w1 w2 f1 f2 :
  all_digits w1 -> all_digits w2 -> all_digits f1 -> all_digits f2 ->
  lead_ok w1 -> lead_ok w2 -> length f1 = length f2 -> length w1 < length w2 ->
  (digits_val (w1 ++ f1) < digits_val (w2 ++ f2))%Z.
Proof.
  intros Hw1 Hw2 Hf1 Hf2 H1 H2 Hlf Hlw.
  destruct H2 as [->|(c & w' & -> & Hc)].
  - exfalso. destruct H1 as [->|(c & w' & -> & Hc)]; cbn in Hlw; lia.
  - cbn [app]. apply digits_lt_length; auto.
    + change (c :: w' ++ f2) with ((c :: w') ++ f2). apply all_digits_app; auto.
    + apply all_digits_app; auto.
    + rewrite !app_length. cbn in Hlw. lia.
Qed.


Lemma app_inj_len {A} (a b c d : list A) : length a = length b -> a ++ c = b ++ d -> a = b /\ c = d.
Proof.
  revert b; induction a as [|x a IH]; intros [|y b] Hl H; try discriminate; auto.
  injection H as -> H. injection Hl as Hl. destruct (IH _ Hl H); subst; auto.
Qed.

Lemma lead_ok_unique w1 w2 f1 f2 :
  all_digits w1 -> all_digits w2 -> all_digits f1 -> all_digits f2 ->
  lead_ok w1 -> lead_ok w2 -> length f1 = length f2 ->
  digits_val (w1 ++ f1) = digits_val (w2 ++ f2) -> w1 = w2 /\ f1 = f2.
Proof.
  intros Hw1 Hw2 Hf1 Hf2 H1 H2 Hlf Hv.
  assert (length w1 = length w2) as Hlw.
  { destruct (lt_eq_lt_dec (length w1) (length w2)) as [[Hlt|Heq]|Hgt]; [|exact Heq|].
    - pose proof (lead_ok_lt w1 w2 f1 f2 Hw1 Hw2 Hf1 Hf2 H1 H2 Hlf Hlt). lia.
    - assert (Hlf' : length f2 = length f1) by lia.
      pose proof (lead_ok_lt w2 w1 f2 f1 Hw2 Hw1 Hf2 Hf1 H2 H1 Hlf' Hgt). lia. }
  apply app_inj_len; [exact Hlw|].
  apply digits_eq_same_length; auto; [apply all_digits_app; auto..|].
  rewrite !app_length; lia.
Qed.

Definition trail_ok (f : str) : Prop := f = [] \/ exists f' c, f = f' ++ [c] /\ c <> 48%N.

Lemma dec_val_eq_Z w1 f1 w2 f2 :
  (dec_val w1 f1 == dec_val w2 f2)%Q -> length f1 <= length f2 ->
  (digits_val (w1 ++ f1) * 10 ^ Z.of_nat (length f2 - length f1) = digits_val (w2 ++ f2))%Z.
Proof.
  intros H Hl. set (n := length f2 - length f1).
  rewrite <- (dec_val_pad_right w1 f1 n) in H. unfold dec_val in H.
  rewrite app_assoc, digits_val_app, digits_val_zeros, Z.add_0_r, repeat_length in H.
  assert (length (f1 ++ repeat 48%N n) = length f2) as Hle.
  { rewrite app_length, repeat_length. unfold n; lia. }
  rewrite Hle in H. apply Qmult_inj_r in H.
  - unfold Qeq in H; cbn in H. lia.
  - intros E. pose proof (Qpow_cancel (length f2)) as Hc. rewrite E in Hc. discriminate.
Qed.

Lemma canonical_lengths w1 f1 w2 f2 :
  all_digits w2 -> all_digits f2 -> trail_ok f2 ->
  (dec_val w1 f1 == dec_val w2 f2)%Q -> length f1 <= length f2 -> length f1 = length f2.
Proof.
  intros Hw2 Hf2 Ht H Hl.
  destruct Ht as [->|(f' & c & -> & Hc)]; [cbn in *; lia|].
  destruct (Nat.eq_dec (length f1) (length (f' ++ [c]))) as [|Hne]; [assumption|exfalso].
  apply dec_val_eq_Z in H; [|lia].
  set (k := length (f' ++ [c]) - length f1) in *.
  assert (Hk : (k = S (pred k))%nat) by lia. rewrite Hk in H.
  rewrite Nat2Z.inj_succ, Z.pow_succ_r in H by lia.
  rewrite (app_assoc w2 f' [c]), (digits_val_app (w2 ++ f') [c]) in H. cbn [length] in H.
  change (10 ^ Z.of_nat 1)%Z with 10%Z in H.
  apply all_digits_app in Hf2 as [_ Hd]. apply all_digits_cons in Hd as [Hd _].
  apply is_digit_range in Hd.
  assert (digits_val [c] = Z.of_N c - 48)%Z as Hd1 by reflexivity. rewrite Hd1 in H.
  assert (Z.of_N c <> 48%Z) by lia.
  rewrite Z.mul_assoc, (Z.mul_comm _ 10), <- Z.mul_assoc in H.
  set (P := (digits_val (w1 ++ f1) * 10 ^ Z.of_nat (pred k))%Z) in H. clearbody P. lia.
Qed.

Lemma canonical_unique s1 s2 q1 q2 :
  canonical s1 -> canonical s2 -> numeral s1 q1 -> numeral s2 q2 -> (q1 == q2)%Q -> s1 = s2.
Proof.
  intros C1 C2 N1 N2 Hq.
  assert (key : forall s q, canonical s -> numeral s q ->
     exists w f, all_digits w /\ all_digits f /\ lead_ok w /\ trail_ok f /\ (dec_val w f == q)%Q /\
       s = match f with [] => w | _ => w ++ [46%N] ++ f end).
  { intros s q (w & f & Hw & Hf & Hlead & Hs) (w' & f' & Hne & Hw' & Hf' & Hs' & Hq').
    exists w, f. assert (E : w = w' /\ f = f').
    { assert (np : forall a b c, all_digits a -> a = b ++ [46%N] ++ c -> False).
      { intros a b c Ha ->. apply all_digits_app in Ha as [_ Ha]. apply all_digits_app in Ha as [Ha _].
        discriminate Ha. }
      destruct Hs as [[-> ->]|(g & c & -> & Hc & ->)], Hs' as [[-> E]|[Hf'' E]].
      - subst; auto.
      - exfalso; eapply (np w); eauto.
      - exfalso; eapply (np w'); eauto.
      - clear -E Hw Hw'. revert w' Hw' E; induction w as [|x w IH]; intros [|y w'] Hw' E.
        + injection E as ->. auto.
        + injection E as <- _. apply all_digits_cons in Hw' as [Hd _]; discriminate Hd.
        + injection E as -> _. apply all_digits_cons in Hw as [Hd _]; discriminate Hd.
        + injection E as -> E. apply all_digits_cons in Hw as [_ Hw]. apply all_digits_cons in Hw' as [_ Hw'].
          destruct (IH Hw _ Hw' E); subst; auto. }
    destruct E as [<- <-]. repeat split; auto.
    - destruct Hs as [[-> _]|(g & c & -> & Hc & _)]; [left; reflexivity|right; eauto].
    - destruct Hs as [[-> ->]|(g & c & -> & Hc & ->)]; [reflexivity|]. destruct g; reflexivity. }
  destruct (key _ _ C1 N1) as (w1 & f1 & Hw1 & Hf1 & L1 & T1 & V1 & ->).
  destruct (key _ _ C2 N2) as (w2 & f2 & Hw2 & Hf2 & L2 & T2 & V2 & ->).
  assert (HV : (dec_val w1 f1 == dec_val w2 f2)%Q) by (rewrite V1, V2; exact Hq).
  assert (Hlen : length f1 = length f2).
  { destruct (Nat.le_ge_cases (length f1) (length f2)) as [Hle|Hle].
    - apply (canonical_lengths w1 f1 w2 f2); auto.
    - symmetry. apply (canonical_lengths w2 f2 w1 f1); auto. symmetry; exact HV. }
  pose proof (dec_val_eq_Z _ _ _ _ HV ltac:(lia)) as HZ.
  rewrite Hlen, Nat.sub_diag in HZ. cbn in HZ. rewrite Z.mul_1_r in HZ.
  destruct (lead_ok_unique w1 w2 f1 f2) as [-> ->]; auto.
Qed.
