(** Proofs about [open_edgar]. *)
From Coq Require Import Sorting.Sorted.
From Verif Require Import Base PyNum NumSpec NumProofs NumModel DateProofs DtsModel DtsSpec DtsProofs EdgarModel EdgarSpec.
Local Open Scope nat_scope.

(** ** Comprehensions without exceptions *)

Lemma filter_res_ok {A} (f : A -> res bool) g l :
  (forall x, In x l -> f x = Ok (g x)) -> filter_res f l = Ok (filter g l).
Proof.
  induction l as [|x l IH]; intros H; [reflexivity|]. cbn [filter_res filter].
  rewrite H by (cbn; auto). rewrite IH by (intros; apply H; cbn; auto). reflexivity.
Qed.

Lemma map_res_ok {A B} (f : A -> res B) g l :
  (forall x, In x l -> f x = Ok (g x)) -> map_res f l = Ok (map g l).
Proof.
  induction l as [|x l IH]; intros H; [reflexivity|]. cbn [map_res map].
  rewrite H by (cbn; auto). rewrite IH by (intros; apply H; cbn; auto). reflexivity.
Qed.

Lemma at_map {A B} (f : A -> B) l i : at_ (map f l) i = match nth_error l i with Some x => Ok (f x) | None => Raise IndexError end.
Proof. unfold at_. rewrite nth_error_map. destruct (nth_error l i); reflexivity. Qed.

(** ** Dates *)

Lemma remove_char c s : remove_all [c] s = filter (fun x => negb (N.eqb x c)) s.
Proof.
  unfold remove_all. induction s as [|x s IH]; [reflexivity|]. cbn [remove_from starts_with filter].
  rewrite N.eqb_sym. destruct (N.eqb x c); cbn [andb negb]; [exact IH|]. f_equal; exact IH.
Qed.

Lemma filter_digits s : all_digits s -> filter (fun x => negb (N.eqb x (ch "-"))) s = s.
Proof.
  induction s as [|c s IH]; intros H; [reflexivity|]. apply all_digits_cons in H as [Hc Hs].
  cbn [filter]. destruct (N.eqb_spec c (ch "-")) as [->|]; [discriminate Hc|]. cbn. f_equal; auto.
Qed.

Lemma iso_key s y m d : iso_date s y m d ->
  py_int (remove_all (u "-") s) = Some (y * 10000 + m * 100 + d)%Z /\ (0 <= m < 100)%Z /\ (0 <= d < 100)%Z.
Proof.
  intros (a & b & c & -> & Ha & Hb & Hc & La & Lb & Lc & <- & <- & <-).
  change (u "-") with [ch "-"]. rewrite remove_char, !filter_app.
  rewrite (filter_digits a), (filter_digits b), (filter_digits c) by auto.
  change (filter (fun x => negb (N.eqb x (ch "-"))) [ch "-"]) with (@nil N). cbn [app].
  assert (H : all_digits (a ++ b ++ c)) by (apply all_digits_app; split; [|apply all_digits_app]; auto).
  rewrite py_int_digits; [|exact H|destruct a; discriminate].
  rewrite !digits_val_app, app_length, Lb, Lc.
  pose proof (digits_val_bound b Hb) as B1. pose proof (digits_val_bound c Hc) as B2.
  rewrite Lb in B1. rewrite Lc in B2. change (10 ^ Z.of_nat 2)%Z with 100%Z in *.
  change (10 ^ Z.of_nat (2 + 2))%Z with 10000%Z. split; [f_equal; lia|lia].
Qed.

Definition key_of (s : str) : Z := match py_int (remove_all (u "-") s) with Some k => k | None => 0%Z end.

Lemma dated_key x : dated x -> py_int (remove_all (u "-") (row_date x)) = Some (key_of (row_date x)).
Proof. intros (y & m & d & H). unfold key_of. destruct (iso_key _ _ _ _ H) as (-> & _). reflexivity. Qed.

Lemma key_not_before s t : (key_of t <= key_of s)%Z -> not_before s t.
Proof.
  intros H y m d y' m' d' Hs Ht. unfold key_of in H.
  destruct (iso_key _ _ _ _ Hs) as (E & B1 & B2). destruct (iso_key _ _ _ _ Ht) as (E' & B1' & B2').
  rewrite E, E' in H. lia.
Qed.

Lemma iso_date_fun s y m d y' m' d' : iso_date s y m d -> iso_date s y' m' d' -> y = y' /\ m = m' /\ d = d'.
Proof.
  intros H H'. destruct (iso_key _ _ _ _ H) as (E & B1 & B2). destruct (iso_key _ _ _ _ H') as (E' & B1' & B2').
  rewrite E in E'. injection E' as E'. lia.
Qed.

Lemma split_at {A} (a b a' b' : list A) : length a = length a' -> a ++ b = a' ++ b' -> a = a' /\ b = b'.
Proof.
  revert a'; induction a as [|x a IH]; intros [|y a']; cbn; try discriminate; auto.
  intros [= L] [= -> E]. destruct (IH _ L E) as [-> ->]. auto.
Qed.

Lemma digits_val_inj a : forall b, all_digits a -> all_digits b -> length a = length b -> digits_val a = digits_val b -> a = b.
Proof.
  induction a as [|x a IH]; intros [|y b] Ha Hb; cbn [length]; try discriminate; auto.
  intros [= L] E. apply all_digits_cons in Ha as [Hx Ha]. apply all_digits_cons in Hb as [Hy Hb].
  rewrite !digits_val_cons, L in E.
  pose proof (digits_val_bound a Ha) as B1. pose proof (digits_val_bound b Hb) as B2. rewrite L in B1.
  apply is_digit_range in Hx, Hy.
  assert (digits_val a = digits_val b /\ Z.of_N x = Z.of_N y) as [E1 E2].
  { revert E B1 B2. generalize (10 ^ Z.of_nat (length b))%Z (digits_val a) (digits_val b).
    intros P A B E B1 B2. assert (Exy : Z.of_N x = Z.of_N y).
    { destruct (Z.lt_trichotomy (Z.of_N x) (Z.of_N y)) as [C|[C|C]]; [exfalso|exact C|exfalso].
      - assert ((Z.of_N x - 48) * P + P <= (Z.of_N y - 48) * P)%Z by nia. lia.
      - assert ((Z.of_N y - 48) * P + P <= (Z.of_N x - 48) * P)%Z by nia. lia. }
    rewrite Exy in E. split; [lia|exact Exy]. }
  rewrite (IH b Ha Hb L E1). f_equal. lia.
Qed.

Lemma iso_date_inj s t y m d : iso_date s y m d -> iso_date t y m d -> s = t.
Proof.
  intros (a & b & c & -> & Ha & Hb & Hc & La & Lb & Lc & <- & <- & <-)
         (a' & b' & c' & -> & Ha' & Hb' & Hc' & La' & Lb' & Lc' & E1 & E2 & E3).
  rewrite (digits_val_inj a a'), (digits_val_inj b b'), (digits_val_inj c c'); auto; congruence.
Qed.

Lemma key_inj x z : dated x -> dated z -> key_of (row_date x) = key_of (row_date z) -> row_date x = row_date z.
Proof.
  intros (y & m & d & H) (y' & m' & d' & H') E. unfold key_of in E.
  destruct (iso_key _ _ _ _ H) as (K & B1 & B2). destruct (iso_key _ _ _ _ H') as (K' & B1' & B2').
  rewrite K, K' in E. assert (y = y' /\ m = m' /\ d = d') as (-> & -> & ->) by lia.
  eapply iso_date_inj; eauto.
Qed.

(** ** Choosing a row *)

Definition fitb (type : str) (date : option str) (x : row) : bool :=
  str_eqb (row_form x) type && str_eqb (row_xbrl x) (u "1") &&
  match date with Some d => str_eqb (row_date x) d | None => true end.

Lemma fitb_spec type date x : fitb type date x = true <-> wanted type date x.
Proof.
  unfold fitb, wanted. rewrite !andb_true_iff, !str_eqb_eq. destruct date; [rewrite str_eqb_eq|]; tauto.
Qed.

Definition on_row {A} (rows : list row) (f : row -> A) (d : A) (i : nat) : A :=
  match nth_error rows i with Some x => f x | None => d end.

Lemma report_fits_row rows type date i : i < length rows ->
  report_fits (table rows) type date i = Ok (on_row rows (fitb type date) false i).
Proof.
  intros H. unfold report_fits, on_row, fitb, table. cbn [r_form r_xbrl r_date]. rewrite !at_map.
  destruct (nth_error rows i) as [x|] eqn:E; [|apply nth_error_None in E; lia].
  destruct date; reflexivity.
Qed.

Definition fitting rows type date : list nat :=
  filter (on_row rows (fitb type date) false) (seq 0 (length rows)).
Definition keyed rows (i : nat) : nat * Z := (i, on_row rows (fun x => key_of (row_date x)) 0%Z i).

Lemma fitting_in rows type date i : In i (fitting rows type date) <->
  exists x, nth_error rows i = Some x /\ wanted type date x.
Proof.
  unfold fitting. rewrite filter_In, in_seq. unfold on_row. split.
  - intros [_ H]. destruct (nth_error rows i) as [x|]; [|discriminate].
    exists x. split; [reflexivity|]. apply fitb_spec, H.
  - intros (x & E & H). rewrite E. apply fitb_spec in H. split; [|exact H].
    assert (i < length rows) by (apply nth_error_Some; congruence). lia.
Qed.

Lemma choose_table rows type date : all_dated rows type date ->
  choose (table rows) type date =
    match sort_reverse (map (keyed rows) (fitting rows type date)) with
    | (i, _) :: _ => Ok i | [] => Raise ValueError end.
Proof.
  intros Hd. unfold choose. unfold table at 2. cbn [r_form]. rewrite map_length.
  rewrite (filter_res_ok _ (on_row rows (fitb type date) false)).
  2:{ intros i Hi. apply in_seq in Hi. apply report_fits_row. lia. }
  cbn [bind]. fold (fitting rows type date).
  rewrite (map_res_ok _ (keyed rows)); [reflexivity|].
  intros i Hi. apply fitting_in in Hi as (x & E & Hw). unfold date_key, keyed, on_row, table. cbn [r_date].
  rewrite at_map, E. cbn [bind]. rewrite dated_key; [reflexivity|].
  apply Hd; [eapply nth_error_In; eauto|exact Hw].
Qed.

Definition down (a b : nat * Z) : bool := (snd b <=? snd a)%Z.
Lemma down_total a b : down a b = true \/ down b a = true.
Proof. unfold down. rewrite !Z.leb_le. lia. Qed.
Lemma down_trans a b c : down a b = true -> down b c = true -> down a c = true.
Proof. unfold down. rewrite !Z.leb_le. lia. Qed.

Lemma sort_head l p t : sort_reverse l = p :: t ->
  In p l /\ (forall q, In q l -> (snd q <= snd p)%Z) /\
  exists a b, l = a ++ p :: b /\ forall q, In q a -> snd q <> snd p.
Proof.
  unfold sort_reverse. fold down. intros E.
  assert (P : Permutation l (p :: t)) by (rewrite <- E; apply stable_sort_perm).
  assert (S : StronglySorted (le down) (p :: t)).
  { rewrite <- E. apply stable_sort_sorted; [apply down_total|apply down_trans]. }
  assert (I : In p l) by (apply Permutation_sym in P; eapply Permutation_in; [exact P|cbn; auto]).
  split; [exact I|]. split.
  - intros q Hq. apply (Permutation_in _ P) in Hq as [->|Hq]; [lia|].
    inversion_clear S as [|? ? _ F]. rewrite Forall_forall in F. specialize (F q Hq).
    unfold le, down in F. apply Z.leb_le in F. exact F.
  - pose proof (stable_sort_stable down down_total down_trans p l) as St.
    rewrite E in St. cbn [filter] in St.
    assert (Hp : same_key down p p = true) by (unfold same_key, down; rewrite Z.leb_refl; reflexivity).
    rewrite Hp in St. clear -St.
    induction l as [|q l IH]; [discriminate|]. cbn [filter] in St.
    destruct (same_key down p q) eqn:K.
    + injection St as Ep _. subst. exists [], l. split; [reflexivity|]. intros ? [].
    + destruct (IH St) as (a & b & -> & Ha). exists (q :: a), b. split; [reflexivity|].
      intros r [<-|Hr]; [|auto]. intros F. unfold same_key, down in K. rewrite F, Z.leb_refl in K. discriminate.
Qed.

Lemma filter_split {A} (f : A -> bool) l a x b : filter f l = a ++ x :: b ->
  exists l1 l2, l = l1 ++ x :: l2 /\ filter f l1 = a.
Proof.
  revert a; induction l as [|y l IH]; intros a E.
  - destruct a; discriminate.
  - cbn [filter] in E. destruct (f y) eqn:F.
    + destruct a as [|z a]; cbn in E.
      * injection E as -> _. exists [], l. auto.
      * injection E as -> E. destruct (IH _ E) as (l1 & l2 & -> & <-). exists (z :: l1), l2.
        cbn [filter]. rewrite F. auto.
    + destruct (IH _ E) as (l1 & l2 & -> & <-). exists (y :: l1), l2. cbn [filter]. rewrite F. auto.
Qed.

Lemma seq_split_at n l1 i l2 : forall k, seq k n = l1 ++ i :: l2 -> l1 = seq k (i - k) /\ k <= i.
Proof.
  revert n. induction l1 as [|x l1 IH]; intros n k E.
  - destruct n; [discriminate|]. injection E as <- _. rewrite Nat.sub_diag. auto.
  - destruct n; [discriminate|]. injection E as <- E. apply IH in E as [-> H].
    split; [|lia]. replace (i - k) with (S (i - S k)) by lia. reflexivity.
Qed.

Lemma map_eq_split {A B} (f : A -> B) l a y b : map f l = a ++ y :: b ->
  exists a' x b', l = a' ++ x :: b' /\ map f a' = a /\ f x = y.
Proof.
  revert a; induction l as [|x l IH]; intros a E.
  - destruct a; discriminate.
  - destruct a as [|z a]; cbn in E.
    + injection E as E _. exists [], x, l. auto.
    + injection E as E1 E2. destruct (IH _ E2) as (a' & x' & b' & -> & <- & <-). subst z.
      exists (x :: a'), x', b'. auto.
Qed.

Lemma choose_latest rows type date i : all_dated rows type date ->
  choose (table rows) type date = Ok i ->
  exists x, nth_error rows i = Some x /\ latest rows type date x.
Proof.
  intros Hd. rewrite choose_table by exact Hd.
  destruct (sort_reverse _) as [|[i' k] t] eqn:E; [discriminate|]. intros [= ->].
  apply sort_head in E as (I & M & a & b & Ea & Hb).
  apply in_map_iff in I as (i' & Ei & I). unfold keyed in Ei. injection Ei as -> Ek.
  apply fitting_in in I as (x & Ex & Hw). exists x. split; [exact Ex|].
  unfold on_row in Ek. rewrite Ex in Ek. subst k.
  destruct (nth_error_split _ _ Ex) as (l1 & l2 & El & Ll).
  exists l1, l2. split; [exact El|]. split; [exact Hw|]. split.
  - intros z Hz Wz. apply key_not_before.
    assert (Hz' : In z rows) by (rewrite El; apply in_or_app; apply in_app_or in Hz as [|]; cbn; auto).
    destruct (In_nth_error _ _ Hz') as (j & Ej).
    specialize (M (keyed rows j)). unfold keyed, on_row in M. rewrite Ej in M. apply M.
    apply in_map_iff. exists j. split; [unfold keyed, on_row; rewrite Ej; reflexivity|].
    apply fitting_in. eauto.
  - intros z Hz Wz Ez.
    apply map_eq_split in Ea as (a' & j & b' & Ef & <- & Ej).
    unfold keyed in Ej. injection Ej as -> _.
    unfold fitting in Ef. apply filter_split in Ef as (s1 & s2 & Es & <-).
    apply seq_split_at in Es as [-> _]. rewrite Nat.sub_0_r in Hb.
    destruct (In_nth_error _ _ Hz) as (j & Ej).
    assert (j < length l1) by (apply nth_error_Some; congruence).
    assert (Ej' : nth_error rows j = Some z) by (rewrite El, nth_error_app1 by lia; exact Ej).
    apply (Hb (keyed rows j)).
    + apply in_map. apply filter_In. split; [apply in_seq; lia|].
      unfold on_row. rewrite Ej'. apply fitb_spec, Wz.
    + unfold keyed, on_row. rewrite Ej'. cbn. congruence.
Qed.

Lemma choose_some rows type date x : all_dated rows type date -> In x rows -> wanted type date x ->
  exists i, choose (table rows) type date = Ok i.
Proof.
  intros Hd Hx Hw. rewrite choose_table by exact Hd.
  destruct (sort_reverse _) as [|[i k] t] eqn:E; [|eauto]. exfalso.
  destruct (In_nth_error _ _ Hx) as (j & Ej).
  assert (Hj : In j (fitting rows type date)) by (apply fitting_in; eauto).
  assert (P : Permutation (map (keyed rows) (fitting rows type date)) []).
  { rewrite <- E. apply stable_sort_perm. }
  apply (Permutation_in _ P (in_map (keyed rows) _ _ Hj)).
Qed.

Lemma choose_none rows type date : (forall x, In x rows -> ~ wanted type date x) ->
  choose (table rows) type date = Raise ValueError.
Proof.
  intros H. rewrite choose_table by (intros x Hx Hw; destruct (H x Hx Hw)).
  destruct (fitting rows type date) as [|i l] eqn:E; [reflexivity|]. exfalso.
  assert (I : In i (fitting rows type date)) by (rewrite E; cbn; auto).
  apply fitting_in in I as (x & Ex & Hw). apply (H x); [eapply nth_error_In; eauto|exact Hw].
Qed.

(** There is at most one latest filing up to position: the row is determined. *)
Lemma latest_unique rows type date x x' : all_dated rows type date ->
  latest rows type date x -> latest rows type date x' -> x = x'.
Proof.
  intros Hd (b & a & E & W & M & B) (b' & a' & E' & W' & M' & B').
  assert (D : dated x) by (apply Hd; [rewrite E; apply in_elt|exact W]).
  assert (D' : dated x') by (apply Hd; [rewrite E'; apply in_elt|exact W']).
  assert (G : forall b1 a1 x1 b2 a2 x2, b1 ++ x1 :: a1 = b2 ++ x2 :: a2 -> length b1 < length b2 ->
     wanted type date x1 -> dated x1 -> dated x2 ->
     (forall z, In z (b1 ++ a1) -> wanted type date z -> not_before (row_date x1) (row_date z)) ->
     (forall z, In z (b2 ++ a2) -> wanted type date z -> not_before (row_date x2) (row_date z)) ->
     (forall z, In z b2 -> wanted type date z -> row_date z <> row_date x2) -> wanted type date x2 -> False).
  { clear. intros b1 a1 x1 b2 a2 x2 E L W1 D1 D2 M1 M2 B2 W2.
    assert (I : In x1 b2).
    { assert (N : nth_error (b2 ++ x2 :: a2) (length b1) = Some x1)
        by (rewrite <- E, nth_error_app2, Nat.sub_diag by lia; reflexivity).
      rewrite nth_error_app1 in N by lia. eapply nth_error_In; eauto. }
    assert (I2 : In x2 a1).
    { assert (N : nth_error (b1 ++ x1 :: a1) (length b2) = Some x2)
        by (rewrite E, nth_error_app2, Nat.sub_diag by lia; reflexivity).
      rewrite nth_error_app2 in N by lia. destruct (length b2 - length b1) as [|k] eqn:K; [lia|].
      cbn in N. eapply nth_error_In; eauto. }
    apply (B2 x1 I W1).
    pose proof (M1 x2 ltac:(apply in_or_app; auto) W2) as N1.
    pose proof (M2 x1 ltac:(apply in_or_app; auto) W1) as N2.
    destruct D1 as (y & m & d & H1). destruct D2 as (y' & m' & d' & H2).
    specialize (N1 _ _ _ _ _ _ H1 H2). specialize (N2 _ _ _ _ _ _ H2 H1).
    assert (y = y' /\ m = m' /\ d = d') as (-> & -> & ->) by lia.
    eapply iso_date_inj; eauto. }
  rewrite E in E'. destruct (Nat.lt_trichotomy (length b) (length b')) as [L|[L|L]].
  - exfalso. eapply (G b a x b' a' x'); eauto.
  - destruct (split_at _ _ _ _ L E') as [_ [= -> _]]. reflexivity.
  - exfalso. eapply (G b' a' x' b a x); eauto.
Qed.

(** ** Addresses *)

Lemma zfill_number cik : company_number cik -> zfill 10 cik = repeat (ch "0") (10 - length cik) ++ cik.
Proof.
  intros [H _]. unfold zfill. destruct cik as [|c t]; [rewrite app_nil_r; reflexivity|].
  apply all_digits_cons in H as [Hc _].
  destruct (N.eqb_spec c (ch "+")) as [->|]; [discriminate Hc|].
  destruct (N.eqb_spec c (ch "-")) as [->|]; [discriminate Hc|]. reflexivity.
Qed.

Lemma prefix_until p a c q : ~ In c p -> starts_with p (a ++ c :: q) = true -> starts_with p a = true.
Proof. intros H. rewrite prefix_sep by exact H. auto. Qed.

Lemma replace_end c p new a : ~ In c p -> contains (c :: p) a = false ->
  replace_all (c :: p) new (a ++ c :: p) = a ++ new.
Proof.
  intros Hc. unfold replace_all. induction a as [|x a IH]; intros H.
  - cbn [app replace_from].
    assert (S0 : starts_with (c :: p) (c :: p) = true) by (apply prefix_spec; exists []; rewrite app_nil_r; reflexivity).
    rewrite S0. cbn [length]. rewrite Nat.sub_succ, Nat.sub_0_r.
    assert (K : forall n q, length q <= n -> replace_from n (c :: p) new q = []).
    { induction n as [|n IHn]; intros [|y q] Hq; cbn in *; try reflexivity; try lia. apply IHn. lia. }
    rewrite K by lia. apply app_nil_r.
  - cbn [contains] in H. apply orb_false_iff in H as [H1 H2]. cbn [app replace_from].
    assert (S0 : starts_with (c :: p) (x :: a ++ c :: p) = false).
    { cbn [starts_with] in *. destruct (N.eqb c x); [|reflexivity]. cbn [andb] in *.
      rewrite prefix_sep by exact Hc. exact H1. }
    rewrite S0. f_equal. apply IH, H2.
Qed.

Lemma ends_with_spec p s : ends_with p s = true <-> exists a, s = a ++ p.
Proof.
  unfold ends_with. rewrite prefix_spec. split.
  - intros (r & E). exists (rev r). rewrite <- (rev_involutive s), E, rev_app_distr, rev_involutive. reflexivity.
  - intros (a & ->). exists (rev a). apply rev_app_distr.
Qed.

Lemma ends_with_tail p a s : length p <= length s -> ends_with p (a ++ s) = ends_with p s.
Proof.
  intros L. apply eq_true_iff_eq. rewrite !ends_with_spec. split.
  - intros (r & E). exists (skipn (length a) r).
    assert (Lr : length a <= length r).
    { apply (f_equal (@length N)) in E. rewrite !app_length in E. lia. }
    rewrite <- (firstn_skipn (length a) r), <- app_assoc in E.
    apply split_at in E as [_ E]; [exact E|]. rewrite firstn_length. lia.
  - intros (r & ->). exists (a ++ r). apply app_assoc.
Qed.

Definition htm : str := u ".htm".
Lemma address_free cik x p : company_number cik -> all_digits (without_hyphens (row_accession x)) ->
  contains htm p = false -> contains htm (address cik x p) = false.
Proof.
  intros [Hc _] Ha Hp. unfold address.
  assert (Sl : ~ In (ch "/") htm) by (vm_compute; intuition discriminate).
  assert (Dd : In (ch ".") htm) by (vm_compute; auto).
  assert (NoDot : forall s, all_digits s -> ~ In (ch ".") s).
  { intros s H I. unfold all_digits in H. rewrite forallb_forall in H. apply H in I. discriminate. }
  change (u "/") with [ch "/"]. cbn [app].
  assert (Ar : archive = u "https://www.sec.gov/Archives/edgar/data" ++ [ch "/"]) by reflexivity.
  rewrite Ar, <- app_assoc. cbn [app]. rewrite contains_sep by exact Sl.
  assert (contains htm (u "https://www.sec.gov/Archives/edgar/data") = false) as -> by reflexivity.
  cbn [orb]. rewrite app_assoc, contains_sep by exact Sl.
  rewrite (contains_without htm (repeat (ch "0") (10 - length cik) ++ cik) (ch ".")); [|exact Dd|].
  2:{ rewrite in_app_iff. intros [I|I]; [apply repeat_spec in I; discriminate|apply (NoDot _ Hc I)]. }
  cbn [orb]. rewrite contains_sep by exact Sl.
  rewrite (contains_without htm (without_hyphens (row_accession x)) (ch ".")) by auto.
  exact Hp.
Qed.

Lemma filing_uri_row rows cik i x : company_number cik -> nth_error rows i = Some x ->
  filing_uri (table rows) cik i = Ok (address cik x (row_doc x)).
Proof.
  intros Hc E. unfold filing_uri, table. cbn [r_accession r_doc]. rewrite !at_map, E. cbn [bind].
  rewrite zfill_number by exact Hc. change (u "-") with [ch "-"]. rewrite remove_char.
  unfold address, archive, without_hyphens. rewrite <- !app_assoc. reflexivity.
Qed.

Lemma address_app cik x p q : address cik x (p ++ q) = address cik x p ++ q.
Proof. unfold address. rewrite <- !app_assoc. reflexivity. Qed.

Lemma load_pings {F} (w w' : world F) m : load_metadata w = (Ok m, w') ->
  w_ping w' = w_ping w /\ w_open w' = w_open w.
Proof.
  unfold load_metadata, download. destruct (w_cache w) as [[age c]|].
  - destruct (_ <? _)%Z; [destruct (w_server w)|]; intros [= <- <-]; auto.
  - destruct (w_server w); intros [= <- <-]; auto.
Qed.
