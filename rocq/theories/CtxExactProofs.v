(** When the shared characteristics are the ones written, and when parsing succeeds. *)
From Verif Require Import Base Regex PyNum QNameModel QNameProofs ErrBase ErrModel CtxModel CtxSpec CtxProofs CtxParseProofs.

(** ** From shared to exact *)

Section Exact.
Variable parse_date : str -> res date.
Variable rep : repository.
Variable docs : list xml.

Lemma entity_to_exact x r : one_scheme docs -> occurs docs x -> entity_shared docs x r -> entity_exact x r.
Proof.
  intros H1 Hx. destruct r as [c|]; [|auto].
  intros (id & sch & sch' & y & Hw & Hy & Hw' & ->). exists id, sch. split; [exact Hw|].
  f_equal. symmetry. eapply (H1 x y); eauto.
Qed.

Lemma unit_to_exact i id c : one_unit docs -> In i docs -> unit_shared docs i id c -> unit_exact i id c.
Proof.
  intros H1 Hi (Hn & j & Hj & (xu & ns & ds & Ef & Hr & ->)).
  destruct (find_by_id (u "unit") id i) as [x|] eqn:E; [|congruence].
  assert (x = xu) by (eapply (H1 i j); eauto). subst.
  exists xu, ns, ds. auto.
Qed.

Lemma concept_to_exact x e : one_concept rep docs -> occurs docs x ->
  concept_shared rep docs x e -> concept_exact rep x e.
Proof.
  intros H1 Hx ((e' & He') & y & Hy & He). unfold concept_exact in *.
  assert (e = e') by (eapply (H1 y x); eauto). subst. exact He'.
Qed.

(** Two splits at the first space are the same. *)
Lemma space_split a b a' b' : no_space a -> no_space a' ->
  a ++ u " " ++ b = a' ++ u " " ++ b' -> a = a' /\ b = b'.
Proof.
  revert a'; induction a as [|x a IH]; intros [|y a'] Ha Ha'; cbn.
  - intros [= ->]. auto.
  - intros [= <- _]. exfalso. apply Ha'. left. reflexivity.
  - intros [= -> _]. exfalso. apply Ha. left. reflexivity.
  - intros [= -> E]. destruct (IH a') as [-> ->]; auto.
    + intros H; apply Ha; right; exact H.
    + intros H; apply Ha'; right; exact H.
Qed.

Lemma explicit_to_exact x r : one_explicit rep docs -> plain_dimensions docs -> occurs docs x ->
  explicit_shared rep docs x r -> explicit_exact rep x r.
Proof.
  intros H1 Hp Hx. destruct r as [c|]; [|auto].
  intros (dt & mt & d & m & dt' & mt' & d' & m' & y & Hw & Hy & Hw' & E & ->).
  apply space_split in E as [<- <-]; [|eapply (Hp x); eauto; apply Hw|eapply (Hp y); eauto; apply Hw'].
  destruct (H1 x y dt mt d m d' m' Hx Hy Hw Hw') as [-> ->].
  exists dt, mt, d', m'. auto.
Qed.

Lemma typed_to_exact x r : one_typed rep docs -> plain_dimensions docs -> occurs docs x ->
  typed_shared rep docs x r -> typed_exact rep x r.
Proof.
  intros H1 Hp Hx. destruct r as [c|]; [|auto].
  intros (dt & v & d & dt' & v' & d' & y & Hw & Hy & Hw' & E & ->).
  apply space_split in E as [<- <-]; [|eapply (Hp x); eauto; apply Hw|eapply (Hp y); eauto; apply Hw'].
  rewrite <- (H1 x y dt v d d' Hx Hy Hw Hw').
  exists dt, v, d. auto.
Qed.

Lemma no_space_split a b a' b' : no_space a -> no_space b ->
  a ++ u " " ++ b = a' ++ u " " ++ b' -> a = a' /\ b = b'.
Proof.
  intros Ha Hb E. assert (Ha' : no_space a').
  { revert a' E Ha. induction a as [|x a IH]; intros [|y a'] E Ha; cbn in E.
    - intros [].
    - exfalso. injection E as <- E. apply Hb. rewrite E. apply in_or_app. right. left. reflexivity.
    - exfalso. injection E as -> _. apply Ha. left. reflexivity.
    - injection E as -> E. assert (H : no_space a') by (apply IH; [exact E|intros K; apply Ha; right; exact K]).
      intros [K|K]; [apply Ha; left; exact K|exact (H K)]. }
  apply (space_split a b a' b'); auto.
Qed.

Lemma period_to_exact x r : no_period_word parse_date -> plain_period x ->
  period_shared parse_date x r -> period_exact parse_date x r.
Proof.
  intros Hw Hp. destruct r as [c|]; [|auto].
  intros (k & p & Hk & Hkp & ->). exists p. split; [|reflexivity].
  destruct Hk as [i t d Hi Ht Hn Hd|i j s e ds de H1 H2 H3 H4 H5 H6 H7 H8 H9].
  - destruct Hkp as [d' Hn' Hd'|s e ds de E _ _ _ _ _].
    + eapply writes_instant; eauto.
    + exfalso. assert (Hs : no_space t) by (eapply (Hp (u "instant")); cbn; eauto).
      apply Hs. rewrite E. cbn. auto 10.
  - inversion Hkp as [d' Hn' Hd'|s' e' ds' de' E Hs' He' Hds' Hde' Hl]; subst.
    + exfalso. apply (Hw (s ++ u " " ++ e) d'). exact Hd'.
    + apply app_inv_head in E.
      apply no_space_split in E as [<- <-].
      * eapply writes_duration; eauto.
      * eapply (Hp (u "startDate")); cbn; eauto.
      * eapply (Hp (u "endDate")); cbn; eauto.
Qed.
End Exact.

(** ** Changing the relations *)

Section Mono.
Variable docs : list xml.
Variables C C' : xml -> element -> Prop.
Variables U U' : xml -> str -> characteristic -> Prop.
Variables E E' P P' X X' T T' : xml -> option characteristic -> Prop.
Hypothesis HC : forall x e, occurs docs x -> C x e -> C' x e.
Hypothesis HU : forall i id c, In i docs -> U i id c -> U' i id c.
Hypothesis HE : forall x r, occurs docs x -> E x r -> E' x r.
Hypothesis HP : forall x r, occurs docs x -> P x r -> P' x r.
Hypothesis HX : forall x r, occurs docs x -> X x r -> X' x r.
Hypothesis HT : forall x r, occurs docs x -> T x r -> T' x r.

Lemma outcomes_mono os :
  Forall2 (outcome_of C U E P X T) (all_fact_elements docs) os ->
  Forall2 (outcome_of C' U' E' P' X' T') (all_fact_elements docs) os.
Proof.
  assert (G : forall l, incl l (all_fact_elements docs) -> forall os,
        Forall2 (outcome_of C U E P X T) l os -> Forall2 (outcome_of C' U' E' P' X' T') l os).
      { intros l Hl os' H. induction H as [|ix o l os' Ho H IH]; constructor.
        - assert (Hix : In ix (all_fact_elements docs)) by (apply Hl; left; reflexivity).
          apply in_flat_map in Hix as (i & Hi & Hix). apply in_map_iff in Hix as (x & <- & Hx).
          assert (Hox : occurs docs x).
          { exists i. split; [exact Hi|]. apply filter_In in Hx as [Hx _]. exact Hx. }
          unfold outcome_of in *. cbn [fst snd] in *. destruct (fst o) as [f|]; [|exact Ho].
          destruct Ho as (cid & xc & e & us & H1 & H2 & H3 & H4 & H5 & H6 & H7 & H8).
          assert (Hxc : occurs docs xc) by (eapply occurs_by_id; eauto).
          destruct H5 as (id & xp & xe & p & en & ds & K1 & K2 & K3 & K4 & K5 & K6 & K7).
          assert (Hxp : occurs docs xp) by (exact (occurs_find _ _ _ _ Hxc K2)).
          assert (Hxe : occurs docs xe) by (exact (occurs_find _ _ _ _ Hxc K3)).
          exists cid, xc, e, us. split; [exact H1|]. split; [exact H2|]. split; [apply HC; assumption|].
          split.
          { unfold units_are in *. destruct (attr x (u "unitRef")) as [[|a b]|]; try exact H4.
            destruct H4 as (c & -> & Hc). exists c. split; [reflexivity|]. apply HU; assumption. }
          split; [|split; [exact H6|split; assumption]].
          exists id, xp, xe, p, en, ds. split; [exact K1|]. split; [exact K2|]. split; [exact K3|].
          split; [apply HP; assumption|]. split; [apply HE; assumption|]. split; [|exact K7].
          unfold dimensions_are in *. destruct (find_kid (u "segment") xe) as [seg|] eqn:Es; [|exact K6].
          assert (Hseg : occurs docs seg) by (exact (occurs_find _ _ _ _ Hxe Es)).
          destruct K6 as (rs & Hrs & ->). exists rs. split; [|reflexivity].
          assert (Hk : forall y, In y (x_kids seg) -> occurs docs y)
            by (intros y Hy; exact (occurs_kid _ _ _ Hseg Hy)).
          clear K7 H7. induction Hrs as [|y r ys rs Hy Hrs IHrs]; constructor.
          + assert (Hoy : occurs docs y) by (apply Hk; left; reflexivity).
            destruct Hy as [[Ht Hy]|(Ht & Ht' & Hy)]; [left|right]; auto.
          + apply IHrs. intros z Hz. apply Hk. right. exact Hz.
        - apply IH. intros y Hy. apply Hl. right. exact Hy. }
  apply (G _ (incl_refl _)).
Qed.
End Mono.

(** ** Successful parsing *)

Lemma key_known parse_date rep docs s k cl :
  inv parse_date rep docs s -> dict_mem char_key_eqb (s_chars s) (k, cl) = true ->
  exists c, char_get k cl s = Ok (c, s) /\ class_of c = cl /\ origin parse_date rep docs k c.
Proof.
  intros Hi. unfold dict_mem, char_get.
  destruct (dict_get char_key_eqb (s_chars s) (k, cl)) as [c|] eqn:E; [|discriminate]. intros _.
  destruct (proj1 Hi _ _ _ E) as [Ho Hc]. exists c.
  destruct (cls_eqb_spec (class_of c) cl); [auto|congruence].
Qed.

Section Runs.
Variable parse_date : str -> res date.
Variable rep : repository.
Variable nillable : element -> bool.
Variable docs : list xml.
Notation inv := (inv parse_date rep docs).

(** [m] succeeds in [s] without errors and without changing the facts. *)
Definition runs {A} (m : M A) (s : state) (Q : A -> Prop) : Prop :=
  exists a s', m s = Ok (a, s') /\ inv s' /\ s_errors s' = s_errors s /\ s_facts s' = s_facts s /\ Q a.

(** A run is the success together with the specification. *)
Lemma runs_entity x id sch s : inv s -> occurs docs x -> writes_entity x id sch ->
  runs (parse_entity x) s (fun r => r <> None).
Proof.
  intros Hi Hx (i & E1 & E2 & E3).
  assert (H : exists c s', parse_entity x s = Ok (Some c, s') /\ s_errors s' = s_errors s).
  { unfold parse_entity. rewrite E1, E3, E2. unfold mbind at 1, char_has.
    destruct (dict_mem char_key_eqb (s_chars s) (id, ClsEntity)) eqn:Ek.
    - destruct (key_known _ _ _ _ _ _ Hi Ek) as (c & Ec & _).
      exists c, s. unfold mbind. rewrite Ec. split; reflexivity.
    - eexists _, _. split; [reflexivity|]. reflexivity. }
  destruct H as (c & s' & E & Es). exists (Some c), s'.
  destruct (parse_entity_spec parse_date rep docs x Hx _ _ _ Hi E) as (H1 & H2 & _).
  split; [exact E|]. split; [exact H1|]. split; [exact Es|]. split; [exact H2|discriminate].
Qed.

Lemma runs_date x t d s : x_text x = Some t -> t <> [] -> parse_date t = Ok d ->
  get_context_date parse_date x s = Ok (Some t, s).
Proof.
  intros E Hn Ed. unfold get_context_date. unfold mbind at 1. rewrite E.
  rewrite (is_date_false parse_date t d Hn Ed). reflexivity.
Qed.

Lemma runs_period x p s : inv s -> writes_period parse_date x p ->
  runs (parse_period parse_date x) s (fun r => r <> None).
Proof.
  intros Hi Hw.
  assert (H : exists c s', parse_period parse_date x s = Ok (Some c, s') /\ s_errors s' = s_errors s).
  { unfold parse_period.
    destruct Hw as [i t d E1 E2 Hn Ed|i j t e ds de E0 E1 E2 Hn Ed E1' E2' Hn' Ed' Hl].
    - rewrite E1. unfold parse_instant_period. unfold mbind at 1.
      rewrite (runs_date i t d s E2 Hn Ed). unfold mbind at 1, char_has.
      destruct (dict_mem char_key_eqb (s_chars s) (t, ClsPeriod)) eqn:Ek.
      + destruct (key_known _ _ _ _ _ _ Hi Ek) as (c & Ec & _).
        exists c, s. unfold mbind. rewrite Ec. split; reflexivity.
      + unfold make_instant. rewrite (is_date_false parse_date t d Hn Ed). cbn [bind]. rewrite Ed.
        eexists _, _. split; [reflexivity|]. reflexivity.
    - rewrite E0, E1, E1'. unfold parse_duration_period. unfold mbind at 1.
      rewrite (runs_date i t ds s E2 Hn Ed). unfold mbind at 1.
      rewrite (runs_date j e de s E2' Hn' Ed'). unfold mbind at 1, char_has.
      cbv zeta. match goal with |- context [dict_mem char_key_eqb (s_chars s) ?k] =>
        destruct (dict_mem char_key_eqb (s_chars s) k) eqn:Ek end.
      + destruct (key_known _ _ _ _ _ _ Hi Ek) as (c & Ec & _).
        exists c, s. unfold mbind. rewrite Ec. split; reflexivity.
      + rewrite (make_duration_bad parse_date t e ds de Ed Ed' Hn Hn'), Hl.
        eexists _, _. split; [reflexivity|]. reflexivity. }
  destruct H as (c & s' & E & Es). exists (Some c), s'.
  destruct (parse_period_spec parse_date rep docs x _ _ _ Hi E) as (H1 & H2 & _).
  split; [exact E|]. split; [exact H1|]. split; [exact Es|]. split; [exact H2|discriminate].
Qed.

Lemma runs_concept x e s : inv s -> occurs docs x -> concept_exact rep x e ->
  runs (concept_characteristic rep x (str_opt (x_tag x))) s (fun c => exists e, c = ChConcept e).
Proof.
  intros Hi Hx He. pose proof He as (_ & q & Eq & Er).
  assert (H : exists c s', concept_characteristic rep x (str_opt (x_tag x)) s = Ok (c, s') /\
                           s_errors s' = s_errors s).
  { unfold concept_characteristic. unfold mbind at 1, char_has.
    destruct (dict_mem char_key_eqb (s_chars s) (str_opt (x_tag x), ClsConcept)) eqn:Ek.
    - destruct (key_known _ _ _ _ _ _ Hi Ek) as (c & Ec & _).
      exists c, s. split; [exact Ec|reflexivity].
    - unfold mbind at 1 2 3, lift. rewrite Eq, Er. unfold char_upsert, char_get. cbn [s_chars].
      rewrite (dict_get_set_same _ char_key_eqb_spec). cbn.
      eexists _, _. split; [reflexivity|]. reflexivity. }
  destruct H as (c & s' & E & Es). exists c, s'.
  destruct (concept_spec parse_date rep docs x Hx (ex_intro _ e He) _ _ _ Hi E)
    as (H1 & H2 & _ & _ & e' & -> & _).
  split; [exact E|]. split; [exact H1|]. split; [exact Es|]. split; [exact H2|eauto].
Qed.

Lemma mismatch_reported x a b s :
  exists s', report "FACT_CONCEPT_MISMATCH" x [(u "fact_concept", a); (u "context_concept", b)] s
             = Ok (tt, s') /\ s_facts s' = s_facts s.
Proof.
  unfold report, insert.
  destruct (create "FACT_CONCEPT_MISMATCH"%string (Some x)
              [(u "fact_concept", a); (u "context_concept", b)]) as [e|ex] eqn:E.
  - cbn. eexists. split; reflexivity.
  - vm_compute in E. discriminate.
Qed.

Lemma good_fact_added i x s : inv s -> In i docs -> In x (fact_elements i) ->
  good_fact parse_date rep i x ->
  exists s' f, parse_fact_element parse_date rep nillable i x s = Ok (tt, s') /\
               s_facts s' = facts_upsert (s_facts s) f.
Proof.
  intros Hi Hdoc Hx (cid & xc & xp & xe & e & id & sch & p & v &
    E1 & E2 & E3 & E4 & E5 & Hp & He & Hc & E6 & E7).
  assert (Ho : occurs docs x).
  { exists i. split; [exact Hdoc|]. apply filter_In in Hx as [Hx _]. exact Hx. }
  assert (Hxc : occurs docs xc) by (eapply occurs_by_id; eauto).
  assert (Hxe : occurs docs xe) by (eapply occurs_find; eauto).
  pose proof Hc as (_ & q & Eq & Er).
  destruct (runs_concept x e s Hi Ho Hc) as (c1 & s1 & R1 & I1 & _ & F1 & e1 & ->).
  destruct (runs_period xp p s1 I1 Hp) as ([p1|] & s2 & R2 & I2 & _ & F2 & N2); [|congruence].
  destruct (runs_entity xe id sch s2 I2 Hxe He) as ([en1|] & s3 & R3 & I3 & _ & F3 & N3); [|congruence].
  unfold parse_fact_element. unfold mbind at 1, lift at 1. rewrite Eq.
  unfold has_typed_qname. rewrite Er. cbn [is_ok negb].
  unfold mbind at 1. rewrite R1. unfold mbind at 1, fact_unit at 1. rewrite E6. cbn [ret].
  unfold mbind at 1, lift, get_str_attribute. rewrite E1, E2.
  unfold mbind at 1, parse_context.
  destruct (find_by_id_some _ _ _ _ E2) as [_ Eid].
  unfold mbind at 1, lift, get_str_attribute. rewrite Eid, E3, E4.
  unfold mbind at 1. rewrite R2. unfold mbind at 1. rewrite R3. rewrite E5. cbn [ret].
  set (cx := add_optional _ _).
  assert (Hcx : get_characteristic cx a_concept = Some (ChConcept e1)).
  { unfold cx. rewrite !add_optional_fold, <- !fold_left_app. apply (first_concept e1 []). }
  assert (Hk : exists s' f, parse_fact nillable x cx s3 = Ok (tt, s') /\ s_facts s' = facts_upsert (s_facts s3) f).
  { unfold parse_fact. rewrite Hcx, E7, E6. unfold mbind at 1, ret at 1.
    unfold mbind at 1. 
    assert (Hu : match get_characteristic cx a_unit, @None str with
                 | Some cu, Some (r :: rs) => if str_eqb (r :: rs) (value_str cu) then ret tt
                     else report "FACT_UNIT_MISMATCH" x [(u "fact_unit", r :: rs); (u "context_unit", value_str cu)]
                 | _, _ => ret tt end = ret tt) by (destruct (get_characteristic cx a_unit); reflexivity).
    rewrite Hu. unfold ret at 1.
    unfold mbind at 1. destruct (str_eqb _ _).
    - eexists _, _. split; reflexivity.
    - destruct (mismatch_reported x (str_opt (x_tag x)) (clark_notation (e_name e1)) s3) as (s4 & -> & F4).
      eexists _, _. split; [reflexivity|]. cbn. rewrite F4. reflexivity. }
  destruct Hk as (s' & f & -> & F4). exists s', f. split; [reflexivity|].
  rewrite F4, F3, F2, F1. reflexivity.
Qed.
End Runs.

(** ** Dates *)

Definition all_years : list Z := map Z.of_nat (seq 0 (Z.to_nat 10000)).
Definition year_ok (y : Z) : bool :=
  let t := zero_pad 4 (z_to_str y) in
  Nat.eqb (length t) 4 && match py_int t with Some z => (z =? y)%Z | None => false end.
Definition small_ok (y : Z) : bool :=
  let t := zero_pad 2 (z_to_str y) in
  Nat.eqb (length t) 2 && match py_int t with Some z => (z =? y)%Z | None => false end.

Lemma years_ok : forallb year_ok all_years = true.
Proof. vm_compute. reflexivity. Qed.
Lemma smalls_ok : forallb small_ok (map Z.of_nat (seq 0 100)) = true.
Proof. vm_compute. reflexivity. Qed.

Lemma year_str_ok y : (0 <= y <= 9999)%Z ->
  length (zero_pad 4 (z_to_str y)) = 4 /\ py_int (zero_pad 4 (z_to_str y)) = Some y.
Proof.
  intros H. assert (Hin : In y all_years).
  { apply in_map_iff. exists (Z.to_nat y). split; [lia|]. apply in_seq. lia. }
  pose proof (proj1 (forallb_forall _ _) years_ok y Hin) as E. unfold year_ok in E.
  apply andb_true_iff in E as [E1 E2]. apply Nat.eqb_eq in E1. split; [exact E1|].
  destruct (py_int _) as [z|]; [|discriminate]. apply Z.eqb_eq in E2. congruence.
Qed.

Lemma small_str_ok y : (0 <= y <= 99)%Z ->
  length (zero_pad 2 (z_to_str y)) = 2 /\ py_int (zero_pad 2 (z_to_str y)) = Some y.
Proof.
  intros H. assert (Hin : In y (map Z.of_nat (seq 0 100))).
  { apply in_map_iff. exists (Z.to_nat y). split; [lia|]. apply in_seq. lia. }
  pose proof (proj1 (forallb_forall _ _) smalls_ok y Hin) as E. unfold small_ok in E.
  apply andb_true_iff in E as [E1 E2]. apply Nat.eqb_eq in E1. split; [exact E1|].
  destruct (py_int _) as [z|]; [|discriminate]. apply Z.eqb_eq in E2. congruence.
Qed.

Lemma app_inj_length {A} (a b a' b' : list A) :
  length a = length a' -> a ++ b = a' ++ b' -> a = a' /\ b = b'.
Proof.
  revert a'; induction a as [|x a IH]; intros [|y a'] Hl E; cbn in *; try lia; [auto|].
  injection E as -> E. destruct (IH a') as [-> ->]; auto.
Qed.

Local Opaque zero_pad py_int z_to_str.

Lemma date_str_length d : python_date d -> length (date_str d) = 10.
Proof.
  intros (Hy & Hm & Hd). unfold date_str. rewrite !app_length.
  destruct (year_str_ok (d_year d)) as [-> _]; [lia|].
  destruct (small_str_ok (d_month d)) as [-> _]; [lia|].
  destruct (small_str_ok (d_day d)) as [-> _]; [lia|]. reflexivity.
Qed.

Lemma date_str_inj d d' : python_date d -> python_date d' -> date_str d = date_str d' -> d = d'.
Proof.
  intros (Hy & Hm & Hd) (Hy' & Hm' & Hd') E. unfold date_str in E.
  destruct (year_str_ok (d_year d)) as [L1 P1]; [lia|].
  destruct (year_str_ok (d_year d')) as [L1' P1']; [lia|].
  destruct (small_str_ok (d_month d)) as [L2 P2]; [lia|].
  destruct (small_str_ok (d_month d')) as [L2' P2']; [lia|].
  destruct (small_str_ok (d_day d)) as [L3 P3]; [lia|].
  destruct (small_str_ok (d_day d')) as [L3' P3']; [lia|].
  apply app_inj_length in E as [E1 E]; [|congruence].
  apply app_inv_head in E. apply app_inj_length in E as [E2 E]; [|congruence].
  apply app_inv_head in E.
  rewrite E1 in P1. rewrite E2 in P2. rewrite E in P3.
  destruct d, d'; cbn in *. congruence.
Qed.

Lemma period_str_inj p q : python_period p -> python_period q -> period_str p = period_str q -> p = q.
Proof.
  intros Hp Hq E. destruct p as [d|s e], q as [d'|s' e']; cbn [python_period period_str] in *.
  - f_equal. apply date_str_inj; assumption.
  - exfalso. apply (f_equal (@length N)) in E. rewrite !app_length in E.
    rewrite !date_str_length in E by tauto. discriminate.
  - exfalso. apply (f_equal (@length N)) in E. rewrite !app_length in E.
    rewrite !date_str_length in E by tauto. discriminate.
  - apply app_inj_length in E as [E1 E]; [|rewrite !date_str_length by tauto; reflexivity].
    apply app_inv_head in E. f_equal; apply date_str_inj; tauto.
Qed.
