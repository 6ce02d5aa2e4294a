(** From texts to numbers: matching the numeric patterns, removing separators, scaling. *)
From Coq Require Import Btauto.
From Verif Require Import Base Regex RegexProofs Registry PyNum NumModel NumSpec NumProofs.
Local Open Scope nat_scope.

(** ** Stripping *)

Lemma strip_no_trailing s p c : strip s = p ++ [c] -> is_space c = false.
Proof.
  unfold strip, rstrip. intros H.
  destruct (rdrop_while_split is_space (lstrip s)) as (q & _ & _ & [E|(p' & x & E & Hx)]).
  - rewrite E in H. destruct p; discriminate.
  - rewrite E in H. apply app_inj_tail in H as [_ <-]. exact Hx.
Qed.

Lemma strip_no_leading s c p : strip s = c :: p -> is_space c = false.
Proof.
  unfold strip, rstrip. intros H.
  destruct (drop_while_split is_space s) as (q & _ & _ & Hx).
  destruct (rdrop_while_split is_space (lstrip s)) as (q' & Hq & _).
  rewrite H in Hq. unfold lstrip in Hq. rewrite Hq in Hx. exact Hx.
Qed.

(** ** Character classes *)

Lemma range_single c k : ((k <=? c) && (c <=? k))%N = N.eqb c k.
Proof.
  destruct (N.eqb_spec c k) as [->|Hn].
  - rewrite N.leb_refl. reflexivity.
  - apply andb_false_iff. rewrite !N.leb_gt. lia.
Qed.

Ltac class_eq :=
  intros; cbn; unfold is_wide_digit, is_digit; rewrite ?range_single; btauto.

(** ** Formats with a decimal point and grouping characters *)

Definition sep_re (point : N) (cs1 cs2 : cset) : re :=
  rseq [REps; RGrp 1 (RRep cs1 0 None);
        ROpt (RGrp 2 (rseq [RLit [point]; RRep cs2 1 None])); REnd].

Lemma sep_formats_re fname point groups :
  In (fname, (point, groups)) separator_formats ->
  exists cs1 cs2, dict_get str_eqb number_format_to_regex (current_format fname) = Some (sep_re point cs1 cs2, 2) /\
    (forall c, cset_mem cs1 c = is_digit c || mem_char c groups) /\
    (forall c, cset_mem cs2 c = is_digit c || N.eqb c 32) /\
    (is_digit point || mem_char point groups = false) /\
    point <> 10%N /\
    forallb (fun c => mem_char c separators && negb (N.eqb c 10)) (point :: groups) = true /\
    str_eqb fname (u "ixt:fixed-zero") = false.
Proof.
  intros H. cbn [In separator_formats] in H.
  repeat destruct H as [H|H]; try contradiction; injection H as <- <- <-; do 2 eexists;
    (split; [vm_compute; reflexivity|]);
    (split; [class_eq|]); (split; [class_eq|]);
    (split; [reflexivity|]); (split; [discriminate|]);
    (split; [vm_compute; reflexivity|]); vm_compute; reflexivity.
Qed.

Lemma app_split_stop {A} (f : A -> bool) (a b : list A) x y c d :
  forallb f a = true -> forallb f b = true -> f x = false -> f y = false ->
  a ++ x :: c = b ++ y :: d -> a = b /\ x = y /\ c = d.
Proof.
  revert b; induction a as [|p a IH]; intros [|q b] Ha Hb Hx Hy E; cbn in *.
  - injection E as -> ->. auto.
  - injection E as -> _. apply andb_prop in Hb as [Hb _]. congruence.
  - injection E as -> _. apply andb_prop in Ha as [Ha _]. congruence.
  - injection E as -> E. apply andb_prop in Ha as [_ Ha]. apply andb_prop in Hb as [_ Hb].
    destruct (IH b Ha Hb Hx Hy E) as (-> & -> & ->). auto.
Qed.

Lemma app_split_all {A} (f : A -> bool) (a b : list A) x c :
  forallb f a = true -> f x = false -> a = b ++ x :: c -> False.
Proof.
  intros Ha Hx ->. rewrite forallb_app in Ha. apply andb_prop in Ha as [_ Ha].
  cbn in Ha. apply andb_prop in Ha as [Ha _]. congruence.
Qed.

Definition sep_caps (point : N) (a b : str) : caps :=
  match b with [] => [(1, a)] | _ => [(2, point :: b); (1, a)] end.

(** What the pattern accepts, as a relation. *)
Lemma sep_MT point cs1 cs2 t s' c :
  MT (sep_re point cs1 cs2) t [] s' c <->
  exists a b, forallb (cset_mem cs1) a = true /\ forallb (cset_mem cs2) b = true /\
    t = (match b with [] => a | _ => a ++ [point] ++ b end) ++ s' /\ at_end s' = true /\
    c = sep_caps point a b.
Proof.
  unfold sep_re. cbn [rseq fold_right MT]. split.
  - intros (s1 & c1 & [-> ->] & s2 & c2 & (c3 & p & (q & Hq & Ha & _ & _ & ->) & Hp & ->)
            & s3 & c4 & Hopt & s4 & c5 & (He & -> & ->) & -> & ->).
    assert (p = q) as -> by (rewrite Hq in Hp; apply app_inv_tail in Hp; auto). clear Hp.
    destruct Hopt as [(c6 & p2 & (s5 & c7 & (-> & ->) & s6 & c8 & (b & Hb1 & Hb & Hl & _ & ->) & -> & ->) & Hp2 & ->)
                     |[-> ->]].
    + exists q, b. repeat split; auto.
      * destruct b; [cbn in Hl; lia|]. rewrite Hq, Hb1. rewrite <- !app_assoc. reflexivity.
      * destruct b; [cbn in Hl; lia|]. unfold sep_caps. rewrite Hb1 in Hp2.
        assert (p2 = point :: n :: b) as -> by (eapply app_inv_tail; rewrite <- Hp2; reflexivity).
        reflexivity.
    + exists q, []. repeat split; auto.
  - intros (a & b & Ha & Hb & -> & He & ->).
    exists (match b with [] => a | _ => a ++ [point] ++ b end ++ s'), []. split; [auto|].
    exists (match b with [] => s' | _ => [point] ++ b ++ s' end), [(1, a)]. split.
    { exists [], a. split.
      - exists a. split; [destruct b; rewrite <- ?app_assoc; reflexivity|]. cbn; repeat split; auto; lia.
      - destruct b; rewrite <- ?app_assoc; auto. }
    exists s', (sep_caps point a b). split.
    { destruct b as [|x b]; [right; auto|left].
      exists [(1, a)], (point :: x :: b). split; [|auto].
      exists ((x :: b) ++ s'), [(1, a)]. split; [auto|].
      exists s', [(1, a)]. split; [|auto].
      exists (x :: b). cbn [length]. repeat split; auto; lia. }
    exists s', (sep_caps point a b). auto.
Qed.

Lemma at_end_cases s : at_end s = true -> s = [] \/ s = [10%N].
Proof.
  destruct s as [|c [|d s]]; cbn; intros H; auto; try discriminate.
  right. apply N.eqb_eq in H. congruence.
Qed.

Section Sep.
  Context (point : N) (groups : str) (cs1 cs2 : cset).
  Hypothesis H1 : forall c, cset_mem cs1 c = is_digit c || mem_char c groups.
  Hypothesis H2 : forall c, cset_mem cs2 c = is_digit c || N.eqb c 32.
  Hypothesis Hpt : is_digit point || mem_char point groups = false.
  Hypothesis Hpt10 : point <> 10%N.
  Hypothesis Hsep : forallb (fun c => mem_char c separators && negb (N.eqb c 10)) (point :: groups) = true.

  Lemma forallb_ext' {A} (f g : A -> bool) l : (forall x, f x = g x) -> forallb f l = forallb g l.
  Proof. intros H; induction l; cbn; congruence. Qed.

  Lemma mem_char_in c s : mem_char c s = true <-> In c s.
  Proof.
    unfold mem_char. rewrite existsb_exists. split.
    - intros (x & Hx & E). apply N.eqb_eq in E; congruence.
    - intros H; exists c. rewrite N.eqb_refl; auto.
  Qed.

  Lemma groups_no_nl : mem_char 10 groups = false.
  Proof.
    destruct (mem_char 10 groups) eqn:E; [|reflexivity].
    apply mem_char_in in E. rewrite forallb_forall in Hsep.
    specialize (Hsep 10%N (or_intror E)). rewrite N.eqb_refl, andb_comm in Hsep. discriminate.
  Qed.

  Lemma written_no_nl t a b : written point groups t a b -> ~ In 10%N t.
  Proof.
    intros (Ha & Hb & ->) Hin.
    assert (Ca : ~ In 10%N a).
    { intros Hi. rewrite forallb_forall in Ha. apply Ha in Hi. rewrite groups_no_nl in Hi. discriminate. }
    assert (Cb : ~ In 10%N b).
    { intros Hi. rewrite forallb_forall in Hb. apply Hb in Hi. discriminate. }
    destruct b as [|x b]; [auto|].
    apply in_app_or in Hin as [Hi|[Hi|Hi]]; auto.
  Qed.

  Lemma written_unique t a b a' b' :
    written point groups t a b -> written point groups t a' b' -> a = a' /\ b = b'.
  Proof.
    intros (Ha & Hb & E) (Ha' & Hb' & E').
    destruct b as [|x b], b' as [|x' b'].
    - split; congruence.
    - exfalso. eapply app_split_all; [exact Ha|exact Hpt|]. rewrite <- E. exact E'.
    - exfalso. eapply app_split_all; [exact Ha'|exact Hpt|]. rewrite <- E'. exact E.
    - rewrite E in E'. cbn [app] in E'.
      apply (app_split_stop _ _ _ _ _ _ _ Ha Ha' Hpt Hpt) in E' as (-> & _ & ->). auto.
  Qed.

  Lemma sep_match t a b :
    written point groups t a b -> re_match (sep_re point cs1 cs2) t = Some (sep_caps point a b).
  Proof.
    intros Hw. pose proof Hw as (Ha & Hb & E).
    apply (re_match_unique _ _ []).
    - apply sep_MT. exists a, b. rewrite (forallb_ext' _ _ _ H1), (forallb_ext' _ _ _ H2).
      rewrite app_nil_r. auto.
    - intros s2 c2 HM. apply sep_MT in HM as (a' & b' & Ha' & Hb' & E' & He & ->).
      assert (s2 = []) as ->.
      { apply at_end_cases in He as [->| ->]; [reflexivity|exfalso].
        apply (written_no_nl t a b Hw). rewrite E'. apply in_or_app; right; left; reflexivity. }
      rewrite app_nil_r in E'.
      rewrite (forallb_ext' _ _ _ H1) in Ha'. rewrite (forallb_ext' _ _ _ H2) in Hb'.
      destruct (written_unique t a b a' b' Hw) as [-> ->]; [repeat split; auto|reflexivity].
  Qed.

  Lemma sep_nomatch s :
    (forall a b, ~ written point groups (strip s) a b) ->
    re_match (sep_re point cs1 cs2) (strip s) = None.
  Proof.
    intros Hn. apply re_match_none. intros s' c HM.
    apply sep_MT in HM as (a & b & Ha & Hb & E & He & _).
    rewrite (forallb_ext' _ _ _ H1) in Ha. rewrite (forallb_ext' _ _ _ H2) in Hb.
    apply at_end_cases in He as [->| ->].
    - rewrite app_nil_r in E. apply (Hn a b). repeat split; auto.
    - apply strip_no_trailing in E. discriminate.
  Qed.
End Sep.

(** Removing the separators. *)
Lemma fold_remove seps : forall p,
  fold_left (fun s sep => remove_char sep s) seps p = filter (fun c => negb (mem_char c seps)) p.
Proof.
  induction seps as [|x seps IH]; intros p; cbn [fold_left].
  - cbn. induction p; cbn; congruence.
  - rewrite IH. unfold remove_char. clear IH. induction p as [|c p IH]; [reflexivity|].
    assert (Hm : mem_char c (x :: seps) = N.eqb c x || mem_char c seps) by reflexivity.
    cbn [filter]. rewrite Hm. destruct (N.eqb c x); cbn [negb orb filter]; [exact IH|].
    destruct (mem_char c seps); cbn [negb]; [exact IH|]. f_equal; exact IH.
Qed.

Lemma filter_agree {A} (f g : A -> bool) l :
  (forall x, In x l -> f x = g x) -> filter f l = filter g l.
Proof.
  induction l as [|x l IH]; intros H; [reflexivity|]. cbn.
  rewrite (H x) by (left; reflexivity). rewrite IH by (intros; apply H; right; auto). reflexivity.
Qed.

Lemma digit_not_sep c : is_digit c = true -> mem_char c separators = false.
Proof.
  intros H. assert (Hall : forallb (fun s => negb (is_digit s)) separators = true) by reflexivity.
  destruct (mem_char c separators) eqn:E; [|reflexivity].
  apply mem_char_in in E. rewrite forallb_forall in Hall. apply Hall in E. rewrite H in E. discriminate.
Qed.

(** A part whose characters are digits and separators. *)
Lemma process_part_digits p :
  p <> [] -> forallb (fun c => is_digit c || mem_char c separators) p = true ->
  process_number_part (Some p) = digits_only p.
Proof.
  intros Hne H. unfold process_number_part. destruct p as [|x p]; [congruence|].
  rewrite fold_remove. apply filter_agree. intros c Hc.
  rewrite forallb_forall in H. apply H in Hc.
  destruct (is_digit c) eqn:E.
  - rewrite digit_not_sep by exact E. reflexivity.
  - rewrite orb_false_l in Hc. rewrite Hc. reflexivity.
Qed.

Lemma digits_only_digits s : all_digits (digits_only s).
Proof.
  unfold all_digits, digits_only. apply forallb_forall. intros c Hc. apply filter_In in Hc. tauto.
Qed.

Lemma digits_only_app a b : digits_only (a ++ b) = digits_only a ++ digits_only b.
Proof. apply filter_app. Qed.

Lemma dec_val_0_left f : (dec_val [48%N] f == dec_val [] f)%Q.
Proof. apply (dec_val_pad_left [] f 1). Qed.
Lemma dec_val_0_right w : (dec_val w [48%N] == dec_val w [])%Q.
Proof. apply (dec_val_pad_right w [] 1). Qed.

(** The scale and the errors of a scale attribute. *)
Definition scale_of (attr : str) : Z * log :=
  match py_int attr with
  | Some z => (z, [])
  | None => (0%Z, ["INVALID_SCALE_ATTRIBUTE_VALUE"%string])
  end.

Lemma process_eq c attr :
  process_numerical_fact_value c attr =
  let '(w, d) := apply_scale (process_number_part (dict_get Nat.eqb c 1))
                   (process_number_part (dict_get Nat.eqb c 2)) (fst (scale_of attr)) in
  (w ++ [46%N] ++ d, snd (scale_of attr)).
Proof. unfold process_numerical_fact_value, scale_of. destruct (py_int attr); reflexivity. Qed.

Lemma dec_val_comp w w' f f' :
  (forall g, dec_val w g == dec_val w' g)%Q -> (dec_val w' f == dec_val w' f')%Q ->
  (dec_val w f == dec_val w' f')%Q.
Proof. intros H1 H2. rewrite H1. exact H2. Qed.

Lemma process_sep point groups a b attr :
  forallb (fun c => mem_char c separators && negb (N.eqb c 10)) (point :: groups) = true ->
  is_digit point || mem_char point groups = false ->
  forallb (fun c => is_digit c || mem_char c groups) a = true ->
  forallb (fun c => is_digit c || N.eqb c 32) b = true ->
  exists w f, all_digits w /\ all_digits f /\
    (dec_val w f == shown a b * Qpower 10 (fst (scale_of attr)))%Q /\
    process_numerical_fact_value (sep_caps point a b) attr = (w ++ [46%N] ++ f, snd (scale_of attr)).
Proof.
  intros Hsep Hpt Ha Hb.
  assert (Hga : forallb (fun c => is_digit c || mem_char c separators) a = true).
  { apply forallb_forall. intros c Hc. rewrite forallb_forall in Ha, Hsep. apply Ha in Hc.
    apply orb_prop in Hc as [->|Hc]; [reflexivity|]. apply mem_char_in in Hc.
    specialize (Hsep c (or_intror Hc)). apply andb_prop in Hsep as [-> _]. apply orb_true_r. }
  assert (Hgb : forallb (fun c => is_digit c || mem_char c separators) (point :: b) = true).
  { cbn [forallb]. rewrite forallb_forall in Hsep.
    pose proof (Hsep point (or_introl eq_refl)) as Hp. apply andb_prop in Hp as [-> _].
    rewrite orb_true_r. cbn [andb]. apply forallb_forall. intros c Hc. rewrite forallb_forall in Hb.
    apply Hb in Hc. apply orb_prop in Hc as [->|Hc]; [reflexivity|].
    apply N.eqb_eq in Hc as ->. reflexivity. }
  apply orb_false_elim in Hpt as [Hptd _].
  set (W := process_number_part (dict_get Nat.eqb (sep_caps point a b) 1)).
  set (F := process_number_part (dict_get Nat.eqb (sep_caps point a b) 2)).
  assert (HW : all_digits W /\ forall g, (dec_val W g == dec_val (digits_only a) g)%Q).
  { assert (W = process_number_part (Some a)) as -> by (unfold W; destruct b; reflexivity).
    destruct a as [|x a].
    - split; [reflexivity|]. intros g. apply dec_val_0_left.
    - rewrite process_part_digits by (discriminate || exact Hga).
      split; [apply digits_only_digits|reflexivity]. }
  assert (HF : all_digits F /\ forall g, (dec_val g F == dec_val g (digits_only b))%Q).
  { destruct b as [|x b].
    - split; [reflexivity|]. intros g. apply dec_val_0_right.
    - assert (F = process_number_part (Some (point :: x :: b))) as -> by reflexivity.
      rewrite process_part_digits by (discriminate || exact Hgb).
      split; [apply digits_only_digits|].
      cbn [digits_only filter]. rewrite Hptd. reflexivity. }
  destruct HW as [HWd HWv], HF as [HFd HFv].
  rewrite process_eq. fold W F.
  destruct (scale_of attr) as [z errs]. cbn [fst snd].
  destruct (apply_scale W F z) as [w f] eqn:E.
  exists w, f. destruct (apply_scale_digits _ _ _ _ _ E HWd HFd) as [Hwd Hfd].
  split; [exact Hwd|]. split; [exact Hfd|]. split; [|reflexivity].
  rewrite (apply_scale_value _ _ _ _ _ E), HWv, HFv. reflexivity.
Qed.

(** The whole path for a text written in a separator format. *)
Lemma parse_written fmt point groups text a b attr :
  In (fmt, (point, groups)) separator_formats ->
  written point groups (strip text) a b ->
  exists w f, all_digits w /\ all_digits f /\
    (dec_val w f == shown a b * Qpower 10 (fst (scale_of attr)))%Q /\
    parse_numerical_fact_value text fmt attr = (norm w f, snd (scale_of attr)).
Proof.
  intros Hin Hw.
  destruct (sep_formats_re _ _ _ Hin) as (cs1 & cs2 & Hre & H1 & H2 & Hpt & Hpt10 & Hsep & Hz).
  pose proof Hw as (Ha & Hb & _).
  destruct (process_sep point groups a b attr Hsep Hpt Ha Hb) as (w & f & Hwd & Hfd & Hv & Hp).
  exists w, f. repeat split; auto.
  unfold parse_numerical_fact_value. rewrite Hz.
  unfold match_regex_numerical_fact_value. rewrite Hre.
  rewrite (sep_match point groups cs1 cs2 H1 H2 Hpt Hpt10 Hsep (strip text) a b Hw).
  rewrite Hp. rewrite normalize_norm by assumption. reflexivity.
Qed.

Lemma parse_not_written fmt point groups text attr :
  In (fmt, (point, groups)) separator_formats ->
  (forall a b, ~ written point groups (strip text) a b) ->
  parse_numerical_fact_value text fmt attr = (strip text, ["NUMBER_DOES_NOT_MATCH_EXPECTED_FORMAT"%string]).
Proof.
  intros Hin Hn.
  destruct (sep_formats_re _ _ _ Hin) as (cs1 & cs2 & Hre & H1 & H2 & Hpt & Hpt10 & Hsep & Hz).
  unfold parse_numerical_fact_value. rewrite Hz.
  unfold match_regex_numerical_fact_value. rewrite Hre.
  rewrite (sep_nomatch point groups cs1 cs2 H1 H2 text Hn). reflexivity.
Qed.

Lemma Qpower10_nz z : ~ (Qpower 10 z == 0)%Q.
Proof.
  intros H. assert (Qpower 10 z * Qpower 10 (- z) == 1)%Q as E.
  { rewrite <- Qpower_plus by apply Q10_nz. rewrite Z.add_opp_diag_r. reflexivity. }
  rewrite H in E. discriminate.
Qed.

Lemma norm_ext w f w' f' :
  all_digits w -> all_digits f -> all_digits w' -> all_digits f' ->
  (dec_val w f == dec_val w' f')%Q -> norm w f = norm w' f'.
Proof.
  intros Hw Hf Hw' Hf' E.
  destruct (Qeq_dec (dec_val w f) 0) as [Hz|Hnz].
  - assert (norm w f = []) as -> by (apply norm_zero; auto).
    symmetry. apply norm_zero; auto. rewrite <- E; exact Hz.
  - assert (Hnz' : ~ (dec_val w' f' == 0)%Q) by (rewrite <- E; exact Hnz).
    destruct (norm_numeral w f Hw Hf Hnz) as [N1 C1].
    destruct (norm_numeral w' f' Hw' Hf' Hnz') as [N2 C2].
    eapply canonical_unique; eauto.
Qed.

(** ** Formats with named units *)

Definition unit_re (cs1 cs2 csn csd : cset) : re :=
  rseq [REps; RGrp 1 (RRep cs1 1 None); RChar cs2; RRep csn 0 None;
        RGrp 2 (RRep csd 1 (Some 2)); RRep csn 0 None; REnd].

Lemma unit_formats_re fname groups :
  In (fname, groups) unit_formats ->
  exists cs1 cs2 csn csd,
    dict_get str_eqb number_format_to_regex (current_format fname) = Some (unit_re cs1 cs2 csn csd, 2) /\
    (forall c, cset_mem cs1 c = is_wide_digit c || mem_char c groups) /\
    (forall c, cset_mem cs2 c = negb (is_wide_digit c || mem_char c groups)) /\
    (forall c, cset_mem csn c = negb (is_wide_digit c)) /\
    (forall c, cset_mem csd c = is_wide_digit c) /\
    forallb (fun c => mem_char c separators && negb (is_wide_digit c)) groups = true /\
    str_eqb fname (u "ixt:fixed-zero") = false.
Proof.
  intros H. cbn [In unit_formats] in H.
  repeat destruct H as [H|H]; try contradiction; injection H as <- <-; do 4 eexists;
    (split; [vm_compute; reflexivity|]);
    (split; [class_eq|]); (split; [class_eq|]); (split; [class_eq|]); (split; [class_eq|]);
    split; vm_compute; reflexivity.
Qed.

Definition unit_caps (a m : str) : caps := [(2, m); (1, a)].

Lemma forallb_negb_head {A} (f : A -> bool) l x r :
  f x = true -> l = x :: r -> forallb (fun c => negb (f c)) l = true -> False.
Proof. intros Hx -> H. cbn in H. rewrite Hx in H. discriminate. Qed.

Lemma prefix_maximal {A} (f : A -> bool) (a b c d : list A) :
  forallb f a = true -> forallb f b = true ->
  (match c with [] => True | x :: _ => f x = false end) ->
  (match d with [] => True | x :: _ => f x = false end) ->
  a ++ c = b ++ d -> a = b /\ c = d.
Proof.
  revert b; induction a as [|p a IH]; intros [|q b] Ha Hb Hc Hd E; cbn in *.
  - auto.
  - exfalso. subst c. apply andb_prop in Hb as [Hb _]. cbn in Hc. congruence.
  - exfalso. destruct d as [|x d]; [discriminate|]. injection E as -> _.
    apply andb_prop in Ha as [Ha _]. congruence.
  - injection E as -> E. apply andb_prop in Ha as [_ Ha]. apply andb_prop in Hb as [_ Hb].
    destruct (IH b Ha Hb Hc Hd E) as [-> ->]. auto.
Qed.

Section Unit.
  Context (groups : str) (cs1 cs2 csn csd : cset).
  Hypothesis H1 : forall c, cset_mem cs1 c = is_wide_digit c || mem_char c groups.
  Hypothesis H2 : forall c, cset_mem cs2 c = negb (is_wide_digit c || mem_char c groups).
  Hypothesis Hn : forall c, cset_mem csn c = negb (is_wide_digit c).
  Hypothesis Hd : forall c, cset_mem csd c = is_wide_digit c.

  Lemma unit_MT t s' c :
    MT (unit_re cs1 cs2 csn csd) t [] s' c <->
    exists a x words m rest,
      t = a ++ [x] ++ words ++ m ++ rest ++ s' /\ at_end s' = true /\
      a <> [] /\ forallb (fun c => is_wide_digit c || mem_char c groups) a = true /\
      (is_wide_digit x || mem_char x groups) = false /\
      forallb (fun c => negb (is_wide_digit c)) words = true /\
      forallb is_wide_digit m = true /\ 1 <= length m <= 2 /\
      forallb (fun c => negb (is_wide_digit c)) rest = true /\ c = unit_caps a m.
  Proof.
    unfold unit_re. cbn [rseq fold_right MT]. split.
    - intros (s1 & c1 & [-> ->] & s2 & c2 & (c3 & p & (a & Ea & Ha & Hal & _ & ->) & Hp & ->)
        & s3 & c4 & (x & -> & Hx & ->) & s4 & c5 & (words & -> & Hw & _ & _ & ->)
        & s5 & c6 & (c7 & p2 & (m & -> & Hm & Hml & Hmu & ->) & Hp2 & ->)
        & s6 & c8 & (rest & -> & Hr & _ & _ & ->) & s7 & c9 & (He & -> & ->) & -> & ->).
      rewrite Ea in Hp. apply app_inv_tail in Hp as <-. apply app_inv_tail in Hp2 as <-.
      exists a, x, words, m, rest.
      rewrite (forallb_ext' _ _ _ H1) in Ha. rewrite H2, negb_true_iff in Hx.
      rewrite (forallb_ext' _ _ words Hn) in Hw. rewrite (forallb_ext' _ _ rest Hn) in Hr. rewrite (forallb_ext' _ _ _ Hd) in Hm.
      cbn in Hmu. repeat split; auto. intros ->. cbn in Hal; lia.
    - intros (a & x & words & m & rest & -> & He & Hne & Ha & Hx & Hw & Hm & Hl & Hr & ->).
      rewrite <- (forallb_ext' _ _ _ H1) in Ha.
      rewrite <- (forallb_ext' _ _ words Hn) in Hw. rewrite <- (forallb_ext' _ _ rest Hn) in Hr. rewrite <- (forallb_ext' _ _ _ Hd) in Hm.
      eexists _, []. split; [split; reflexivity|].
      exists ([x] ++ words ++ m ++ rest ++ s'), [(1, a)]. split.
      { exists [], a. split; [|auto]. exists a. repeat split; auto.
        destruct a; [congruence|cbn; lia]. }
      exists (words ++ m ++ rest ++ s'), [(1, a)]. split.
      { exists x. repeat split; auto. rewrite H2, Hx. reflexivity. }
      exists (m ++ rest ++ s'), [(1, a)]. split.
      { exists words. cbn; repeat split; auto; lia. }
      exists (rest ++ s'), [(2, m); (1, a)]. split.
      { exists [(1, a)], m. split; [|auto]. exists m. cbn; repeat split; auto; lia. }
      exists s', [(2, m); (1, a)]. split.
      { exists rest. cbn; repeat split; auto; lia. }
      exists s', [(2, m); (1, a)]. auto.
  Qed.

  Lemma unit_match t a m :
    unit_written groups t a m -> re_match (unit_re cs1 cs2 csn csd) t = Some (unit_caps a m).
  Proof.
    intros (x & words & rest & E & Hne & Ha & Hx & Hw & Hm & Hl & Hr).
    apply (re_match_unique _ _ []).
    - apply unit_MT. exists a, x, words, m, rest. rewrite app_nil_r. repeat split; auto; lia.
    - intros s2 c2 HM.
      apply unit_MT in HM as (a' & x' & words' & m' & rest' & E' & He & Hne' & Ha' & Hx' & Hw' & Hm' & Hl' & Hr' & ->).
      rewrite E in E'. cbn [app] in E'.
      apply (app_split_stop _ _ _ _ _ _ _ Ha Ha' Hx Hx') in E' as (<- & _ & E').
      apply (prefix_maximal (fun c => negb (is_wide_digit c)) words words') in E' as [_ E']; auto.
      2:{ destruct m as [|d m]; [cbn in Hl; lia|]. cbn in Hm |- *. apply andb_prop in Hm as [-> _]. reflexivity. }
      2:{ destruct m' as [|d m']; [cbn in Hl'; lia|]. cbn in Hm' |- *. apply andb_prop in Hm' as [-> _]. reflexivity. }
      apply (prefix_maximal is_wide_digit m m') in E' as [<- _]; auto.
      + destruct rest as [|d rest]; [exact I|]. cbn in Hr. apply andb_prop in Hr as [Hr _].
        apply negb_true_iff in Hr; exact Hr.
      + assert (Hr2 : forallb (fun c => negb (is_wide_digit c)) (rest' ++ s2) = true).
        { rewrite forallb_app, Hr'. apply at_end_cases in He as [->| ->]; reflexivity. }
        destruct (rest' ++ s2) as [|d r]; [exact I|]. cbn in Hr2. apply andb_prop in Hr2 as [Hr2 _].
        apply negb_true_iff in Hr2; exact Hr2.
  Qed.

  Lemma unit_nomatch s :
    (forall a m, ~ unit_written groups s a m) -> re_match (unit_re cs1 cs2 csn csd) s = None.
  Proof.
    intros Hnm. apply re_match_none. intros s' c HM.
    apply unit_MT in HM as (a & x & words & m & rest & E & He & Hne & Ha & Hx & Hw & Hm & Hl & Hr & _).
    apply (Hnm a m). exists x, words, (rest ++ s').
    repeat split; auto; try lia.
    rewrite forallb_app, Hr. apply at_end_cases in He as [->| ->]; reflexivity.
  Qed.
End Unit.

Lemma ascii_digit_spec c : is_wide_digit c = true ->
  normalize_digit c = ascii_digit c /\ is_digit (ascii_digit c) = true.
Proof.
  unfold is_wide_digit. intros H. apply orb_prop in H as [H|H].
  - assert (ascii_digit c = c) as ->.
    { unfold ascii_digit. unfold is_digit in H. apply andb_prop in H as [_ H]. apply N.leb_le in H.
      destruct (N.leb_spec 65296 c); [lia|reflexivity]. }
    split; [|exact H]. apply normalize_digit_ascii, is_digit_lt128, H.
  - apply andb_prop in H as [Hl Hu]. apply N.leb_le in Hl, Hu.
    assert (c = 65296 \/ c = 65297 \/ c = 65298 \/ c = 65299 \/ c = 65300 \/ c = 65301 \/ c = 65302
            \/ c = 65303 \/ c = 65304 \/ c = 65305)%N as Hc by lia.
    repeat destruct Hc as [->|Hc]; try subst c; split; vm_compute; reflexivity.
Qed.

Definition all_wide (s : str) : Prop := forallb is_wide_digit s = true.

Lemma normalize_wide s : all_wide s -> normalize_digits_in_string s = map ascii_digit s.
Proof.
  unfold all_wide. induction s as [|c s IH]; cbn; intros H; [reflexivity|].
  apply andb_prop in H as [Hc H]. f_equal; [apply ascii_digit_spec, Hc|apply IH, H].
Qed.

Lemma map_ascii_digits s : all_wide s -> all_digits (map ascii_digit s).
Proof.
  unfold all_wide, all_digits. induction s as [|c s IH]; cbn; intros H; [reflexivity|].
  apply andb_prop in H as [Hc H]. rewrite (proj2 (ascii_digit_spec c Hc)). auto.
Qed.

Lemma map_firstn_ {A B} (g : A -> B) n l : map g (firstn n l) = firstn n (map g l).
Proof. revert l; induction n; intros [|x l]; cbn; congruence. Qed.
Lemma map_skipn_ {A B} (g : A -> B) n l : map g (skipn n l) = skipn n (map g l).
Proof. revert l; induction n; intros [|x l]; cbn; congruence. Qed.
Lemma map_zeros n : map ascii_digit (zeros n) = zeros n.
Proof. unfold zeros. induction (Z.to_nat n); cbn; [reflexivity|]. f_equal; assumption. Qed.

Lemma apply_scale_map w f z w' f' :
  apply_scale w f z = (w', f') ->
  apply_scale (map ascii_digit w) (map ascii_digit f) z = (map ascii_digit w', map ascii_digit f').
Proof.
  rewrite !apply_scale_eq. unfold slice_index.
  assert (Hl : padl (map ascii_digit w) z = map ascii_digit (padl w z)).
  { unfold padl. rewrite map_length. destruct (_ >? _)%Z; [|reflexivity].
    rewrite map_app, map_zeros. reflexivity. }
  assert (Hr : padr (map ascii_digit f) z = map ascii_digit (padr f z)).
  { unfold padr. rewrite map_length. destruct (_ >? _)%Z; [|reflexivity].
    rewrite map_app, map_zeros. reflexivity. }
  rewrite Hl, Hr, !map_length.
  destruct (z <? 0)%Z; intros E; inversion E; subst; f_equal;
    rewrite ?map_app, ?map_firstn_, ?map_skipn_; reflexivity.
Qed.

Lemma all_wide_zeros n : all_wide (zeros n).
Proof. unfold all_wide, zeros. induction (Z.to_nat n); cbn; auto. Qed.

Lemma all_wide_app a b : all_wide (a ++ b) <-> all_wide a /\ all_wide b.
Proof. unfold all_wide. rewrite forallb_app, andb_true_iff. reflexivity. Qed.

Lemma all_wide_split n s : all_wide s -> all_wide (firstn n s) /\ all_wide (skipn n s).
Proof. intros H. rewrite <- (firstn_skipn n s) in H. apply all_wide_app in H. exact H. Qed.

Lemma apply_scale_wide w f z w' f' :
  apply_scale w f z = (w', f') -> all_wide w -> all_wide f -> all_wide w' /\ all_wide f'.
Proof.
  rewrite apply_scale_eq. intros E Hw Hf.
  assert (Hl : all_wide (padl w z)).
  { unfold padl. destruct (_ >? _)%Z; [apply all_wide_app; split; [apply all_wide_zeros|]|]; exact Hw. }
  assert (Hr : all_wide (padr f z)).
  { unfold padr. destruct (_ >? _)%Z; [apply all_wide_app; split; [|apply all_wide_zeros]|]; exact Hf. }
  destruct (z <? 0)%Z; inversion E; subst; rewrite all_wide_app.
  - destruct (all_wide_split (slice_index (padl w z) z) _ Hl). auto.
  - destruct (all_wide_split (slice_index (padr f z) z) _ Hr). auto.
Qed.

Lemma wide_not_sep c : is_wide_digit c = true -> mem_char c separators = false.
Proof.
  intros H. assert (Hall : forallb (fun s => negb (is_wide_digit s)) separators = true) by reflexivity.
  destruct (mem_char c separators) eqn:E; [|reflexivity].
  apply mem_char_in in E. rewrite forallb_forall in Hall. apply Hall in E. rewrite H in E. discriminate.
Qed.

Lemma process_part_wide p :
  p <> [] -> forallb (fun c => is_wide_digit c || mem_char c separators) p = true ->
  process_number_part (Some p) = filter is_wide_digit p.
Proof.
  intros Hne H. unfold process_number_part. destruct p as [|x p]; [congruence|].
  rewrite fold_remove. apply filter_agree. intros c Hc.
  rewrite forallb_forall in H. apply H in Hc.
  destruct (is_wide_digit c) eqn:E.
  - rewrite wide_not_sep by exact E. reflexivity.
  - rewrite orb_false_l in Hc. rewrite Hc. reflexivity.
Qed.

Lemma filter_wide p : all_wide (filter is_wide_digit p).
Proof.
  unfold all_wide. apply forallb_forall. intros c Hc. apply filter_In in Hc. tauto.
Qed.

Lemma normalize_wide_norm w f :
  all_wide w -> all_wide f ->
  normalize_numerical_fact_value (w ++ [46%N] ++ f) = norm (map ascii_digit w) (map ascii_digit f).
Proof.
  intros Hw Hf.
  rewrite <- normalize_norm by (apply map_ascii_digits; assumption).
  unfold normalize_numerical_fact_value.
  assert (normalize_digits_in_string (w ++ [46%N] ++ f)
          = normalize_digits_in_string (map ascii_digit w ++ [46%N] ++ map ascii_digit f)) as ->;
    [|reflexivity].
  rewrite !normalize_digits_app.
  rewrite (normalize_wide w), (normalize_wide f) by assumption.
  rewrite (normalize_digits_id (map ascii_digit w)), (normalize_digits_id (map ascii_digit f))
    by (apply map_ascii_digits; assumption). reflexivity.
Qed.

Lemma unit_separators groups a :
  forallb (fun c => mem_char c separators && negb (is_wide_digit c)) groups = true ->
  forallb (fun c => is_wide_digit c || mem_char c groups) a = true ->
  forallb (fun c => is_wide_digit c || mem_char c separators) a = true.
Proof.
  intros Hsep Ha. apply forallb_forall. intros c Hc. rewrite forallb_forall in Ha, Hsep. apply Ha in Hc.
  apply orb_prop in Hc as [->|Hc]; [reflexivity|]. apply mem_char_in in Hc.
  specialize (Hsep c Hc). apply andb_prop in Hsep as [-> _]. apply orb_true_r.
Qed.

Lemma parse_unit_written fmt groups text a m attr :
  In (fmt, groups) unit_formats -> unit_written groups (strip text) a m ->
  exists w f, all_digits w /\ all_digits f /\
    (dec_val w f == dec_val (wide_digits a) (wide_digits m) * Qpower 10 (fst (scale_of attr)))%Q /\
    parse_numerical_fact_value text fmt attr = (norm w f, snd (scale_of attr)).
Proof.
  intros Hin Hw.
  destruct (unit_formats_re _ _ Hin) as (cs1 & cs2 & csn & csd & Hre & H1 & H2 & Hn & Hd & Hsep & Hz).
  pose proof Hw as (x & words & rest & _ & Hne & Ha & _ & _ & Hm & Hl & _).
  set (W := filter is_wide_digit a). set (F := filter is_wide_digit m).
  assert (EW : process_number_part (Some a) = W).
  { apply process_part_wide; [exact Hne|]. eapply unit_separators; eauto. }
  assert (EF : process_number_part (Some m) = F).
  { apply process_part_wide; [destruct m; [cbn in Hl; lia|discriminate]|].
    apply forallb_forall. intros c Hc. rewrite forallb_forall in Hm. rewrite (Hm c Hc). reflexivity. }
  destruct (apply_scale W F (fst (scale_of attr))) as [w f] eqn:E.
  destruct (apply_scale_wide _ _ _ _ _ E (filter_wide a) (filter_wide m)) as [Hww Hwf].
  exists (map ascii_digit w), (map ascii_digit f).
  repeat split; [apply map_ascii_digits; assumption..| |].
  { apply apply_scale_map in E. apply (apply_scale_value _ _ _ _ _ E). }
  unfold parse_numerical_fact_value. rewrite Hz.
  unfold match_regex_numerical_fact_value. rewrite Hre.
  rewrite (unit_match groups cs1 cs2 csn csd H1 H2 Hn Hd (strip text) a m Hw).
  rewrite process_eq. unfold unit_caps. cbn [dict_get Nat.eqb].
  rewrite EW, EF. destruct (scale_of attr) as [z errs]. cbn [fst snd] in E |- *.
  rewrite E. rewrite normalize_wide_norm by assumption. reflexivity.
Qed.

Lemma wide_digits_length m : forallb is_wide_digit m = true -> length (wide_digits m) = length m.
Proof.
  intros H. unfold wide_digits. rewrite map_length.
  induction m as [|c m IH]; [reflexivity|]. cbn in *. apply andb_prop in H as [-> H].
  cbn. rewrite IH; auto.
Qed.

Lemma dec_val_sum w f :
  (dec_val w f == inject_Z (digits_val w) + inject_Z (digits_val f) * Qpower 10 (- Z.of_nat (length f)))%Q.
Proof.
  unfold dec_val. rewrite digits_val_app, inject_Z_plus, inject_Z_mult, <- Qpower10_Z.
  rewrite Qmult_plus_distr_l, <- Qmult_assoc, (Qmult_comm (Qpower 10 (Z.of_nat _))), Qpow_cancel.
  rewrite Qmult_1_r. reflexivity.
Qed.

Lemma unit_two_digits groups t a m :
  unit_written groups t a m -> length m = 2 ->
  (dec_val (wide_digits a) (wide_digits m) == unit_amount a m)%Q.
Proof.
  intros (x & words & rest & _ & _ & _ & _ & _ & Hm & _ & _) Hl.
  rewrite dec_val_sum, wide_digits_length, Hl by exact Hm. unfold unit_amount.
  apply Qplus_comp; [reflexivity|]. apply Qmult_comp; [reflexivity|]. reflexivity.
Qed.

Lemma unit_one_digit groups t a m :
  unit_written groups t a m -> length m = 1 ->
  (dec_val (wide_digits a) (wide_digits m)
   == inject_Z (digits_val (wide_digits a)) + inject_Z (digits_val (wide_digits m)) / 10)%Q.
Proof.
  intros (x & words & rest & _ & _ & _ & _ & _ & Hm & _ & _) Hl.
  rewrite dec_val_sum, wide_digits_length, Hl by exact Hm.
  apply Qplus_comp; [reflexivity|]. apply Qmult_comp; [reflexivity|]. reflexivity.
Qed.

(** ** Unknown formats *)
Lemma parse_unknown_format fmt text attr :
  str_eqb fmt (u "ixt:fixed-zero") = false ->
  dict_get str_eqb number_format_to_regex (current_format fmt) = None ->
  parse_numerical_fact_value text fmt attr = (strip text, ["UNSUPPORTED_NON_FRACTION_FACT_FORMAT"%string]).
Proof.
  intros Hz Hn. unfold parse_numerical_fact_value. rewrite Hz.
  unfold match_regex_numerical_fact_value. rewrite Hn. reflexivity.
Qed.

Lemma parse_unit_not_written fmt groups text attr :
  In (fmt, groups) unit_formats ->
  (forall a m, ~ unit_written groups (strip text) a m) ->
  parse_numerical_fact_value text fmt attr = (strip text, ["NUMBER_DOES_NOT_MATCH_EXPECTED_FORMAT"%string]).
Proof.
  intros Hin Hnw.
  destruct (unit_formats_re _ _ Hin) as (cs1 & cs2 & csn & csd & Hre & H1 & H2 & Hn & Hd & Hsep & Hz).
  unfold parse_numerical_fact_value. rewrite Hz.
  unfold match_regex_numerical_fact_value. rewrite Hre.
  rewrite (unit_nomatch groups cs1 cs2 csn csd H1 H2 Hn Hd _ Hnw). reflexivity.
Qed.
