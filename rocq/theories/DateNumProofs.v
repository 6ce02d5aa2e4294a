(** Numeric dates and Japanese imperial dates. *)
From Coq Require Import Btauto.
From Verif Require Import Base Regex RegexProofs Registry PyNum NumModel NumSpec NumProofs
  NumMatchProofs DateModel DateSpec DateProofs DateMatchProofs DateNameProofs.
Local Open Scope nat_scope.

(** ** Numeric patterns *)

Definition nbody (cs : cset) (f : field) : re :=
  match f with
  | FYear => ralts [RRep cs 1 (Some 2); RRep cs 4 (Some 4)]
  | _ => RRep cs 1 (Some 2)
  end.
Fixpoint fre (cs ncs : cset) (trail : bool) (i : nat) (fs : list field) : list re :=
  match fs with
  | [] => [REnd]
  | [f] => RGrp i (nbody cs f) :: (if trail then [RRep ncs 0 None; REnd] else [REnd])
  | f :: fs' => RGrp i (nbody cs f) :: RRep ncs 1 None :: fre cs ncs trail (S i) fs'
  end.

Section Numeric.
  Context (cs ncs : cset) (dig : N -> bool) (trail : bool).
  Hypothesis Hcs : forall c, cset_mem cs c = dig c.
  Hypothesis Hncs : forall c, cset_mem ncs c = negb (dig c).

  Lemma nbody_MT f s c s' c' :
    MT (nbody cs f) s c s' c' <-> c' = c /\ exists p, s = p ++ s' /\ digits_in dig (lens_of f) p.
  Proof.
    assert (H12 : forall p : str, 1 <= length p -> length p <= 2 -> In (length p) [1; 2]) by (intros [|? [|? [|? ?]]]; cbn; lia).
    unfold digits_in. destruct f; cbn [nbody ralts MT lens_of within]; split.
    - intros (p & -> & Hp & Hl & Hw & ->). split; [reflexivity|]. exists p.
      rewrite (forallb_ext' _ _ p Hcs) in Hp. auto.
    - intros (-> & p & -> & Hp & Hi). exists p. rewrite (forallb_ext' _ _ p Hcs).
      repeat split; auto; cbn in Hi; lia.
    - intros (p & -> & Hp & Hl & Hw & ->). split; [reflexivity|]. exists p.
      rewrite (forallb_ext' _ _ p Hcs) in Hp. auto.
    - intros (-> & p & -> & Hp & Hi). exists p. rewrite (forallb_ext' _ _ p Hcs).
      repeat split; auto; cbn in Hi; lia.
    - intros [(p & -> & Hp & Hl & Hw & ->)|(p & -> & Hp & Hl & Hw & ->)]; split; try reflexivity; exists p;
        rewrite (forallb_ext' _ _ p Hcs) in Hp; (split; [reflexivity|]); (split; [exact Hp|]).
      + specialize (H12 p Hl Hw). cbn in *. lia.
      + cbn. lia.
    - intros (-> & p & -> & Hp & Hi).
      assert (1 <= length p <= 2 \/ length p = 4) as [H|H] by (cbn in Hi; lia); [left|right]; exists p;
        rewrite (forallb_ext' _ _ p Hcs); repeat split; auto; lia.
  Qed.

  Lemma fre_sound fs : forall i s c s' c', fs <> [] -> MT (rseq (fre cs ncs trail i fs)) s c s' c' ->
    exists ps t, numeric_text dig trail fs ps t /\ s = t ++ s' /\ at_end s' = true /\
      c' = rev (number i ps) ++ c.
  Proof.
    induction fs as [|f [|f2 fs] IH]; intros i s c s' c' Hne HM; [congruence| |].
    - cbn [fre] in HM. destruct HM as (s1 & c1 & (c2 & p & Hb & Es & ->) & HM).
      apply nbody_MT in Hb as (-> & p' & E & Hd). rewrite Es in E. apply app_inv_tail in E. subst p' s.
      destruct trail eqn:Et.
      + destruct HM as (s2 & c3 & (g & -> & Hg & _ & _ & ->) & s3 & c4 & (He & -> & ->) & -> & ->).
        exists [p], (p ++ g). split; [|rewrite <- app_assoc; auto].
        apply nt_last; [exact Hd| |discriminate].
        unfold no_digit. rewrite <- (forallb_ext' _ _ g Hncs). exact Hg.
      + destruct HM as (s3 & c4 & (He & -> & ->) & -> & ->).
        exists [p], (p ++ []). split; [|rewrite app_nil_r; auto].
        apply nt_last; [exact Hd|reflexivity|reflexivity].
    - change (fre cs ncs trail i (f :: f2 :: fs)) with
        (RGrp i (nbody cs f) :: RRep ncs 1 None :: fre cs ncs trail (S i) (f2 :: fs)) in HM.
      destruct HM as (s1 & c1 & (c2 & p & Hb & Es & ->) & s2 & c3 & (g & -> & Hg & Hl & _ & ->) & HM).
      apply nbody_MT in Hb as (-> & p' & E & Hd). rewrite Es in E. apply app_inv_tail in E. subst p' s.
      destruct (IH (S i) _ _ _ _ ltac:(discriminate) HM) as (ps & t & Ht & -> & He & ->).
      exists (p :: ps), (p ++ g ++ t). split; [|split; [rewrite <- !app_assoc; reflexivity|split; [exact He|]]].
      + apply nt_more; try assumption.
        * unfold no_digit. rewrite <- (forallb_ext' _ _ g Hncs). exact Hg.
        * destruct g; [cbn in Hl; lia|discriminate].
      + cbn [number rev]. rewrite <- app_assoc. reflexivity.
  Qed.

  Lemma fre_complete fs ps t : numeric_text dig trail fs ps t -> forall i c,
    MT (rseq (fre cs ncs trail i fs)) t c [] (rev (number i ps) ++ c).
  Proof.
    induction 1 as [f p rest Hd Hr Ht|f p sep fs ps t Hd Hs Hne HT IH]; intros i c.
    - cbn [fre]. exists rest, ((i, p) :: c). split.
      { exists c, p. split; [|auto]. apply nbody_MT. eauto. }
      destruct trail.
      + exists [], ((i, p) :: c). split.
        { exists rest. rewrite app_nil_r, (forallb_ext' _ _ rest Hncs). cbn. repeat split; auto; lia. }
        exists [], ((i, p) :: c). split; [cbn; auto|]. cbn; auto.
      + rewrite (Ht eq_refl). exists [], ((i, p) :: c). split; [cbn; auto|]. cbn; auto.
    - assert (exists f2 fs2, fs = f2 :: fs2) as (f2 & fs2 & ->) by (inversion HT; eauto).
      change (fre cs ncs trail i (f :: f2 :: fs2)) with
        (RGrp i (nbody cs f) :: RRep ncs 1 None :: fre cs ncs trail (S i) (f2 :: fs2)).
      exists (sep ++ t), ((i, p) :: c). split.
      { exists c, p. split; [|auto]. apply nbody_MT. eauto. }
      exists t, ((i, p) :: c). split.
      { exists sep. rewrite (forallb_ext' _ _ sep Hncs). destruct sep; [congruence|]. cbn. repeat split; auto; lia. }
      cbn [number rev]. rewrite <- app_assoc. apply IH.
  Qed.

  Lemma numeric_head fs ps t : numeric_text dig trail fs ps t -> exists c t', t = c :: t' /\ dig c = true.
  Proof.
    destruct 1 as [f p rest [Hd Hl] _ _|f p sep fs ps t [Hd Hl] _ _ _];
      (destruct p as [|c p]; [destruct f; cbn in Hl; lia|]);
      cbn in Hd; apply andb_prop in Hd as [Hc _]; cbn; eauto.
  Qed.

  Lemma no_digit_head a t : no_digit dig a -> a <> [] ->
    match a ++ t with [] => True | x :: _ => dig x = false end.
  Proof.
    intros H Hn. destruct a as [|x a]; [congruence|]. cbn in *. apply andb_prop in H as [H _].
    apply negb_true_iff, H.
  Qed.

  Lemma numeric_unique fs ps t : numeric_text dig trail fs ps t -> forall ps',
    numeric_text dig trail fs ps' t -> ps' = ps.
  Proof.
    induction 1 as [f p rest [Hd Hl] Hr Ht|f p sep fs ps t [Hd Hl] Hs Hne HT IH]; intros ps' H'.
    - inversion H' as [? p' rest' [Hd' _] Hr' _ E1 E2 E3|? p' sep' fs' ps0 t' ? ? ? HT' E1 E2 E3]; subst.
      + assert (Hh : forall r, no_digit dig r -> match r with [] => True | x :: _ => dig x = false end).
        { intros [|x r]; [auto|]. cbn. intros H. apply andb_prop in H as [H _]. apply negb_true_iff, H. }
        destruct (prefix_maximal dig p' p rest' rest Hd' Hd (Hh _ Hr') (Hh _ Hr)) as [-> _]; [congruence|reflexivity].
      + inversion HT'.
    - inversion H' as [? p' rest' [Hd' _] Hr' _ E1 E2 E3|? p' sep' fs' ps0 t' [Hd' ?] Hs' Hne' HT' E1 E2 E3]; subst.
      + inversion HT.
      + destruct (prefix_maximal dig p' p (sep' ++ t') (sep ++ t)) as [-> E]; try assumption;
          try (apply no_digit_head; assumption).
        destruct (numeric_head _ _ _ HT) as (c & u1 & -> & Hc). destruct (numeric_head _ _ _ HT') as (c' & u2 & -> & Hc').
        destruct (prefix_maximal (fun c => negb (dig c)) sep' sep (c' :: u2) (c :: u1) Hs' Hs) as [-> E'];
          [cbn; rewrite Hc'; reflexivity|cbn; rewrite Hc; reflexivity|exact E|].
        f_equal. apply IH. rewrite <- E'. exact HT'.
  Qed.

  Lemma numeric_match fs ps text : fs <> [] -> numeric_text dig trail fs ps (strip text) ->
    re_match (rseq (REps :: fre cs ncs trail 1 fs)) (strip text) = Some (rev (number 1 ps)).
  Proof.
    intros Hne H. apply (re_match_unique _ _ []).
    - exists (strip text), []. split; [cbn; auto|].
      pose proof (fre_complete _ _ _ H 1 []) as HM. rewrite app_nil_r in HM. exact HM.
    - intros s2 c2 (s1 & c1 & [-> ->] & HM).
      destruct (fre_sound _ _ _ _ _ _ Hne HM) as (ps' & t & Ht & Es & He & ->).
      pose proof (strip_at_end _ _ _ Es He) as ->. rewrite app_nil_r in *.
      rewrite <- Es in Ht. rewrite (numeric_unique _ _ _ H _ Ht). reflexivity.
  Qed.

  Lemma numeric_nomatch fs text : fs <> [] -> (forall ps, ~ numeric_text dig trail fs ps (strip text)) ->
    re_match (rseq (REps :: fre cs ncs trail 1 fs)) (strip text) = None.
  Proof.
    intros Hne H. apply re_match_none. intros s2 c2 (s1 & c1 & [-> ->] & HM).
    destruct (fre_sound _ _ _ _ _ _ Hne HM) as (ps' & t & Ht & Es & He & ->).
    pose proof (strip_at_end _ _ _ Es He) as ->. rewrite app_nil_r in Es. rewrite <- Es in Ht.
    exact (H _ Ht).
  Qed.
End Numeric.

Definition numeric_names : list (list str) :=
  match dict_get (opt_eqb str_eqb) country_to_month_names None with Some l => l | None => [] end.

Lemma numeric_formats_re fmt fs dig trail :
  In (fmt, (fs, dig, trail)) numeric_date_formats ->
  exists cs ncs bs,
    dict_get str_eqb date_format_to_regex fmt = Some (rseq (REps :: fre cs ncs trail 1 fs), length fs) /\
    fmt_info fmt fs = Some (bs, numeric_names) /\
    (forall c, cset_mem cs c = dig c) /\ (forall c, cset_mem ncs c = negb (dig c)) /\ fs <> [].
Proof.
  intros H. cbn [In numeric_date_formats] in H.
  repeat destruct H as [H|H]; try contradiction; injection H as <- <- <- <-; do 3 eexists;
    (split; [vm_compute; reflexivity|]); (split; [vm_compute; reflexivity|]);
    (split; [intros; cbn; unfold devanagari_or_ascii, fullwidth_or_ascii, ascii_or, is_digit; cbn; btauto|]);
    (split; [intros; cbn; unfold devanagari_or_ascii, fullwidth_or_ascii, ascii_or, is_digit; cbn; btauto|]);
    discriminate.
Qed.

Lemma number_inj gs : forall i gs', number i gs = number i gs' -> gs = gs'.
Proof.
  induction gs as [|g gs IH]; intros i [|g' gs'] H; try discriminate; [reflexivity|].
  injection H as -> H. f_equal. eapply IH, H.
Qed.

Local Opaque date_format_to_regex country_to_month_names irregular_date_order_dict.

Lemma run_match ev fmt fs bs names r n text gs :
  dict_get str_eqb date_format_to_regex fmt = Some (r, n) ->
  fmt_info fmt fs = Some (bs, names) ->
  re_match r (strip text) = Some (rev (number 1 gs)) ->
  Forall2 fits bs gs /\
  parse_date_fact_value ev text fmt = outcome (year_num fs gs) (month_of names fs gs) (day_num fs gs).
Proof.
  intros Hr Hi Hm. pose proof Hi as Hi'. unfold fmt_info in Hi. rewrite Hr in Hi.
  destruct (unseq r) as [[|[| | | | | | | |] [|[| | | | | | | |[|[|n1]] b0] l]]|] eqn:Eu; try discriminate.
  destruct (shape l 2) as [bs'|] eqn:Es; [|discriminate].
  destruct (country_of fmt) as [country|] eqn:Ec; [|discriminate].
  destruct (dict_get (opt_eqb str_eqb) country_to_month_names country) as [names'|] eqn:En; [|discriminate].
  match type of Hi with (if ?b then _ else _) = _ => destruct b eqn:E; [|discriminate] end.
  injection Hi as <- <-. repeat (apply andb_prop in E as [E ?]).
  apply unseq_sound in Eu. subst r.
  assert (HF : Forall2 fits (b0 :: bs') gs).
  { destruct (pattern_captures b0 l bs' text _ Es E ltac:(assumption) Hm) as (gs' & Ec' & HF & _).
    assert (gs = gs') as ->; [|exact HF].
    apply (number_inj gs 1). rewrite <- (rev_involutive (number 1 gs)), Ec', rev_involutive. reflexivity. }
  split; [exact HF|]. eapply run_captures; eauto.
Qed.

Local Transparent date_format_to_regex country_to_month_names irregular_date_order_dict.

(** Numeric months. *)
Definition ascii_digits : list N := block10 48.
Definition short_nums : list str :=
  map (fun a => [a]) ascii_digits ++ flat_map (fun a => map (fun b => [a; b]) ascii_digits) ascii_digits.
Lemma in_short_nums s : ascii_num [1; 2] s -> In s short_nums.
Proof.
  intros [H Hl]. assert (Hd : forall c, is_digit c = true -> In c ascii_digits).
  { intros c Hc. apply in_block10. unfold is_digit in Hc. apply andb_prop in Hc as [? ?].
    rewrite N.leb_le in *. lia. }
  unfold short_nums. apply in_or_app.
  destruct s as [|a [|b [|c s]]]; cbn in Hl; try lia.
  - left. apply all_digits_cons in H as [Ha _]. apply in_map_iff. exists a. auto.
  - right. apply all_digits_cons in H as [Ha H]. apply all_digits_cons in H as [Hb _].
    apply in_flat_map. exists a. split; [auto|]. apply in_map_iff. exists b. auto.
Qed.

Definition month_in_range (z : Z) : option nat :=
  if ((1 <=? z) && (z <=? 12))%Z then Some (Z.to_nat z) else None.

Lemma numeric_month p : num [1; 2] p ->
  month_index numeric_names (lower (norm p)) 0 = month_in_range (num_val p).
Proof.
  intros H. pose proof (num_norm _ _ H) as Ha. destruct (norm_num p (proj1 H)) as (_ & Ev & _).
  rewrite <- Ev. apply in_short_nums in Ha.
  assert (Hall : forallb (fun s => opt_eqb Nat.eqb (month_index numeric_names (lower s) 0)
      (month_in_range (digits_val s))) short_nums = true) by (vm_compute; reflexivity).
  rewrite forallb_forall in Hall. apply Hall in Ha.
  destruct (opt_eqb_spec Nat.eqb Nat.eqb_spec (month_index numeric_names (lower (norm p)) 0)
     (month_in_range (digits_val (norm p)))); [assumption|discriminate].
Qed.

Lemma numeric_month_body fmt fs dig trail bs :
  In (fmt, (fs, dig, trail)) numeric_date_formats -> fmt_info fmt fs = Some (bs, numeric_names) ->
  exists b, month_body fs bs = Some b /\ num_lens b = Some [1; 2].
Proof.
  intros H Hi. assert (Hall : forallb (fun e => match fmt_info (fst e) (fst (fst (snd e))) with
    | Some (bs, _) => match month_body (fst (fst (snd e))) bs with
                      | Some b => opt_eqb (list_eqb Nat.eqb) (num_lens b) (Some [1; 2]) | None => false end
    | None => false end) numeric_date_formats = true) by (vm_compute; reflexivity).
  rewrite forallb_forall in Hall. apply Hall in H. cbn [fst snd] in H. rewrite Hi in H.
  destruct (month_body fs bs) as [b|]; [|discriminate]. exists b. split; [reflexivity|].
  destruct (opt_eqb_spec (list_eqb Nat.eqb) (list_eqb_spec Nat.eqb Nat.eqb_spec) (num_lens b) (Some [1; 2]));
    [assumption|discriminate].
Qed.

(** A numeric text runs as expected. *)
Lemma numeric_run ev fmt fs dig trail ps text :
  In (fmt, (fs, dig, trail)) numeric_date_formats -> numeric_text dig trail fs ps (strip text) ->
  exists m, piece fs ps FMonth = Some m /\
    parse_date_fact_value ev text fmt =
    outcome (year_num fs ps) (month_in_range (num_val m)) (day_num fs ps).
Proof.
  intros H Ht. destruct (numeric_formats_re _ _ _ _ H) as (cs & ncs & bs & Hr & Hi & Hcs & Hncs & Hne).
  pose proof (numeric_match cs ncs dig trail Hcs Hncs fs ps text Hne Ht) as Hm.
  destruct (run_match ev fmt fs bs numeric_names _ _ text ps Hr Hi Hm) as [HF E].
  destruct (fmt_info_orders _ _ _ _ Hi) as (Hor & Hlb & Hbf & _).
  assert (Hlen : length ps = length fs) by (apply Forall2_length in HF; congruence).
  destruct (piece fs ps FMonth) as [m|] eqn:Ep; [|exfalso; eapply orders_month; eauto].
  exists m. split; [reflexivity|]. rewrite E. unfold month_of. rewrite Ep.
  destruct (numeric_month_body _ _ _ _ _ H Hi) as (b & Hb & Hnl).
  pose proof (month_body_fits fs bs ps b m Hb HF Ep) as Hfit. unfold fits in Hfit. rewrite Hnl in Hfit.
  rewrite numeric_month by exact Hfit. reflexivity.
Qed.

Lemma numeric_reject ev fmt fs dig trail text :
  In (fmt, (fs, dig, trail)) numeric_date_formats -> (forall ps, ~ numeric_text dig trail fs ps (strip text)) ->
  parse_date_fact_value ev text fmt = Ok (strip text, NOMATCH).
Proof.
  intros H Hn. destruct (numeric_formats_re _ _ _ _ H) as (cs & ncs & bs & Hr & Hi & Hcs & Hncs & Hne).
  pose proof (numeric_nomatch cs ncs dig trail Hcs Hncs fs text Hne Hn) as Hm.
  unfold parse_date_fact_value, match_regex_date_fact_value. rewrite Hr, Hm. reflexivity.
Qed.
