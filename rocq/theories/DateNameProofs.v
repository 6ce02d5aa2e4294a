(** Month names. *)
From Verif Require Import Base Regex RegexProofs Registry PyNum NumModel NumSpec NumProofs
  NumMatchProofs DateModel DateSpec DateProofs DateMatchProofs.
Local Open Scope nat_scope.

Definition lang_months (lang : str) : list (list str) :=
  concat (map (fun p => if str_eqb (fst p) lang then snd p else []) month_names).

Definition names_monthb (lang s : str) (m : nat) : bool :=
  let ms := lang_months lang in
  let mine := nth (m - 1) ms [] in
  Nat.leb 1 m && Nat.leb m 12 &&
  (existsb (str_eqb s) mine ||
   (existsb (is_prefix s) mine &&
    forallb (fun k => Nat.eqb k m || negb (existsb (is_prefix s) (nth (k - 1) ms []))) (seq 1 12))).

Definition month_body (fs : list field) (bs : list re) : option re :=
  match find (fun p => field_eqb (fst p) FMonth) (combine fs bs) with
  | Some (_, b) => Some b
  | None => None
  end.

Definition name_check (e : str * (str * list field)) : bool :=
  let '(fmt, (lang, fs)) := e in
  match fmt_info fmt fs with
  | Some (bs, names) =>
      match month_body fs bs with
      | Some b =>
          match num_lens b, lits b with
          | None, Some l =>
              forallb (fun s => match month_index names (lower (norm s)) 0 with
                                | Some i => names_monthb lang (lower s) i
                                | None => false
                                end) l
          | _, _ => false
          end
      | None => false
      end
  | None => false
  end.

Lemma name_checks : forallb name_check name_date_formats = true.
Proof. vm_compute. reflexivity. Qed.

Lemma names_unique_lang : forallb (fun p => list_eqb (list_eqb str_eqb) (lang_months (fst p)) (snd p)
                                             && Nat.eqb (length (snd p)) 12) month_names = true.
Proof. vm_compute. reflexivity. Qed.

Lemma lang_months_in lang ms : In (lang, ms) month_names -> lang_months lang = ms /\ length ms = 12.
Proof.
  intros H. pose proof names_unique_lang as Hu. rewrite forallb_forall in Hu. apply Hu in H.
  apply andb_prop in H as [H1 H2]. cbn [fst snd] in *. split; [|apply Nat.eqb_eq; exact H2].
  destruct (list_eqb_spec (list_eqb str_eqb) (list_eqb_spec str_eqb str_eqb_spec) (lang_months lang) ms);
    [assumption|discriminate].
Qed.

Lemma nth_nil_in {A} (l : list (list A)) i x : In x (nth i l []) -> nth_error l i = Some (nth i l []).
Proof.
  revert i; induction l as [|a l IH]; intros [|i] H; cbn in *; try contradiction; [reflexivity|]. apply IH, H.
Qed.

Lemma names_of_lang lang m n : names_of lang m n <->
  (exists ms, In (lang, ms) month_names) /\ In n (nth (m - 1) (lang_months lang) []).
Proof.
  split.
  - intros (ms & ns & Hi & Hn & Hin). split; [eauto|].
    destruct (lang_months_in lang ms Hi) as [-> _]. erewrite nth_error_nth; eauto.
  - intros [(ms & Hi) Hn]. destruct (lang_months_in lang ms Hi) as [E _]. rewrite E in Hn.
    exists ms, (nth (m - 1) ms []). split; [exact Hi|]. split; [|exact Hn]. eapply nth_nil_in, Hn.
Qed.

Lemma lang_months_nonempty lang m n : In n (nth m (lang_months lang) []) -> exists ms, In (lang, ms) month_names.
Proof.
  intros H. assert (Hne : lang_months lang <> []) by (intros E; rewrite E in H; destruct m; exact H).
  unfold lang_months in Hne. clear H. induction month_names as [|[l ms] t IH]; [cbn in Hne; congruence|].
  cbn [map concat fst snd] in Hne. destruct (str_eqb_spec l lang) as [->|].
  - exists ms; left; reflexivity.
  - destruct (IH Hne) as [ms' H]. exists ms'; right; exact H.
Qed.

Lemma existsb_in_str s l : existsb (str_eqb s) l = true <-> In s l.
Proof.
  rewrite existsb_exists. split.
  - intros (x & Hx & E). apply str_eqb_eq in E. congruence.
  - intros H. exists s. rewrite str_eqb_refl. auto.
Qed.

Lemma names_monthb_sound lang s m : names_monthb lang s m = true -> names_month lang s m.
Proof.
  unfold names_monthb, names_month. intros H.
  apply andb_prop in H as [H1 H2]. apply andb_prop in H1 as [Ha Hb].
  apply Nat.leb_le in Ha, Hb. split; [lia|]. apply orb_prop in H2 as [H|H].
  - left. apply existsb_in_str in H. apply names_of_lang. split; [|exact H].
    eapply lang_months_nonempty, H.
  - right. apply andb_prop in H as [H1 H2]. split.
    + apply existsb_exists in H1 as (n & Hn & Hp). exists n. split; [|exact Hp].
      apply names_of_lang. split; [|exact Hn]. eapply lang_months_nonempty, Hn.
    + intros k n Hk Hn Hp. apply names_of_lang in Hn as [_ Hn].
      rewrite forallb_forall in H2. specialize (H2 k ltac:(apply in_seq; lia)).
      apply orb_prop in H2 as [E|E]; [apply Nat.eqb_eq, E|].
      apply negb_true_iff in E. exfalso.
      assert (existsb (is_prefix s) (nth (k - 1) (lang_months lang) []) = true); [|congruence].
      apply existsb_exists. eauto.
Qed.

Lemma month_body_fits fs bs gs b s :
  month_body fs bs = Some b -> Forall2 fits bs gs -> piece fs gs FMonth = Some s -> fits b s.
Proof.
  unfold month_body. intros Hb HF. revert fs Hb. induction HF as [|b' g bs gs Hf HF IH]; intros [|f fs] Hb Hp;
    try discriminate.
  cbn [combine find] in Hb. cbn [piece] in Hp.
  destruct f; cbn [fst field_eqb] in Hb; try (eapply IH; eauto; fail).
  injection Hb as <-. injection Hp as <-. exact Hf.
Qed.

Local Opaque date_format_to_regex country_to_month_names irregular_date_order_dict month_names.

Lemma name_format_info fmt lang fs : In (fmt, (lang, fs)) name_date_formats ->
  exists bs names b l, fmt_info fmt fs = Some (bs, names) /\ month_body fs bs = Some b /\
    num_lens b = None /\ lits b = Some l /\
    forall s, In s l -> exists i, month_index names (lower (norm s)) 0 = Some i /\ names_monthb lang (lower s) i = true.
Proof.
  intros H. pose proof name_checks as Hc. rewrite forallb_forall in Hc. apply Hc in H.
  unfold name_check in H. destruct (fmt_info fmt fs) as [[bs names]|]; [|discriminate].
  destruct (month_body fs bs) as [b|] eqn:Eb; [|discriminate].
  destruct (num_lens b) eqn:En; [discriminate|]. destruct (lits b) as [l|] eqn:El; [|discriminate].
  exists bs, names, b, l. repeat (split; [first [reflexivity|assumption]|]).
  intros s Hs. rewrite forallb_forall in H. apply H in Hs.
  destruct (month_index names (lower (norm s)) 0) as [i|]; [|discriminate]. eauto.
Qed.

Lemma fmt_info_orders fmt fs bs names : fmt_info fmt fs = Some (bs, names) ->
  In fs orders /\ length bs = length fs /\ forallb body_fits_field (combine fs bs) = true /\ length names <= 12.
Proof.
  unfold fmt_info. intros Hi.
  destruct (dict_get str_eqb date_format_to_regex fmt) as [[r n]|] eqn:Hr; [|discriminate].
  destruct (unseq r) as [[|[| | | | | | | |] [|[| | | | | | | |[|[|n1]] b0] l]]|] eqn:Eu; try discriminate.
  destruct (shape l 2) as [bs'|] eqn:Es; [|discriminate].
  destruct (country_of fmt) as [country|] eqn:Ec; [|discriminate].
  destruct (dict_get (opt_eqb str_eqb) country_to_month_names country) as [names'|] eqn:En; [|discriminate].
  match type of Hi with (if ?b then _ else _) = _ => destruct b eqn:E; [|discriminate] end.
  injection Hi as <- <-. repeat (apply andb_prop in E as [E ?]).
  repeat match goal with
  | H : Nat.eqb _ _ = true |- _ => apply Nat.eqb_eq in H
  | H : Nat.leb _ _ = true |- _ => apply Nat.leb_le in H
  end.
  match goal with H : existsb (list_eqb field_eqb fs) orders = true |- _ =>
    apply existsb_exists in H as (o & Hio & Heo) end.
  apply (list_eqb_true field_eqb field_eqb_spec) in Heo. subst o. auto.
Qed.

Lemma name_format_run ev fmt lang fs text : In (fmt, (lang, fs)) name_date_formats ->
  parse_date_fact_value ev text fmt = Ok (strip text, NOMATCH) \/
  exists ps s m, length ps = length fs /\ laid_out no_ascii_digit ps (strip text) /\
    (forall f p, f <> FMonth -> piece fs ps f = Some p -> num (lens_of f) p) /\
    piece fs ps FMonth = Some s /\ names_month lang (lower s) m /\
    parse_date_fact_value ev text fmt = outcome (year_num fs ps) (Some m) (day_num fs ps).
Proof.
  intros H. destruct (name_format_info _ _ _ H) as (bs & names & b & l & Hi & Hb & Hn & Hl & Hs).
  destruct (fmt_info_orders _ _ _ _ Hi) as (Hor & Hlb & Hbf & _).
  destruct (run_format ev fmt fs bs names text Hi) as [E|(gs & Hlen & HF & HL & E)]; [left; exact E|right].
  destruct (piece fs gs FMonth) as [s|] eqn:Ep; [|exfalso; eapply orders_month; eauto].
  pose proof (month_body_fits fs bs gs b s Hb HF Ep) as Hfit. unfold fits in Hfit. rewrite Hn, Hl in Hfit.
  destruct (Hs s Hfit) as (m & Hm & Hnm).
  exists gs, s, m. split; [exact Hlen|]. split; [exact HL|]. split; [intros; eapply fields_num; eauto|].
  split; [exact Ep|]. split; [apply names_monthb_sound, Hnm|].
  rewrite E. unfold month_of. rewrite Ep, Hm. reflexivity.
Qed.

(** ** Texts with full month names *)

Fixpoint infix (s t : str) : bool :=
  is_prefix s t || match t with [] => false | _ :: t' => infix s t' end.

Lemma is_prefix_spec s t : is_prefix s t = true <-> exists r, t = s ++ r.
Proof.
  revert t; induction s as [|a s IH]; intros t.
  - split; [exists t; reflexivity|reflexivity].
  - destruct t as [|b t]; cbn.
    + split; [discriminate|intros [r E]; discriminate].
    + rewrite andb_true_iff, N.eqb_eq, IH. split.
      * intros [-> [r ->]]. exists r; reflexivity.
      * intros [r E]. injection E as -> ->. eauto.
Qed.

Lemma infix_spec s t : infix s t = true <-> exists x y, t = x ++ s ++ y.
Proof.
  induction t as [|c t IH]; cbn [infix]; rewrite orb_true_iff, is_prefix_spec.
  - split.
    + intros [[r E]|]; [|discriminate]. exists [], r. exact E.
    + intros (x & y & E). left. symmetry in E. apply app_eq_nil in E as [_ E]. exists y. auto.
  - rewrite IH. split.
    + intros [[r E]|(x & y & E)]; [exists [], r; exact E|exists (c :: x), y; cbn; congruence].
    + intros ([|d x] & y & E); [left; eauto|right]. injection E as -> E. eauto.
Qed.

Lemma infix_drop_left (P : N -> bool) a w s : s <> [] ->
  forallb P a = true -> forallb (fun c => negb (P c)) s = true ->
  (exists x y, a ++ w = x ++ s ++ y) -> exists x y, w = x ++ s ++ y.
Proof.
  intros Hne Ha Hs. revert Ha. induction a as [|c a IH]; intros Ha (x & y & E).
  - eauto.
  - cbn in Ha. apply andb_prop in Ha as [Hc Ha]. destruct x as [|d x].
    + destruct s as [|d s]; [congruence|]. cbn in E, Hs. injection E as <- _.
      rewrite Hc in Hs. discriminate.
    + injection E as _ E. apply IH; eauto.
Qed.

Lemma infix_drop_right (P : N -> bool) b w s : s <> [] ->
  forallb P b = true -> forallb (fun c => negb (P c)) s = true ->
  (exists x y, w ++ b = x ++ s ++ y) -> exists x y, w = x ++ s ++ y.
Proof.
  intros Hne Hb Hs (x & y & E).
  destruct (infix_drop_left P (rev b) (rev w) (rev s)) as (x' & y' & E').
  - intros Hn. apply Hne. rewrite <- (rev_involutive s), Hn. reflexivity.
  - rewrite forallb_forall in *. intros c Hc. apply Hb. apply in_rev, Hc.
  - rewrite forallb_forall in *. intros c Hc. apply Hs. apply in_rev, Hc.
  - exists (rev y), (rev x). rewrite <- rev_app_distr, E, !rev_app_distr, <- app_assoc. reflexivity.
  - exists (rev y'), (rev x'). rewrite <- (rev_involutive w), E', !rev_app_distr, <- app_assoc, (rev_involutive s). reflexivity.
Qed.

Lemma laid_out_piece gap ps t s : laid_out gap ps t -> In s ps -> exists x y, t = x ++ s ++ y.
Proof.
  induction 1 as [t Hg|p g ps t Hg HL IH]; intros Hi; [destruct Hi|].
  destruct Hi as [->|Hi].
  - exists [], (g ++ t). reflexivity.
  - destruct (IH Hi) as (x & y & ->). exists (p ++ g ++ x), y. rewrite <- !app_assoc. reflexivity.
Qed.

Lemma piece_in fs ps f p : piece fs ps f = Some p -> In p ps.
Proof.
  revert ps; induction fs as [|k fs IH]; intros [|q ps] H; try discriminate. cbn [piece] in H.
  destruct k, f; try (right; apply IH; exact H); left; congruence.
Qed.

Definition full_check (e : str * (str * list field)) : bool :=
  let '(fmt, (lang, fs)) := e in
  match fmt_info fmt fs with
  | Some (bs, names) =>
      match month_body fs bs with
      | Some b =>
          match num_lens b, lits b with
          | None, Some l =>
              forallb (fun s => negb (Nat.eqb (length s) 0) && forallb (fun c => negb (plain c)) s &&
                 forallb (fun k => forallb (fun n => negb (infix (lower s) n) ||
                    match month_index names (lower (norm s)) 0 with
                    | Some i => Nat.eqb i k | None => false end) (nth (k - 1) (lang_months lang) []))
                 (seq 1 12)) l
          | _, _ => false
          end
      | None => false
      end
  | None => false
  end.

Lemma full_checks : forallb full_check full_name_formats = true.
Proof. vm_compute. reflexivity. Qed.

Lemma full_in_name fmt e : In (fmt, e) full_name_formats -> In (fmt, e) name_date_formats.
Proof. unfold full_name_formats. rewrite filter_In. tauto. Qed.

Lemma full_name_run ev fmt lang fs text a w b n m out errs :
  In (fmt, (lang, fs)) full_name_formats ->
  strip text = a ++ w ++ b -> forallb plain a = true -> forallb plain b = true ->
  1 <= m <= 12 -> names_of lang m n -> lower w = n ->
  parse_date_fact_value ev text fmt = Ok (out, errs) ->
  errs = NOMATCH \/ exists y d, outcome y (Some m) d = Ok (out, errs).
Proof.
  intros H Et Ha Hb Hm Hn Hw Hp.
  pose proof full_checks as Hc. rewrite forallb_forall in Hc. apply Hc in H. clear Hc.
  unfold full_check in H. destruct (fmt_info fmt fs) as [[bs names]|] eqn:Hi; [|discriminate].
  destruct (month_body fs bs) as [bd|] eqn:Eb; [|discriminate].
  destruct (num_lens bd) eqn:En; [discriminate|]. destruct (lits bd) as [l|] eqn:El; [|discriminate].
  destruct (fmt_info_orders _ _ _ _ Hi) as (Hor & Hlb & Hbf & _).
  destruct (run_format ev fmt fs bs names text Hi) as [E|(gs & Hlen & HF & HL & E)].
  - left. rewrite E in Hp. congruence.
  - right. destruct (piece fs gs FMonth) as [s|] eqn:Ep; [|exfalso; eapply orders_month; eauto].
    pose proof (month_body_fits fs bs gs bd s Eb HF Ep) as Hfit. unfold fits in Hfit. rewrite En, El in Hfit.
    rewrite forallb_forall in H. specialize (H s Hfit).
    apply andb_prop in H as [H H3]. apply andb_prop in H as [H1 H2].
    assert (Hne : s <> []) by (intros ->; discriminate).
    pose proof (laid_out_piece _ _ _ s HL (piece_in _ _ _ _ Ep)) as Hin. rewrite Et in Hin.
    apply (infix_drop_left plain) in Hin; try assumption.
    apply (infix_drop_right plain) in Hin; try assumption.
    destruct Hin as (x & y & Hin).
    assert (Hinf : infix (lower s) n = true).
    { apply infix_spec. exists (lower x), (lower y). rewrite <- Hw, Hin. unfold lower. rewrite !map_app. reflexivity. }
    rewrite forallb_forall in H3. specialize (H3 m ltac:(apply in_seq; lia)).
    apply names_of_lang in Hn as [_ Hn].
    rewrite forallb_forall in H3. specialize (H3 n Hn). rewrite Hinf in H3. cbn [negb orb] in H3.
    rewrite Hp in E. unfold month_of in E. rewrite Ep in E.
    destruct (month_index names (lower (norm s)) 0) as [i|]; [|discriminate].
    apply Nat.eqb_eq in H3. subst i. eauto.
Qed.

Local Transparent date_format_to_regex country_to_month_names irregular_date_order_dict month_names.
