(** Matching the date patterns. *)
From Verif Require Import Base Regex RegexProofs Registry PyNum NumModel NumSpec NumProofs
  NumMatchProofs DateModel DateSpec DateProofs.
Local Open Scope nat_scope.

(** ** Analysis of patterns made of groups and gaps *)

Fixpoint lits (r : re) : option (list str) :=
  match r with
  | RLit p => Some [p]
  | RAlt a b => match lits a, lits b with Some x, Some y => Some (x ++ y) | _, _ => None end
  | _ => None
  end.

Definition num_item (i : citem) : bool :=
  match i with
  | CRange lo hi => existsb (fun z => (z <=? lo) && (hi <=? z + 9))%N digit_blocks
  | CSpace => false
  end.
Fixpoint num_lens (r : re) : option (list nat) :=
  match r with
  | RRep (CSet false items) lo (Some hi) =>
      if forallb num_item items then Some (seq lo (S hi - lo)) else None
  | RAlt a b => match num_lens a, num_lens b with Some x, Some y => Some (x ++ y) | _, _ => None end
  | _ => None
  end.

Lemma num_item_sound i c : num_item i = true -> citem_mem c i = true -> is_num_char c = true.
Proof.
  destruct i as [lo hi|]; [|discriminate]. cbn [num_item citem_mem]. intros H Hc.
  apply existsb_exists in H as (z & Hz & H). apply andb_prop in H as [H1 H2]. apply andb_prop in Hc as [H3 H4].
  unfold is_num_char, digit_value.
  destruct (find _ digit_blocks) eqn:E; [reflexivity|].
  exfalso. apply (find_none _ _ E) in Hz. apply andb_false_iff in Hz.
  rewrite N.leb_le in *. rewrite !N.leb_gt in Hz. lia.
Qed.

Lemma num_lens_sound r : forall ls s c s' c', num_lens r = Some ls -> MT r s c s' c' ->
  c' = c /\ exists p, s = p ++ s' /\ num ls p.
Proof.
  induction r as [| |p|cs|cs lo hi|r IH|r1 IH1 r2 IH2|r1 IH1 r2 IH2|n r IH]; intros ls s c s' c' Hl HM;
    cbn [num_lens] in Hl; try discriminate.
  - destruct cs as [[|] items]; [discriminate|]. destruct hi as [hi|]; [|discriminate].
    destruct (forallb num_item items) eqn:E; [|discriminate].
    assert (ls = seq lo (S hi - lo)) as -> by congruence.
    destruct HM as (p & -> & Hp & Hlo & Hhi & ->). split; [reflexivity|]. exists p.
    split; [reflexivity|]. split.
    + rewrite forallb_forall in *. intros x Hx. apply Hp in Hx. cbn [cset_mem] in Hx.
      rewrite xorb_false_l in Hx.
      apply existsb_exists in Hx as (i & Hi & Hx). apply (num_item_sound i); auto.
    + cbn in Hhi. apply in_seq. lia.
  - destruct (num_lens r1) as [x|] eqn:E1; [|discriminate]. destruct (num_lens r2) as [y|] eqn:E2; [|discriminate].
    injection Hl as <-. destruct HM as [HM|HM].
    + destruct (IH1 _ _ _ _ _ eq_refl HM) as (-> & p & -> & Hp & Hi). split; [reflexivity|].
      exists p. split; [reflexivity|split; [exact Hp|apply in_or_app; auto]].
    + destruct (IH2 _ _ _ _ _ eq_refl HM) as (-> & p & -> & Hp & Hi). split; [reflexivity|].
      exists p. split; [reflexivity|split; [exact Hp|apply in_or_app; auto]].
Qed.

Lemma lits_sound r : forall ls s c s' c', lits r = Some ls -> MT r s c s' c' ->
  c' = c /\ exists p, s = p ++ s' /\ In p ls.
Proof.
  induction r as [| |p|cs|cs lo hi|r IH|r1 IH1 r2 IH2|r1 IH1 r2 IH2|n r IH]; intros ls s c s' c' Hl HM;
    cbn [lits] in Hl; try discriminate.
  - injection Hl as <-. destruct HM as [-> ->]. split; [reflexivity|]. exists p. split; [reflexivity|left; reflexivity].
  - destruct (lits r1) as [x|] eqn:E1; [|discriminate]. destruct (lits r2) as [y|] eqn:E2; [|discriminate].
    injection Hl as <-. destruct HM as [HM|HM].
    + destruct (IH1 _ _ _ _ _ eq_refl HM) as (-> & p & -> & Hi). split; [reflexivity|].
      exists p. split; [reflexivity|apply in_or_app; auto].
    + destruct (IH2 _ _ _ _ _ eq_refl HM) as (-> & p & -> & Hi). split; [reflexivity|].
      exists p. split; [reflexivity|apply in_or_app; auto].
Qed.

(** A gap never contains an ASCII digit. *)
Definition gap_item (i : citem) : bool :=
  match i with CRange lo hi => ((hi <? 48) || (57 <? lo))%N | CSpace => true end.
Definition gap_set (cs : cset) : bool :=
  match cs with
  | CSet true items => existsb (fun i => match i with CRange 48 57 => true | _ => false end) items
  | CSet false items => forallb gap_item items
  end.
Definition gap_ok (r : re) : bool :=
  match r with
  | REps | REnd => true
  | RLit p => forallb (fun c => negb (is_digit c)) p
  | RRep cs _ _ => gap_set cs
  | _ => false
  end.

Lemma gap_set_sound cs c : gap_set cs = true -> cset_mem cs c = true -> is_digit c = false.
Proof.
  destruct cs as [[|] items]; cbn [gap_set cset_mem]; intros H Hc.
  - apply existsb_exists in H as (i & Hi & H). rewrite xorb_true_l in Hc. apply negb_true_iff in Hc.
    destruct (is_digit c) eqn:E; [|reflexivity]. exfalso.
    assert (Hx : existsb (citem_mem c) items = true); [|congruence].
    apply existsb_exists. exists i. split; [exact Hi|].
    destruct i as [lo hi|]; [|discriminate]. cbn.
    assert (lo = 48%N /\ hi = 57%N) as [-> ->]; [|exact E].
    clear -H. repeat (match goal with H : context [match ?x with _ => _ end] |- _ => destruct x end; try discriminate). auto.
  - rewrite xorb_false_l in Hc. apply existsb_exists in Hc as (i & Hi & Hc).
    rewrite forallb_forall in H. apply H in Hi. destruct i as [lo hi|]; cbn in *.
    + apply andb_prop in Hc as [H1 H2]. apply N.leb_le in H1, H2. apply orb_prop in Hi.
      rewrite !N.ltb_lt in Hi. unfold is_digit. apply andb_false_iff. rewrite !N.leb_gt. lia.
    + destruct (is_digit c) eqn:E; [|reflexivity]. apply digit_not_space in E. congruence.
Qed.

Lemma gap_ok_sound r s c s' c' : gap_ok r = true -> MT r s c s' c' ->
  c' = c /\ exists p, s = p ++ s' /\ no_ascii_digit p.
Proof.
  destruct r as [| |p|cs|cs lo hi|r|r1 r2|r1 r2|n r]; cbn [gap_ok]; try discriminate; intros H HM.
  - destruct HM as [-> ->]. split; [reflexivity|]. exists []. split; reflexivity.
  - destruct HM as (_ & -> & ->). split; [reflexivity|]. exists []. split; reflexivity.
  - destruct HM as [-> ->]. split; [reflexivity|]. exists p. split; [reflexivity|exact H].
  - destruct HM as (p & -> & Hp & _ & _ & ->). split; [reflexivity|]. exists p. split; [reflexivity|].
    unfold no_ascii_digit. rewrite forallb_forall in *. intros x Hx. apply Hp in Hx.
    rewrite (gap_set_sound cs x H Hx). reflexivity.
Qed.

(** Bodies of the groups of a pattern, when the pattern is a sequence of groups numbered from
    [i] and gaps. *)
Definition body_ok (b : re) : bool :=
  match num_lens b, lits b with None, None => false | _, _ => true end.
Fixpoint shape (l : list re) (i : nat) : option (list re) :=
  match l with
  | [] => Some []
  | RGrp n b :: l' =>
      if Nat.eqb n i && body_ok b then option_map (cons b) (shape l' (S i)) else None
  | r :: l' => if gap_ok r then shape l' i else None
  end.
Fixpoint ends_with_end (l : list re) : bool :=
  match l with
  | [] => false
  | [r] => match r with REnd => true | _ => false end
  | _ :: l' => ends_with_end l'
  end.
Definition fits (b : re) (p : str) : Prop :=
  match num_lens b with
  | Some ls => num ls p
  | None => match lits b with Some l => In p l | None => False end
  end.

Fixpoint number (i : nat) (gs : list str) : caps :=
  match gs with [] => [] | g :: gs' => (i, g) :: number (S i) gs' end.

Lemma no_ascii_digit_app a b : no_ascii_digit a -> no_ascii_digit b -> no_ascii_digit (a ++ b).
Proof. unfold no_ascii_digit. intros Ha Hb. rewrite forallb_app, Ha, Hb. reflexivity. Qed.

Lemma body_ok_sound b s c s' c' : body_ok b = true -> MT b s c s' c' ->
  c' = c /\ exists p, s = p ++ s' /\ fits b p.
Proof.
  unfold body_ok, fits. intros H HM. destruct (num_lens b) as [ls|] eqn:E1.
  - eapply num_lens_sound; eauto.
  - destruct (lits b) as [l|] eqn:E2; [|discriminate]. eapply lits_sound; eauto.
Qed.

Lemma shape_sound l : forall i bs s c s' c',
  shape l i = Some bs -> MT (rseq l) s c s' c' ->
  exists gs g t, s = g ++ t ++ s' /\ no_ascii_digit g /\
    c' = rev (number i gs) ++ c /\ Forall2 fits bs gs /\ laid_out no_ascii_digit gs t.
Proof.
  induction l as [|r l IH]; intros i bs s c s' c' Hs HM.
  - cbn in Hs, HM. injection Hs as <-. destruct HM as [-> ->].
    exists [], [], []. split; [reflexivity|]. split; [reflexivity|]. split; [reflexivity|].
    split; [constructor|]. constructor. reflexivity.
  - destruct HM as (s1 & c1 & H1 & H2). fold (rseq l) in H2.
    assert (Hgap : gap_ok r = true -> shape l i = Some bs ->
      exists gs g t, s = g ++ t ++ s' /\ no_ascii_digit g /\
        c' = rev (number i gs) ++ c /\ Forall2 fits bs gs /\ laid_out no_ascii_digit gs t).
    { intros Hg Hs'. destruct (gap_ok_sound _ _ _ _ _ Hg H1) as (-> & p & -> & Hp).
      destruct (IH _ _ _ _ _ _ Hs' H2) as (gs & g & t & -> & Hg' & Hc & HF & HL).
      exists gs, (p ++ g), t. rewrite <- app_assoc. repeat (split; auto). apply no_ascii_digit_app; assumption. }
    assert (Hcase : (exists n b, r = RGrp n b) \/ (gap_ok r = true /\ shape l i = Some bs)).
    { destruct r; cbn [shape] in Hs; try (right; destruct (gap_ok _); [auto|discriminate]). left; eauto. }
    destruct Hcase as [(n & b & ->)|[Hg Hs']]; [|auto]. clear Hgap.
    cbn [shape] in Hs. destruct (Nat.eqb n i && body_ok b) eqn:E; [|discriminate].
    apply andb_prop in E as [En Eb]. apply Nat.eqb_eq in En. subst n.
    destruct (shape l (S i)) as [bs'|] eqn:Es; [|discriminate]. injection Hs as <-.
    destruct H1 as (c2 & p & H1 & -> & ->).
    destruct (body_ok_sound _ _ _ _ _ Eb H1) as (-> & p' & E & Hf).
    apply app_inv_tail in E. subst p'.
    destruct (IH _ _ _ _ _ _ Es H2) as (gs & g & t & -> & Hg & -> & HF & HL).
    exists (p :: gs), [], (p ++ g ++ t).
    split; [cbn; rewrite <- !app_assoc; reflexivity|]. split; [reflexivity|].
    split; [cbn [number rev]; rewrite <- app_assoc; reflexivity|].
    split; [constructor; assumption|]. constructor; assumption.
Qed.

Lemma ends_with_end_sound l : forall s c s' c',
  ends_with_end l = true -> MT (rseq l) s c s' c' -> at_end s' = true.
Proof.
  induction l as [|r [|r2 l] IH]; intros s c s' c' H HM; [discriminate| |].
  - cbn in H. destruct r; try discriminate.
    destruct HM as (s1 & c1 & (He & -> & ->) & -> & ->). exact He.
  - destruct HM as (s1 & c1 & _ & H2). eapply IH; [exact H|exact H2].
Qed.

Lemma strip_at_end text a s' : strip text = a ++ s' -> at_end s' = true -> s' = [].
Proof.
  intros E He. apply at_end_cases in He as [->| ->]; [reflexivity|].
  apply strip_no_trailing in E. discriminate.
Qed.

(** Captures of a match of a pattern beginning with a group. *)
Lemma pattern_captures b0 l bs text c :
  shape l 2 = Some bs -> body_ok b0 = true -> ends_with_end l = true ->
  re_match (rseq (REps :: RGrp 1 b0 :: l)) (strip text) = Some c ->
  exists gs, c = rev (number 1 gs) /\ Forall2 fits (b0 :: bs) gs /\
    laid_out no_ascii_digit gs (strip text).
Proof.
  intros Hs Hb He Hm. apply re_match_sound in Hm as (s' & HM).
  destruct HM as (s1 & c1 & [-> ->] & HM). fold (rseq (RGrp 1 b0 :: l)) in HM.
  destruct HM as (s2 & c2 & H1 & H2). fold (rseq l) in H2.
  pose proof (ends_with_end_sound _ _ _ _ _ He H2) as Hend.
  destruct H1 as (c3 & p & H1 & Es & ->).
  destruct (body_ok_sound _ _ _ _ _ Hb H1) as (-> & p' & E & Hf).
  rewrite Es in E. apply app_inv_tail in E. subst p'.
  destruct (shape_sound _ _ _ _ _ _ _ Hs H2) as (gs & g & t & E2 & Hg & -> & HF & HL).
  exists (p :: gs). split; [cbn; rewrite app_nil_r || idtac; reflexivity|].
  split; [constructor; assumption|].
  rewrite E2 in Es. rewrite !app_assoc in Es.
  pose proof (strip_at_end _ _ _ Es Hend) as ->. rewrite Es, app_nil_r, <- app_assoc.
  constructor; assumption.
Qed.

(** ** Running a format whose pattern is a sequence of groups and gaps *)

Fixpoint unseq (r : re) : option (list re) :=
  match r with
  | REps => Some []
  | RSeq a b => option_map (cons a) (unseq b)
  | _ => None
  end.
Lemma unseq_sound r : forall l, unseq r = Some l -> r = rseq l.
Proof.
  induction r; cbn; intros l H; try discriminate.
  - injection H as <-. reflexivity.
  - destruct (unseq r2) as [l2|]; [|discriminate]. injection H as <-. cbn. f_equal. apply IHr2. reflexivity.
Qed.

Definition fpart (f : field) : part := match f with FDay => Day | FMonth => Month | FYear => Year end.
Definition field_eqb (a b : field) : bool :=
  match a, b with FDay, FDay | FMonth, FMonth | FYear, FYear => true | _, _ => false end.

Definition orders : list (list field) := [
  [FDay; FMonth]; [FMonth; FDay]; [FDay; FMonth; FYear]; [FMonth; FDay; FYear]; [FYear; FMonth; FDay];
  [FYear; FMonth]; [FMonth; FYear]; [FYear; FDay; FMonth]].

Definition is_full_format (fmt : str) := contains (u "day") fmt && contains (u "year") fmt.
Definition is_recurring_format (fmt : str) := contains (u "day") fmt && negb (contains (u "year") fmt).

Definition has_field (f : field) (fs : list field) : bool := existsb (field_eqb f) fs.

Definition body_fits_field (fb : field * re) : bool :=
  let '(f, b) := fb in
  match f with
  | FMonth => true
  | _ => match num_lens b with
         | Some ls => forallb (fun n => existsb (Nat.eqb n) (lens_of f)) ls
         | None => false
         end
  end.

(** The bodies of the groups of a format and the table of month names it uses, when the format
    has the expected form with the fields [fs]. *)
Definition fmt_info (fmt : str) (fs : list field) : option (list re * list (list str)) :=
  match dict_get str_eqb date_format_to_regex fmt with
  | Some (r, n) =>
      match unseq r with
      | Some (REps :: RGrp 1 b0 :: l) =>
          match shape l 2 with
          | Some bs =>
              match country_of fmt with
              | Ok country =>
                  match dict_get (opt_eqb str_eqb) country_to_month_names country with
                  | Some names =>
                      if body_ok b0 && ends_with_end l && Nat.eqb n (length fs)
                         && Nat.eqb (length (b0 :: bs)) (length fs)
                         && forallb body_fits_field (combine fs (b0 :: bs))
                         && list_eqb part_eqb (date_order fmt (is_recurring_format fmt) (is_full_format fmt)) (map fpart fs)
                         && existsb (list_eqb field_eqb fs) orders
                         && Bool.eqb (is_recurring_format fmt) (negb (has_field FYear fs))
                         && Bool.eqb (is_full_format fmt) (has_field FYear fs && has_field FDay fs)
                         && negb (contains (u "jpn") fmt) && negb (str_eqb fmt indian_format)
                         && Nat.leb (length names) 12
                      then Some (b0 :: bs, names) else None
                  | None => None
                  end
              | Raise _ => None
              end
          | None => None
          end
      | _ => None
      end
  | None => None
  end.

Lemma part_eqb_spec a b : reflect (a = b) (part_eqb a b).
Proof. destruct a, b; cbn; constructor; congruence. Qed.
Lemma field_eqb_spec a b : reflect (a = b) (field_eqb a b).
Proof. destruct a, b; cbn; constructor; congruence. Qed.

Lemma list_eqb_true {A} (eqb : A -> A -> bool) (H : forall x y, reflect (x = y) (eqb x y)) a b :
  list_eqb eqb a b = true -> a = b.
Proof. intros E. destruct (list_eqb_spec eqb H a b); [assumption|discriminate]. Qed.

Lemma Forall2_length {A B} (R : A -> B -> Prop) l l' : Forall2 R l l' -> length l = length l'.
Proof. induction 1; cbn; congruence. Qed.

Lemma read_groups_orders fs gs : In fs orders -> length gs = length fs ->
  read_groups (map fpart fs) 1 (rev (number 1 gs)) (length fs) [] =
  Ok (combine (map fpart fs) (map Some gs)).
Proof.
  intros H Hl. cbn [In orders] in H.
  repeat destruct H as [<-|H]; try contradiction;
    (destruct gs as [|a [|b [|c [|d gs]]]]; try discriminate Hl; reflexivity).
Qed.

Lemma normalize_parts_combine (ks : list part) : forall gs, length gs = length ks ->
  normalize_parts (combine ks (map Some gs)) = Ok (combine ks (map norm gs)).
Proof.
  induction ks as [|k ks IH]; intros [|g gs] Hl; try discriminate; [reflexivity|].
  cbn. rewrite IH by (cbn in Hl; lia). reflexivity.
Qed.

Lemma get_combine fs f : forall gs, length gs = length fs ->
  dict_get part_eqb (combine (map fpart fs) (map norm gs)) (fpart f) = option_map norm (piece fs gs f).
Proof.
  induction fs as [|g fs IH]; intros [|p gs] Hl; try discriminate; [reflexivity|].
  cbn [map combine dict_get piece]. cbn in Hl. specialize (IH gs ltac:(lia)).
  destruct g, f; cbn [fpart part_eqb]; try exact IH; reflexivity.
Qed.

Lemma month_index_range names s : forall i k, month_index names s i = Some k -> i < k <= i + length names.
Proof.
  induction names as [|n names IH]; intros i k H; [discriminate|]. cbn [month_index length] in *.
  destruct (existsb _ n); [injection H as <-; lia|]. apply IH in H. lia.
Qed.

Lemma piece_fits fs bs gs f p :
  Forall2 fits bs gs -> length gs = length fs -> piece fs gs f = Some p ->
  exists b, In (f, b) (combine fs bs) /\ fits b p.
Proof.
  intros HF. revert fs. induction HF as [|b g bs gs Hb HF IH]; intros [|k fs] Hl Hp; try discriminate.
  cbn in Hl. cbn [piece] in Hp. cbn [combine In].
  assert (Hr : piece fs gs f = Some p -> exists b0, ((k, b) = (f, b0) \/ In (f, b0) (combine fs bs)) /\ fits b0 p).
  { intros E. destruct (IH fs ltac:(lia) E) as (b' & Hi & Hf). exists b'. auto. }
  destruct k, f; try (apply Hr; exact Hp); injection Hp as ->; exists b; auto.
Qed.

Lemma num_sub ls lens p : num ls p -> forallb (fun n => existsb (Nat.eqb n) lens) ls = true -> num lens p.
Proof.
  intros [H Hi] Hs. split; [exact H|]. rewrite forallb_forall in Hs. apply Hs in Hi.
  apply existsb_exists in Hi as (m & Hm & E). apply Nat.eqb_eq in E. congruence.
Qed.

Lemma num_norm lens p : num lens p -> ascii_num lens (norm p).
Proof. intros [H Hl]. destruct (norm_num p H) as (Ha & _ & E). split; [exact Ha|]. rewrite E; exact Hl. Qed.

Lemma fields_num fs bs gs f p :
  Forall2 fits bs gs -> length gs = length fs -> forallb body_fits_field (combine fs bs) = true ->
  f <> FMonth -> piece fs gs f = Some p -> num (lens_of f) p.
Proof.
  intros HF Hl Hb Hf Hp. destruct (piece_fits _ _ _ _ _ HF Hl Hp) as (b & Hi & Hfit).
  rewrite forallb_forall in Hb. apply Hb in Hi. cbn [body_fits_field] in Hi. unfold fits in Hfit.
  destruct f; try congruence; (destruct (num_lens b) as [ls|]; [|discriminate]); eapply num_sub; eauto.
Qed.

Lemma piece_has fs gs f : length gs = length fs ->
  has_field f fs = match piece fs gs f with Some _ => true | None => false end.
Proof.
  revert gs; induction fs as [|k fs IH]; intros [|g gs] Hl; try discriminate; [reflexivity|].
  cbn [has_field existsb piece]. specialize (IH gs ltac:(cbn in Hl; lia)).
  destruct k, f; cbn [field_eqb orb]; try exact IH; reflexivity.
Qed.

Lemma year_val_meant p : num [1; 2; 4] p -> year_val (norm p) = year_meant p.
Proof.
  intros [H Hl]. destruct (norm_num p H) as (_ & Ev & El). unfold year_val, year_meant.
  rewrite El, Ev. reflexivity.
Qed.

(** The value of the month piece. *)
Definition month_of (names : list (list str)) (fs : list field) (gs : list str) : option nat :=
  match piece fs gs FMonth with
  | Some m => month_index names (lower (norm m)) 0
  | None => None
  end.

Lemma orders_month fs gs : In fs orders -> length gs = length fs -> piece fs gs FMonth <> None.
Proof.
  intros H Hl. cbn [In orders] in H.
  repeat destruct H as [<-|H]; try contradiction;
    (destruct gs as [|a [|b [|c [|d gs]]]]; try discriminate Hl; discriminate).
Qed.
Lemma orders_day_or_year fs gs : In fs orders -> length gs = length fs ->
  piece fs gs FYear = None -> piece fs gs FDay <> None.
Proof.
  intros H Hl. cbn [In orders] in H.
  repeat destruct H as [<-|H]; try contradiction;
    (destruct gs as [|a [|b [|c [|d gs]]]]; try discriminate Hl; discriminate).
Qed.

Definition NOMATCH : log := ["DATE_DOES_NOT_MATCH_EXPECTED_FORMAT"%string].

Local Opaque date_format_to_regex country_to_month_names irregular_date_order_dict.

Lemma run_captures ev fmt fs bs names r n text gs :
  dict_get str_eqb date_format_to_regex fmt = Some (r, n) ->
  fmt_info fmt fs = Some (bs, names) ->
  re_match r (strip text) = Some (rev (number 1 gs)) -> Forall2 fits bs gs ->
  parse_date_fact_value ev text fmt = outcome (year_num fs gs) (month_of names fs gs) (day_num fs gs).
Proof.
  intros Hr Hi Hm HF. unfold fmt_info in Hi. rewrite Hr in Hi.
  destruct (unseq r) as [[|[| | | | | | | |] [|[| | | | | | | |[|[|n1]] b0] l]]|] eqn:Eu; try discriminate.
  destruct (shape l 2) as [bs'|] eqn:Es; [|discriminate].
  destruct (country_of fmt) as [country|] eqn:Ec; [|discriminate].
  destruct (dict_get (opt_eqb str_eqb) country_to_month_names country) as [names'|] eqn:En; [|discriminate].
  match type of Hi with (if ?b then _ else _) = _ => destruct b eqn:E; [|discriminate] end.
  injection Hi as <- <-.
  repeat (apply andb_prop in E as [E ?]).
  repeat match goal with
  | H : Nat.eqb _ _ = true |- _ => apply Nat.eqb_eq in H
  | H : negb _ = true |- _ => apply negb_true_iff in H
  | H : Bool.eqb _ _ = true |- _ => apply eqb_prop in H
  | H : Nat.leb _ _ = true |- _ => apply Nat.leb_le in H
  end.
  match goal with H : list_eqb part_eqb _ _ = true |- _ =>
    apply (list_eqb_true part_eqb part_eqb_spec) in H; rename H into Ho end.
  match goal with H : existsb (list_eqb field_eqb fs) orders = true |- _ =>
    apply existsb_exists in H as (o & Hio & Heo) end.
  apply (list_eqb_true field_eqb field_eqb_spec) in Heo. subst o.
  assert (Hlen : length gs = length fs).
  { apply Forall2_length in HF. congruence. }
  unfold parse_date_fact_value, match_regex_date_fact_value. rewrite Hr, Hm.
  fold (is_full_format fmt) (is_recurring_format fmt). rewrite Ho. subst n.
  rewrite read_groups_orders by assumption. cbn [bind].
  rewrite normalize_date_parts_eq, normalize_parts_combine by (rewrite map_length; assumption).
  cbn [bind].
  match goal with H : contains (u "jpn") fmt = false |- _ => rewrite H end. cbn [bind].
  pose proof (fun f => get_combine fs f gs Hlen) as Hget.
  pose proof (Hget FDay) as Hgd. pose proof (Hget FMonth) as Hgm. pose proof (Hget FYear) as Hgy.
  cbn [fpart] in Hgd, Hgm, Hgy.
  destruct (piece fs gs FMonth) as [m|] eqn:Em; [|exfalso; eapply orders_month; eauto].
  assert (Hnum : forall f p, f <> FMonth -> piece fs gs f = Some p -> num (lens_of f) p)
    by (intros; eapply fields_num; eauto).
  rewrite (norm_tail_eq _ fmt country names' (norm m)); try assumption.
  2: { rewrite Hgd. destruct (piece fs gs FDay) as [d|] eqn:Ed; [|exact I].
       apply num_norm. apply (Hnum FDay); [discriminate|exact Ed]. }
  2: { rewrite Hgy. destruct (piece fs gs FYear) as [y|] eqn:Ey; [|exact I].
       apply num_norm. apply (Hnum FYear); [discriminate|exact Ey]. }
  cbn [bind]. rewrite Hgd, Hgy.
  unfold month_of, year_num, day_num. rewrite Em.
  match goal with |- (do! errs <- validate_date_fact_value ev ?ps ?rec ?full ; _) = _ =>
    change (finish ev ps rec full = outcome (option_map year_meant (piece fs gs FYear))
       (month_index names' (lower (norm m)) 0) (option_map num_val (piece fs gs FDay))) end.
  assert (Ed : option_map (fun d => (Day, two (digits_val d))) (option_map norm (piece fs gs FDay)) =
               option_map (fun d => (Day, two d)) (option_map num_val (piece fs gs FDay))).
  { destruct (piece fs gs FDay) as [d|] eqn:Ed; [|reflexivity]. cbn.
    destruct (Hnum FDay d ltac:(discriminate) Ed) as [Hd _].
    destruct (norm_num d Hd) as (_ & -> & _). reflexivity. }
  assert (Ey : option_map (fun y => (Year, four (year_val y))) (option_map norm (piece fs gs FYear)) =
               option_map (fun y => (Year, four y)) (option_map year_meant (piece fs gs FYear))).
  { destruct (piece fs gs FYear) as [y|] eqn:Ey; [|reflexivity]. cbn.
    rewrite (year_val_meant y) by (apply (Hnum FYear); [discriminate|exact Ey]). reflexivity. }
  rewrite Ed, Ey. apply finish_eq.
  - match goal with H : is_recurring_format fmt = _ |- _ => rewrite H end.
    rewrite (piece_has fs gs) by exact Hlen. destruct (piece fs gs FYear); reflexivity.
  - match goal with H : is_full_format fmt = _ |- _ => rewrite H end.
    rewrite !(piece_has fs gs) by exact Hlen.
    destruct (piece fs gs FYear); destruct (piece fs gs FDay); reflexivity.
  - intros Hy. destruct (piece fs gs FDay) eqn:E1; [discriminate|].
    exfalso. eapply orders_day_or_year; eauto. destruct (piece fs gs FYear); [discriminate|reflexivity].
  - destruct (piece fs gs FDay) as [d|] eqn:E1; [|exact I]. cbn.
    pose proof (Hnum FDay d ltac:(discriminate) E1) as Hd.
    destruct (norm_num d (proj1 Hd)) as (_ & <- & _). apply (ascii_num_2_val (norm d)).
    apply num_norm. exact Hd.
  - destruct (month_index names' (lower (norm m)) 0) as [k|] eqn:E1; [|exact I].
    apply month_index_range in E1. cbn. lia.
  - destruct (piece fs gs FYear) as [y|] eqn:E1; [|exact I]. cbn.
    pose proof (Hnum FYear y ltac:(discriminate) E1) as Hy.
    rewrite <- (year_val_meant y) by exact Hy. apply year_val_bound. apply num_norm. exact Hy.
Qed.

(** For such a format every text is either rejected (and returned as it is) or read as a date. *)
Lemma run_format ev fmt fs bs names text :
  fmt_info fmt fs = Some (bs, names) ->
  parse_date_fact_value ev text fmt = Ok (strip text, NOMATCH) \/
  exists gs, length gs = length fs /\ Forall2 fits bs gs /\ laid_out no_ascii_digit gs (strip text) /\
    parse_date_fact_value ev text fmt = outcome (year_num fs gs) (month_of names fs gs) (day_num fs gs).
Proof.
  intros Hi. pose proof Hi as Hi'. unfold fmt_info in Hi.
  destruct (dict_get str_eqb date_format_to_regex fmt) as [[r n]|] eqn:Hr; [|discriminate].
  destruct (unseq r) as [[|[| | | | | | | |] [|[| | | | | | | |[|[|n1]] b0] l]]|] eqn:Eu; try discriminate.
  destruct (shape l 2) as [bs'|] eqn:Es; [|discriminate].
  destruct (country_of fmt) as [country|] eqn:Ec; [|discriminate].
  destruct (dict_get (opt_eqb str_eqb) country_to_month_names country) as [names'|] eqn:En; [|discriminate].
  match type of Hi with (if ?b then _ else _) = _ => destruct b eqn:E; [|discriminate] end.
  injection Hi as <- <-. repeat (apply andb_prop in E as [E ?]).
  apply unseq_sound in Eu. subst r.
  destruct (re_match (rseq (REps :: RGrp 1 b0 :: l)) (strip text)) as [c|] eqn:Em.
  - right. destruct (pattern_captures b0 l bs' text c) as (gs & -> & HF & HL); try assumption.
    exists gs. split.
    { apply Forall2_length in HF. match goal with H : Nat.eqb (length (b0 :: bs')) _ = true |- _ => apply Nat.eqb_eq in H end. congruence. }
    split; [exact HF|]. split; [exact HL|]. eapply run_captures; eauto.
  - left. unfold parse_date_fact_value, match_regex_date_fact_value. rewrite Hr, Em. reflexivity.
Qed.

Local Transparent date_format_to_regex country_to_month_names irregular_date_order_dict.
