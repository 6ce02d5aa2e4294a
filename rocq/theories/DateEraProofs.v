(** Japanese imperial dates. *)
From Coq Require Import Btauto.
From Verif Require Import Base Regex RegexProofs Registry PyNum NumModel NumSpec NumProofs
  NumMatchProofs DateModel DateSpec DateProofs DateMatchProofs DateNameProofs DateNumProofs.
Local Open Scope nat_scope.

Definition jdig : cset := CSet false [CRange 48 57; CRange 65296 65305].
Definition jsp : re := RRep (CSet false [CSpace; CRange 32 32]) 0 None.
Definition jnum : re := RRep jdig 1 (Some 2).
Definition jera : re := ralts (map (fun e => RLit (fst e)) eras).
Definition jpat (day : bool) : list re :=
  [REps; RGrp 1 jera; jsp; RGrp 2 (ralts [jnum; RLit (u "元")]); jsp; RLit (u "年"); jsp; RGrp 3 jnum; jsp;
   RLit (u "月")] ++ (if day then [jsp; RGrp 4 jnum; jsp; RLit (u "日")] else []) ++ [REnd].
Definition jfmt (day : bool) : str :=
  if day then u "ixt:date-jpn-era-year-month-day" else u "ixt:date-jpn-era-year-month".

Lemma jpat_table day :
  dict_get str_eqb date_format_to_regex (jfmt day) = Some (rseq (jpat day), if day then 4 else 3).
Proof. destruct day; vm_compute; reflexivity. Qed.

Lemma jdig_mem c : cset_mem jdig c = fullwidth_or_ascii c.
Proof. cbn. unfold fullwidth_or_ascii, ascii_or, is_digit. cbn. btauto. Qed.
Lemma jsp_mem c : cset_mem (CSet false [CSpace; CRange 32 32]) c = is_space c.
Proof.
  cbn. destruct ((32 <=? c) && (c <=? 32))%N eqn:E; [|destruct (is_space c); reflexivity].
  apply andb_prop in E as [E1 E2]. rewrite N.leb_le in *. assert (c = 32%N) as -> by lia. reflexivity.
Qed.

Lemma jsp_MT s c s' c' : MT jsp s c s' c' <-> c' = c /\ exists p, s = p ++ s' /\ spaces p.
Proof.
  unfold jsp, spaces. cbn [MT within]. split.
  - intros (p & -> & Hp & _ & _ & ->). rewrite (forallb_ext' _ _ p jsp_mem) in Hp. eauto.
  - intros (-> & p & -> & Hp). exists p. rewrite (forallb_ext' _ _ p jsp_mem). repeat split; auto. lia.
Qed.
Lemma jnum_MT s c s' c' :
  MT jnum s c s' c' <-> c' = c /\ exists p, s = p ++ s' /\ digits_in fullwidth_or_ascii [1; 2] p.
Proof. apply (nbody_MT jdig fullwidth_or_ascii jdig_mem FDay). Qed.
Lemma jyear_MT s c s' c' :
  MT (ralts [jnum; RLit (u "元")]) s c s' c' <->
  c' = c /\ exists p, s = p ++ s' /\ (p = u "元" \/ digits_in fullwidth_or_ascii [1; 2] p).
Proof.
  cbn [ralts]. change (MT (RAlt jnum (RLit (u "元"))) s c s' c') with
    (MT jnum s c s' c' \/ (s = u "元" ++ s' /\ c' = c)). rewrite jnum_MT. split.
  - intros [(-> & p & -> & H)|[-> ->]]; split; eauto.
  - intros (-> & p & -> & [->|H]); [right|left]; eauto.
Qed.
Lemma lits_MT ps s c s' c' : ps <> [] ->
  (MT (ralts (map RLit ps)) s c s' c' <-> c' = c /\ exists p, s = p ++ s' /\ In p ps).
Proof.
  induction ps as [|p0 [|p1 ps] IH]; intros Hne; [congruence| |].
  - cbn. split; [intros [-> ->]; eauto|intros (-> & p & -> & [<-|[]]); auto].
  - change (map RLit (p0 :: p1 :: ps)) with (RLit p0 :: map RLit (p1 :: ps)).
    change (ralts (RLit p0 :: map RLit (p1 :: ps))) with (RAlt (RLit p0) (ralts (map RLit (p1 :: ps)))).
    change (MT (RAlt (RLit p0) (ralts (map RLit (p1 :: ps)))) s c s' c') with
      ((s = p0 ++ s' /\ c' = c) \/ MT (ralts (map RLit (p1 :: ps))) s c s' c').
    rewrite IH by discriminate. split.
    + intros [[-> ->]|(-> & p & -> & H)]; (split; [reflexivity|]).
      * exists p0. split; [reflexivity|left; reflexivity].
      * exists p. split; [reflexivity|right; exact H].
    + intros (-> & p & -> & [<-|H]); [left; auto|right]. split; [reflexivity|]. exists p. auto.
Qed.
Lemma jera_MT s c s' c' :
  MT jera s c s' c' <-> c' = c /\ exists p, s = p ++ s' /\ exists first, In (p, first) eras.
Proof.
  unfold jera. rewrite <- (map_map fst RLit), lits_MT by discriminate. split; intros (-> & p & H).
  - destruct H as [-> H]. apply in_map_iff in H as ([p' f] & <- & H). eauto.
  - destruct H as (-> & f & H). split; [reflexivity|]. exists p. split; [reflexivity|].
    apply in_map_iff. exists (p, f). auto.
Qed.

Definition jcaps (day : bool) (e y m d : str) : list str := [e; y; m] ++ (if day then [d] else []).

Lemma grp_MT n r s c s' c' (P : str -> Prop) :
  (forall s c s' c', MT r s c s' c' <-> c' = c /\ exists p, s = p ++ s' /\ P p) ->
  (MT (RGrp n r) s c s' c' <-> exists p, c' = (n, p) :: c /\ s = p ++ s' /\ P p).
Proof.
  intros Hr. cbn [MT]. split.
  - intros (c1 & p & Hb & -> & ->). apply Hr in Hb as (-> & q & E & H). apply app_inv_tail in E. subst q. eauto.
  - intros (p & -> & -> & H). exists c, p. rewrite Hr. repeat split. exists p. auto.
Qed.

Lemma jpat_sound day s c s' c' : MT (rseq (jpat day)) s c s' c' ->
  exists t e y m d, era_text day t e y m d /\ s = t ++ s' /\ at_end s' = true /\
    c' = rev (number 1 (jcaps day e y m d)) ++ c.
Proof.
  intros (x0 & k0 & [-> ->] & x1 & k1 & H1 & x2 & k2 & H2 & x3 & k3 & H3 & x4 & k4 & H4 & x5 & k5 & [-> ->] &
          x6 & k6 & H6 & x7 & k7 & H7 & x8 & k8 & H8 & x9 & k9 & [-> ->] & H).
  apply (grp_MT _ _ _ _ _ _ _ jera_MT) in H1 as (e & -> & -> & first & He).
  apply jsp_MT in H2 as (-> & s1 & -> & Hs1).
  apply (grp_MT _ _ _ _ _ _ _ jyear_MT) in H3 as (y & -> & -> & Hy).
  apply jsp_MT in H4 as (-> & s2 & -> & Hs2). apply jsp_MT in H6 as (-> & s3 & -> & Hs3).
  apply (grp_MT _ _ _ _ _ _ _ jnum_MT) in H7 as (m & -> & -> & Hm).
  apply jsp_MT in H8 as (-> & s4 & -> & Hs4).
  destruct day.
  - destruct H as (y1 & j1 & H1 & y2 & j2 & H2 & y3 & j3 & H3 & y4 & j4 & [-> ->] & y5 & j5 & (Hend & -> & ->) & -> & ->).
    apply jsp_MT in H1 as (-> & s5 & -> & Hs5).
    apply (grp_MT _ _ _ _ _ _ _ jnum_MT) in H2 as (d & -> & -> & Hd).
    apply jsp_MT in H3 as (-> & s6 & -> & Hs6).
    exists (e ++ s1 ++ y ++ s2 ++ u "年" ++ s3 ++ m ++ s4 ++ u "月" ++ s5 ++ d ++ s6 ++ u "日"), e, y, m, d.
    split; [|split; [rewrite <- !app_assoc; reflexivity|split; [exact Hend|reflexivity]]].
    exists s1, s2, s3, s4, s5, s6, first. repeat split; auto.
    all: try (apply Hm); try (apply Hd).
  - destruct H as (y5 & j5 & (Hend & -> & ->) & -> & ->).
    exists (e ++ s1 ++ y ++ s2 ++ u "年" ++ s3 ++ m ++ s4 ++ u "月" ++ []), e, y, m, [].
    split; [|split; [rewrite <- !app_assoc; reflexivity|split; [exact Hend|reflexivity]]].
    exists s1, s2, s3, s4, [], [], first. repeat split; auto.
    all: try (apply Hm).
Qed.

Lemma jpat_complete day t e y m d : era_text day t e y m d ->
  MT (rseq (jpat day)) t [] [] (rev (number 1 (jcaps day e y m d))).
Proof.
  intros (s1 & s2 & s3 & s4 & s5 & s6 & first & He & Hs1 & Hs2 & Hs3 & Hs4 & Hs5 & Hs6 & Hy & Hm & Hd & ->).
  assert (HE : forall n x c, MT (RGrp n jera) (e ++ x) c x ((n, e) :: c)).
  { intros. apply (grp_MT _ _ _ _ _ _ _ jera_MT). eauto. }
  assert (HS : forall s x c, spaces s -> MT jsp (s ++ x) c x c) by (intros; apply jsp_MT; eauto).
  assert (HN : forall n s x c, digits_in fullwidth_or_ascii [1; 2] s -> MT (RGrp n jnum) (s ++ x) c x ((n, s) :: c)).
  { intros. apply (grp_MT _ _ _ _ _ _ _ jnum_MT). eauto. }
  assert (HY : forall n x c, MT (RGrp n (ralts [jnum; RLit (u "元")])) (y ++ x) c x ((n, y) :: c)).
  { intros. apply (grp_MT _ _ _ _ _ _ _ jyear_MT). eauto. }
  assert (HL : forall p x c, MT (RLit p) (p ++ x) c x c) by (intros; cbn; auto).
  unfold jpat. cbn [app].
  do 2 eexists. split; [split; reflexivity|].
  do 2 eexists. split; [apply HE|].
  do 2 eexists. split; [apply HS; assumption|].
  do 2 eexists. split; [apply HY|].
  do 2 eexists. split; [apply HS; assumption|].
  do 2 eexists. split; [apply HL|].
  do 2 eexists. split; [apply HS; assumption|].
  do 2 eexists. split; [apply HN; assumption|].
  do 2 eexists. split; [apply HS; assumption|].
  do 2 eexists. split; [apply HL|].
  destruct day; cbn [app].
  - do 2 eexists. split; [apply HS; assumption|].
    do 2 eexists. split; [apply HN; assumption|].
    do 2 eexists. split; [apply HS; assumption|].
    do 2 eexists. split; [rewrite <- (app_nil_r (u "日")); apply HL|].
    do 2 eexists. split; [split; [reflexivity|split; reflexivity]|]. split; reflexivity.
  - do 2 eexists. split; [split; [reflexivity|split; reflexivity]|]. split; reflexivity.
Qed.

(** Cutting at the first character outside a class. *)
Lemma cut (f : N -> bool) a b x y : forallb f a = true -> forallb f b = true ->
  match x with [] => True | c :: _ => f c = false end -> match y with [] => True | c :: _ => f c = false end ->
  a ++ x = b ++ y -> a = b /\ x = y.
Proof. intros. eapply prefix_maximal; eauto. Qed.

Definition jy (c : N) : bool := fullwidth_or_ascii c || N.eqb c 20803.
Definition jx (c : N) : bool := negb (jy c || is_space c).

Lemma space_head (f : N -> bool) s x : spaces s -> (forall c, is_space c = true -> f c = false) ->
  match x with [] => True | c :: _ => f c = false end -> match s ++ x with [] => True | c :: _ => f c = false end.
Proof.
  intros Hs Hf Hx. destruct s as [|c s]; [exact Hx|]. cbn in *. apply andb_prop in Hs as [Hc _]. auto.
Qed.
Lemma jy_not_space c : is_space c = true -> jy c = false.
Proof.
  intros H. destruct (jy c) eqn:E; [|reflexivity]. exfalso. unfold jy, fullwidth_or_ascii, ascii_or, is_digit in E.
  assert (Hc : In c (block10 48 ++ block10 65296 ++ [20803%N])).
  { apply orb_prop in E as [E|E].
    - apply orb_prop in E as [E|E]; apply andb_prop in E as [E1 E2]; rewrite N.leb_le in *.
      + apply in_or_app. left. apply in_block10. lia.
      + apply in_or_app. right. apply in_or_app. left. apply in_block10. lia.
    - apply N.eqb_eq in E. subst c. apply in_or_app. right. apply in_or_app. right. left. reflexivity. }
  assert (Hall : forallb (fun c => negb (is_space c)) (block10 48 ++ block10 65296 ++ [20803%N]) = true)
    by (vm_compute; reflexivity).
  rewrite forallb_forall in Hall. apply Hall in Hc. rewrite H in Hc. discriminate.
Qed.
Lemma fw_jy c : fullwidth_or_ascii c = true -> jy c = true.
Proof. unfold jy. intros ->. reflexivity. Qed.
Lemma year_jy y : y = u "元" \/ digits_in fullwidth_or_ascii [1; 2] y -> forallb jy y = true /\ y <> [].
Proof.
  intros [->|[H Hl]]; [split; [reflexivity|discriminate]|]. split.
  - rewrite forallb_forall in *. intros c Hc. apply fw_jy. auto.
  - destruct y; [cbn in Hl; lia|discriminate].
Qed.
Lemma num_jy y : digits_in fullwidth_or_ascii [1; 2] y -> forallb jy y = true /\ y <> [].
Proof. intros H. apply year_jy. auto. Qed.
Lemma era_jx e f : In (e, f) eras -> forallb jx e = true.
Proof.
  intros H. assert (Hall : forallb (fun p => forallb jx (fst p)) eras = true) by (vm_compute; reflexivity).
  rewrite forallb_forall in Hall. exact (Hall _ H).
Qed.
Lemma jy_head y x : forallb jy y = true -> y <> [] ->
  match y ++ x with [] => True | c :: _ => is_space c = false end.
Proof.
  intros H Hn. destruct y as [|c y]; [congruence|]. cbn in *. apply andb_prop in H as [H _].
  destruct (is_space c) eqn:E; [|reflexivity]. apply jy_not_space in E. congruence.
Qed.
Lemma jx_head s y x : spaces s -> forallb jy y = true -> y <> [] ->
  match s ++ y ++ x with [] => True | c :: _ => jx c = false end.
Proof.
  intros Hs H Hn. apply space_head; [exact Hs| |].
  - intros c Hc. unfold jx. rewrite Hc, orb_true_r. reflexivity.
  - destruct y as [|c y]; [congruence|]. cbn in *. apply andb_prop in H as [H _]. unfold jx. rewrite H. reflexivity.
Qed.

Lemma num_step a b s s' k x x' :
  forallb jy a = true -> forallb jy b = true -> spaces s -> spaces s' -> jy k = false -> is_space k = false ->
  a ++ s ++ k :: x = b ++ s' ++ k :: x' -> a = b /\ x = x'.
Proof.
  intros Ha Hb Hs Hs' Hk Hk' E.
  apply cut with (f := jy) in E as [-> E]; try assumption;
    try (apply space_head; [assumption|apply jy_not_space|exact Hk]).
  apply cut with (f := is_space) in E as [-> E]; try assumption.
  split; [reflexivity|congruence].
Qed.

Lemma era_text_unique day t e y m d e' y' m' d' :
  era_text day t e y m d -> era_text day t e' y' m' d' -> e = e' /\ y = y' /\ m = m' /\ d = d'.
Proof.
  intros (s1 & s2 & s3 & s4 & s5 & s6 & f & He & Hs1 & Hs2 & Hs3 & Hs4 & Hs5 & Hs6 & Hy & Hm & Hd & ->)
         (r1 & r2 & r3 & r4 & r5 & r6 & f' & He' & Hr1 & Hr2 & Hr3 & Hr4 & Hr5 & Hr6 & Hy' & Hm' & Hd' & E).
  apply year_jy in Hy as [Hy Hyn], Hy' as [Hy' Hyn']. apply num_jy in Hm as [Hm Hmn], Hm' as [Hm' Hmn'].
  apply cut with (f := jx) in E as [-> E]; [|eapply era_jx; eassumption|eapply era_jx; eassumption|
    apply jx_head; assumption|apply jx_head; assumption].
  apply cut with (f := is_space) in E as [-> E]; try assumption; [|apply jy_head; assumption|apply jy_head; assumption].
  apply num_step in E as [-> E]; try assumption; try reflexivity.
  apply cut with (f := is_space) in E as [-> E]; try assumption; [|apply jy_head; assumption|apply jy_head; assumption].
  apply num_step in E as [-> E]; try assumption; try reflexivity.
  repeat split. destruct day; [|congruence].
  apply num_jy in Hd as [Hd Hdn], Hd' as [Hd' Hdn'].
  cbn [app] in E.
  apply cut with (f := is_space) in E as [-> E]; try assumption; [|apply jy_head; assumption|apply jy_head; assumption].
  apply num_step in E as [-> E]; try assumption; reflexivity.
Qed.

Lemma era_match day text e y m d : era_text day (strip text) e y m d ->
  re_match (rseq (jpat day)) (strip text) = Some (rev (number 1 (jcaps day e y m d))).
Proof.
  intros H. apply (re_match_unique _ _ []).
  - apply jpat_complete, H.
  - intros s2 c2 HM. destruct (jpat_sound _ _ _ _ _ HM) as (t & e' & y' & m' & d' & Ht & Es & He & ->).
    pose proof (strip_at_end _ _ _ Es He) as ->. rewrite app_nil_r in *. subst t.
    destruct (era_text_unique _ _ _ _ _ _ _ _ _ _ H Ht) as (<- & <- & <- & <-). reflexivity.
Qed.
Lemma era_nomatch day text : (forall e y m d, ~ era_text day (strip text) e y m d) ->
  re_match (rseq (jpat day)) (strip text) = None.
Proof.
  intros H. apply re_match_none. intros s2 c2 HM.
  destruct (jpat_sound _ _ _ _ _ HM) as (t & e & y & m & d & Ht & Es & He & ->).
  pose proof (strip_at_end _ _ _ Es He) as ->. rewrite app_nil_r in *. subst t. exact (H _ _ _ _ Ht).
Qed.

(** ** Running it *)

Definition era_first (e : str) : option Z := dict_get str_eqb eras e.

Lemma digits_in_num dig ls s : digits_in dig ls s -> (forall c, dig c = true -> is_num_char c = true) -> num ls s.
Proof.
  intros [H Hl] Hd. split; [|exact Hl]. rewrite forallb_forall in *. auto.
Qed.
Lemma fw_num_char c : fullwidth_or_ascii c = true -> is_num_char c = true.
Proof.
  intros E. unfold fullwidth_or_ascii, ascii_or, is_digit in E.
  assert (Hc : In c (block10 48 ++ block10 65296)).
  { apply in_or_app. apply orb_prop in E as [E|E]; apply andb_prop in E as [E1 E2]; rewrite N.leb_le in *.
      + left. apply in_block10. lia.
      + right. apply in_block10. lia. }
  assert (Hall : forallb is_num_char (block10 48 ++ block10 65296) = true) by (vm_compute; reflexivity).
  rewrite forallb_forall in Hall. auto.
Qed.

Definition era_row (e : str) (first : Z) : bool :=
  str_eqb (norm e) e && match dict_get str_eqb japanese_era_to_gregorian_period e with
  | Some ((y0, _, _), _) => (Z.of_N y0 =? first)%Z && ((1868 <=? first) && (first <=? 2019))%Z
  | None => false end.
Lemma era_rows e first : In (e, first) eras ->
  norm e = e /\ (1868 <= first <= 2019)%Z /\
  exists b c d, dict_get str_eqb japanese_era_to_gregorian_period e = Some ((Z.to_N first, b, c), d).
Proof.
  intros H. assert (Hall : forallb (fun p => era_row (fst p) (snd p)) eras = true) by (vm_compute; reflexivity).
  rewrite forallb_forall in Hall. apply Hall in H. cbn [fst snd] in H. unfold era_row in H.
  apply andb_prop in H as [H1 H2].
  split; [destruct (str_eqb_spec (norm e) e); [assumption|discriminate]|].
  destruct (dict_get str_eqb japanese_era_to_gregorian_period e) as [[[[a b] c] d]|]; [|discriminate].
  apply andb_prop in H2 as [H2 H3]. apply andb_prop in H3 as [H3 H4].
  apply Z.eqb_eq in H2. rewrite Z.leb_le in *. split; [lia|]. exists b, c, d. rewrite <- H2, N2Z.id. reflexivity.
Qed.

Lemma z_to_str_four z : (1800 <= z < 2200)%Z -> z_to_str z = four z /\ ascii_num [1; 2; 4] (z_to_str z) /\
  year_val (z_to_str z) = z.
Proof.
  intros H.
  assert (Hall : forallb (fun k => let z := Z.of_nat k in
     str_eqb (z_to_str z) (four z) && forallb is_digit (z_to_str z) && Nat.eqb (length (z_to_str z)) 4 &&
     (year_val (z_to_str z) =? z)%Z) (seq 1800 400) = true)
    by (vm_compute; reflexivity).
  rewrite forallb_forall in Hall. specialize (Hall (Z.to_nat z)). rewrite in_seq in Hall.
  specialize (Hall ltac:(lia)). cbn zeta in Hall. rewrite Z2Nat.id in Hall by lia.
  repeat (apply andb_prop in Hall as [Hall ?]).
  destruct (str_eqb_spec (z_to_str z) (four z)) as [E|]; [|discriminate]. split; [exact E|].
  rewrite Nat.eqb_eq in *. rewrite Z.eqb_eq in *. split; [|assumption]. split; [assumption|]. cbn. lia.
Qed.

Local Opaque date_format_to_regex country_to_month_names irregular_date_order_dict japanese_era_to_gregorian_period.

Definition era_outcome (day : bool) (first : Z) (y m d : str) : res (str * log) :=
  outcome (era_year first y) (month_in_range (num_val m)) (if day then Some (num_val d) else None).

Lemma japanese_parts e y m d (day : bool) first : In (e, first) eras ->
  y = u "元" \/ digits_in fullwidth_or_ascii [1; 2] y ->
  exists z, era_year first y = Some z /\ (1800 <= z < 2200)%Z /\
  convert_japanese ([(Era, norm e); (Year, norm y); (Month, m)] ++ (if day then [(Day, d)] else [])) =
  Ok ([(Era, norm e); (Year, z_to_str z); (Month, m)] ++ (if day then [(Day, d)] else [])).
Proof.
  intros He Hy. destruct (era_rows _ _ He) as (En & Hr & b & c & k & Hg).
  unfold convert_japanese. unfold get_part.
  assert (E0 : dict_get part_eqb ([(Era, norm e); (Year, norm y); (Month, m)] ++ (if day then [(Day, d)] else [])) Era
    = Some (norm e)) by reflexivity.
  assert (E1 : dict_get part_eqb ([(Era, norm e); (Year, norm y); (Month, m)] ++ (if day then [(Day, d)] else [])) Year
    = Some (norm y)) by reflexivity.
  rewrite E0, E1, En. cbn [bind]. rewrite Hg. cbn [bind]. rewrite Z2N.id by lia.
  destruct Hy as [->|Hy].
  - exists first. split; [reflexivity|]. split; [lia|].
    change (str_eqb (norm (u "元")) (u "元")) with true. cbn [bind].
    assert (Hf : (first + 1 - 1 = first)%Z) by lia. rewrite Hf. destruct day; reflexivity.
  - assert (Hn : num [1; 2] y) by (eapply digits_in_num; [exact Hy|apply fw_num_char]).
    pose proof (num_norm _ _ Hn) as Ha. destruct (norm_num y (proj1 Hn)) as (Hdg & Ev & _).
    destruct (ascii_num_2_val _ Ha) as [Hv Hne].
    exists (first + num_val y - 1)%Z. split.
    { unfold era_year. destruct (str_eqb_spec y (u "元")) as [E|]; [subst y; destruct Hy as [Hy _]; vm_compute in Hy; discriminate|].
      destruct Hy as [-> _]. reflexivity. }
    split; [lia|].
    destruct (str_eqb_spec (norm y) (u "元")) as [E|].
    { rewrite E in Hdg. vm_compute in Hdg. discriminate. }
    unfold py_int_res. rewrite py_int_digits by assumption. cbn [bind]. rewrite Ev. destruct day; reflexivity.
Qed.

Lemma era_run ev day text e y m d first : era_text day (strip text) e y m d -> In (e, first) eras ->
  parse_date_fact_value ev text (jfmt day) = era_outcome day first y m d.
Proof.
  intros Ht He. pose proof (era_match _ _ _ _ _ _ Ht) as Hm.
  destruct Ht as (s1 & s2 & s3 & s4 & s5 & s6 & f0 & _ & _ & _ & _ & _ & _ & _ & Hy & Hmo & Hd & _).
  assert (Hmn : num [1; 2] m) by (eapply digits_in_num; [exact Hmo|apply fw_num_char]).
  unfold parse_date_fact_value, match_regex_date_fact_value. rewrite jpat_table, Hm.
  fold (is_full_format (jfmt day)) (is_recurring_format (jfmt day)).
  assert (Hrd : read_groups (date_order (jfmt day) (is_recurring_format (jfmt day)) (is_full_format (jfmt day))) 1
     (rev (number 1 (jcaps day e y m d))) (if day then 4 else 3) [] =
     Ok ([(Era, Some e); (Year, Some y); (Month, Some m)] ++ (if day then [(Day, Some d)] else []))).
  { destruct day; vm_compute; reflexivity. }
  rewrite Hrd. cbn [bind]. rewrite normalize_date_parts_eq.
  assert (Hnp : normalize_parts ([(Era, Some e); (Year, Some y); (Month, Some m)] ++ (if day then [(Day, Some d)] else [])) =
     Ok ([(Era, norm e); (Year, norm y); (Month, norm m)] ++ (if day then [(Day, norm d)] else []))).
  { destruct day; reflexivity. }
  rewrite Hnp. cbn [bind].
  assert (Hj : contains (u "jpn") (jfmt day) = true) by (destruct day; reflexivity). rewrite Hj.
  destruct (japanese_parts e y (norm m) (norm d) day first He Hy) as (z & Ez & Hz & ->). cbn [bind].
  destruct (z_to_str_four z Hz) as (E4 & Ha4 & Ev4).
  rewrite (norm_tail_eq _ (jfmt day) None numeric_names (norm m)).
  - cbn [bind].
    match goal with |- (do! errs <- validate_date_fact_value ev ?ps ?rec ?full ; _) = _ =>
      change (finish ev ps rec full = era_outcome day first y m d) end.
    unfold era_outcome. rewrite Ez, <- (numeric_month m Hmn).
    assert (Ed : option_map (fun d => (Day, two (digits_val d)))
        (dict_get part_eqb ([(Era, norm e); (Year, z_to_str z); (Month, norm m)] ++ (if day then [(Day, norm d)] else [])) Day)
      = option_map (fun d => (Day, two d)) (if day then Some (num_val d) else None)).
    { destruct day; [|reflexivity]. cbn.
      assert (Hdn : num [1; 2] d) by (eapply digits_in_num; [exact Hd|apply fw_num_char]).
      destruct (norm_num d (proj1 Hdn)) as (_ & -> & _). reflexivity. }
    assert (Ey : option_map (fun y => (Year, four (year_val y)))
        (dict_get part_eqb ([(Era, norm e); (Year, z_to_str z); (Month, norm m)] ++ (if day then [(Day, norm d)] else [])) Year)
      = option_map (fun y => (Year, four y)) (Some z)).
    { destruct day; cbn -[four year_val z_to_str]; rewrite Ev4; reflexivity. }
    rewrite Ed, Ey. apply finish_eq.
    + destruct day; reflexivity.
    + destruct day; reflexivity.
    + discriminate.
    + destruct day; [|exact I]. cbn [opt_all].
      assert (Hdn : num [1; 2] d) by (eapply digits_in_num; [exact Hd|apply fw_num_char]).
      pose proof (num_norm _ _ Hdn) as Ha. destruct (norm_num d (proj1 Hdn)) as (_ & <- & _).
      apply ascii_num_2_val, Ha.
    + rewrite numeric_month by exact Hmn. unfold month_in_range.
      destruct ((1 <=? num_val m) && (num_val m <=? 12))%Z eqn:E; [|exact I]. cbn.
      apply andb_prop in E as [E1 E2]. rewrite Z.leb_le in *. lia.
    + cbn. lia.
  - destruct day; reflexivity.
  - destruct day; reflexivity.
  - Local Transparent country_to_month_names. reflexivity.
  - destruct day; [|exact I]. apply num_norm. eapply digits_in_num; [exact Hd|apply fw_num_char].
  - cbn -[z_to_str]. destruct day; exact Ha4.
  - reflexivity.
Qed.

Lemma era_reject ev day text : (forall e y m d, ~ era_text day (strip text) e y m d) ->
  parse_date_fact_value ev text (jfmt day) = Ok (strip text, NOMATCH).
Proof.
  intros H. unfold parse_date_fact_value, match_regex_date_fact_value.
  rewrite jpat_table, (era_nomatch _ _ H). reflexivity.
Qed.
Local Transparent date_format_to_regex irregular_date_order_dict japanese_era_to_gregorian_period.

(** The check of the era is never consulted: the parts checked never have an era. *)
Lemma tail_no_era ps fmt ps' : norm_tail ps fmt = Ok ps' -> dict_mem part_eqb ps' Era = false.
Proof.
  unfold norm_tail.
  assert (HS : forall p (v : str) l, p <> Era -> dict_mem part_eqb l Era = false ->
    dict_mem part_eqb (dict_set part_eqb l p v) Era = false).
  { intros p v l Hp H. unfold dict_mem in *. rewrite (dict_get_set_other part_eqb part_eqb_spec) by exact Hp. exact H. }
  destruct (match dict_get part_eqb ps Day with Some d => _ | None => _ end) as [o1|] eqn:E1; [|discriminate].
  assert (H1 : dict_mem part_eqb o1 Era = false).
  { destruct (dict_get part_eqb ps Day) as [d|]; [|injection E1 as <-; reflexivity].
    destruct (py_int_res d); [|discriminate]. injection E1 as <-. reflexivity. }
  cbn [bind].
  match goal with |- bind ?x _ = _ -> _ => destruct x as [o2|] eqn:E2; [|discriminate] end.
  assert (H2 : dict_mem part_eqb o2 Era = false).
  { destruct (dict_get part_eqb ps Month) as [m|]; [|congruence].
    destruct (country_of fmt) as [c|]; [|discriminate]. cbn [bind] in E2.
    destruct (dict_get (opt_eqb str_eqb) country_to_month_names c) as [names|]; [|discriminate].
    destruct (month_index names (lower m) 0); [|congruence].
    assert (o2 = dict_set part_eqb o1 Month (fmt02 (Z.of_nat n))) as -> by congruence. apply HS; [discriminate|exact H1]. }
  cbn [bind]. destruct (dict_get part_eqb ps Year) as [y|]; [|intros H; assert (o2 = ps') as <- by congruence; exact H2].
  destruct (str_eqb fmt indian_format); [discriminate|].
  destruct (Nat.eqb (length y) 2); [|destruct (Nat.eqb (length y) 1)]; intros H;
    match type of H with Ok ?a = Ok ?b => assert (b = a) as -> by congruence end; apply HS; auto; discriminate.
Qed.

Lemma era_check_unused ev ev' text fmt : parse_date_fact_value ev text fmt = parse_date_fact_value ev' text fmt.
Proof.
  unfold parse_date_fact_value. destruct (match_regex_date_fact_value (strip text) fmt) as [[[c n]|] e]; [|reflexivity].
  destruct (read_groups _ _ _ _ _) as [raw|]; [|reflexivity]. cbn [bind].
  destruct (normalize_date_parts raw fmt) as [ps|] eqn:E; [|reflexivity]. cbn [bind].
  rewrite normalize_date_parts_eq in E.
  destruct (normalize_parts raw) as [p1|]; [|discriminate]. cbn [bind] in E.
  destruct (if contains (u "jpn") fmt then _ else _) as [p2|]; [|discriminate]. cbn [bind] in E.
  apply tail_no_era in E. unfold validate_date_fact_value. rewrite E. reflexivity.
Qed.
