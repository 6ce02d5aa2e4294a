(** Proofs about languages, labels and translations. *)
From Verif Require Import Base QNameModel QNameProofs CtxModel CtxSpec CtxProofs LangModel LangSpec.
From Coq Require Import Lia.

(** ** Deduplication *)

Lemma deduplicate_in seen l x : In x (deduplicate seen l) <-> In x l /\ ~ In x seen.
Proof.
  revert seen; induction l as [|y l IH]; intros seen; cbn [deduplicate]; [cbn; tauto|].
  destruct (existsb (str_eqb y) seen) eqn:E.
  - apply existsb_str in E. rewrite IH. cbn. split.
    + tauto.
    + intros [[->|H] Hn]; [contradiction|auto].
  - assert (Hn : ~ In y seen) by (rewrite <- existsb_str; congruence).
    cbn. rewrite IH. cbn. split.
    + intros [->|[H H']]; [tauto|]. split; [tauto|]. intros Hs; apply H'; right; exact Hs.
    + intros [[->|H] H']; [left; reflexivity|]. destruct (str_eqb_spec y x) as [->|Hxy]; [left; reflexivity|].
      right. split; [exact H|]. intros [->|Hs]; contradiction.
Qed.

Lemma deduplicate_nodup seen l : NoDup (deduplicate seen l).
Proof.
  revert seen; induction l as [|y l IH]; intros seen; cbn [deduplicate]; [constructor|].
  destruct (existsb (str_eqb y) seen); [apply IH|]. constructor; [|apply IH].
  rewrite deduplicate_in. cbn. tauto.
Qed.

Lemma before_cons x y z l : before x y (z :: l) <-> (x = z /\ In y l) \/ before x y l.
Proof.
  split.
  - intros (pre & mid & post & E). destruct pre as [|w pre]; inversion E; subst.
    + left; split; [reflexivity|]. apply in_or_app; right; left; reflexivity.
    + right. exists pre, mid, post. reflexivity.
  - intros [[-> H]|(pre & mid & post & ->)].
    + apply in_split in H as (mid & post & ->). exists [], mid, post. reflexivity.
    + exists (z :: pre), mid, post. reflexivity.
Qed.

Lemma comes_first_cons x y z l : x <> y -> comes_first x y (z :: l) <-> x = z \/ (z <> y /\ comes_first x y l).
Proof.
  intros Hxy. split.
  - intros (pre & post & E & Hn). destruct pre as [|w pre]; inversion E; subst; [left; reflexivity|].
    right. split; [intros ->; apply Hn; left; reflexivity|].
    exists pre, post. split; [reflexivity|]. intros H; apply Hn; right; exact H.
  - intros [->|[Hz (pre & post & -> & Hn)]].
    + exists [], l. split; [reflexivity|intros []].
    + exists (z :: pre), post. split; [reflexivity|]. intros [H|H]; contradiction.
Qed.

Lemma deduplicate_before seen l x y : x <> y -> ~ In x seen -> ~ In y seen -> In x l -> In y l ->
  (before x y (deduplicate seen l) <-> comes_first x y l).
Proof.
  intros Hxy. revert seen; induction l as [|z l IH]; intros seen Hx Hy Hix Hiy; [destruct Hix|].
  cbn [deduplicate]. rewrite comes_first_cons by exact Hxy.
  destruct (existsb (str_eqb z) seen) eqn:E.
  - apply existsb_str in E.
    assert (x <> z) by (intros ->; contradiction). assert (y <> z) by (intros ->; contradiction).
    destruct Hix as [->|Hix]; [contradiction|]. destruct Hiy as [->|Hiy]; [contradiction|].
    rewrite IH by assumption. split; [auto|]. intros [->|[_ H']]; [contradiction|exact H'].
  - rewrite before_cons, deduplicate_in.
    destruct (str_eqb_spec x z) as [->|Hxz].
    + split; [auto|]. intros _. left. split; [reflexivity|]. destruct Hiy as [->|Hiy]; [contradiction|].
      split; [exact Hiy|]. intros [H|H]; [apply Hxy; exact H|contradiction].
    + destruct (str_eqb_spec y z) as [->|Hyz].
      * split.
        -- intros [[-> _]|H]; [contradiction|]. exfalso.
           destruct H as (pre & mid & post & H).
           assert (Hin : In z (deduplicate (z :: seen) l)).
           { rewrite H. apply in_or_app; right; right. apply in_or_app; right; left; reflexivity. }
           apply deduplicate_in in Hin as [_ Hin]. apply Hin; left; reflexivity.
        -- intros [->|[H _]]; contradiction.
      * destruct Hix as [->|Hix]; [contradiction|]. destruct Hiy as [->|Hiy]; [contradiction|].
        assert (Hx' : ~ In x (z :: seen)) by (intros [H|H]; [apply Hxz; symmetry; exact H|contradiction]).
        assert (Hy' : ~ In y (z :: seen)) by (intros [H|H]; [apply Hyz; symmetry; exact H|contradiction]).
        rewrite IH by assumption. split.
        -- intros [[-> _]|H]; [left; reflexivity|right]. split; [congruence|exact H].
        -- intros [->|[_ H]]; [contradiction|right; exact H].
Qed.

Lemma deduplicate_spec l : without_repetition l (deduplicate [] l).
Proof.
  split; [apply deduplicate_nodup|]. split.
  - intros x. rewrite deduplicate_in. cbn. tauto.
  - intros x y Hxy Hx Hy. apply deduplicate_before; auto.
Qed.

Lemma languages_or_empty_set x : set_to x (languages_or_empty x).
Proof. destruct x as [[[|c s]|l]|]; cbn; constructor. discriminate. Qed.
Lemma function_languages_passed x : passed_as x (function_languages x).
Proof. destruct x as [[s|l]|]; cbn; constructor. Qed.

(** ** Main labels *)
Lemma has_label_iff labels v : has_label_with_language labels v = true <-> exists l, In l labels /\ l_lang l = v.
Proof.
  unfold has_label_with_language. rewrite existsb_exists. split; intros (l & H1 & H2); exists l; (split; [exact H1|]);
    apply str_eqb_eq; exact H2.
Qed.

Lemma first_of_language_spec labels v d : (exists l, In l labels /\ l_lang l = v) ->
  first_with (fun l => l_lang l = v) labels (first_of_language labels v d).
Proof.
  intros H. unfold first_of_language. destruct (find (fun l => str_eqb (l_lang l) v) labels) as [x|] eqn:E.
  - eapply find_first_with; [|exact E]. intros y. apply str_eqb_eq.
  - destruct H as (l & Hl & Hv). pose proof (find_none _ _ E l Hl) as H. cbn in H.
    rewrite Hv, str_eqb_refl in H. discriminate.
Qed.

(** The chain of tests, for any list of variants. *)
Fixpoint select_by (variants : list str) (labels : list label) (l0 : label) : label :=
  match variants with
  | [] => l0
  | v :: rest => if has_label_with_language labels v then first_of_language labels v l0 else select_by rest labels l0
  end.

Lemma select_by_spec variants labels l0 rest : labels = l0 :: rest ->
  (exists v, first_with (fun v => exists l, In l labels /\ l_lang l = v) variants v /\
             first_with (fun l => l_lang l = v) labels (select_by variants labels l0)) \/
  ((forall l, In l labels -> ~ In (l_lang l) variants) /\ select_by variants labels l0 = l0).
Proof.
  intros El. induction variants as [|v vs IH]; cbn [select_by].
  - right. split; [intros l _ []|reflexivity].
  - destruct (has_label_with_language labels v) eqn:E.
    + apply has_label_iff in E. left. exists v. split.
      * exists [], vs. split; [reflexivity|]. split; [exact E|intros y []].
      * apply first_of_language_spec, E.
    + assert (Hn : ~ exists l, In l labels /\ l_lang l = v) by (rewrite <- has_label_iff; congruence).
      destruct IH as [(w & (pre & post & Ev & Hw & Hpre) & H)|[H1 H2]].
      * left. exists w. split; [|exact H]. exists (v :: pre), post. rewrite Ev. split; [reflexivity|].
        split; [exact Hw|]. intros y [<-|Hy]; [exact Hn|apply Hpre, Hy].
      * right. split; [|exact H2]. intros l Hl [Hv|Hv]; [apply Hn; exists l; auto|apply (H1 l Hl Hv)].
Qed.

Lemma select_main_label_by l0 rest : select_main_label (l0 :: rest) = select_by english (l0 :: rest) l0.
Proof. reflexivity. Qed.

(** ** Translations *)

Lemma split_char_head c s : exists p ps, split_char c s = p :: ps /\ ~ In c p /\
  (ps = [] /\ s = p \/ exists r, s = p ++ c :: r /\ split_char c r = ps).
Proof.
  induction s as [|x s IH]; cbn [split_char].
  - exists [], []. repeat split; auto.
  - destruct (N.eqb_spec x c) as [->|Hn].
    + exists [], (split_char c s). split; [reflexivity|]. split; [intros []|]. right. exists s. split; reflexivity.
    + destruct IH as (p & ps & -> & Hp & H). exists (x :: p), ps. split; [reflexivity|].
      split; [intros [H'|H']; contradiction|].
      destruct H as [[-> ->]|(r & -> & Hr)]; [left; split; reflexivity|right]. exists r. split; [reflexivity|exact Hr].
Qed.

Lemma language_part_spec s p : language_of s p <-> language_part s = p.
Proof.
  unfold language_part. destruct (split_char_head (ch "-") s) as (q & ps & -> & Hq & H).
  assert (Huniq : forall a b r t : str, ~ In (ch "-") a -> ~ In (ch "-") b -> a ++ ch "-" :: r = b ++ ch "-" :: t -> a = b).
  { clear. intros a. induction a as [|x a IH]; intros b r t Ha Hb E.
    - destruct b as [|y b]; [reflexivity|]. cbn [app] in E. injection E as E1 _. exfalso. apply Hb. left. symmetry. exact E1.
    - destruct b as [|y b]; cbn [app] in E; injection E as E1 E2.
      + exfalso. apply Ha. left. exact E1.
      + f_equal; [exact E1|]. eapply IH; [..|exact E2]; intros H'; [apply Ha|apply Hb]; right; exact H'. }
  split.
  - intros [Hp [->|(r & ->)]].
    + destruct H as [[_ ->]|(r & -> & _)]; [reflexivity|]. exfalso. apply Hp. apply in_or_app; right; left; reflexivity.
    + destruct H as [[_ <-]|(r' & E & _)].
      * exfalso. apply Hq. apply in_or_app; right; left; reflexivity.
      * symmetry. eapply Huniq; [exact Hp|exact Hq|exact E].
  - intros <-. split; [exact Hq|]. destruct H as [[_ ->]|(r & -> & _)]; [left; reflexivity|right; exists r; reflexivity].
Qed.

Section Translate.
Variable lower : str -> str.
Hypothesis lower_lower : forall s, lower (lower s) = lower s.
Variable m : bool.
Variable t : translations.
Hypothesis t_keys : NoDup (map fst t).

Lemma languages_match_spec a b : languages_match lower m a b = true <-> same_language lower m a b.
Proof.
  unfold languages_match, same_language. destruct m; rewrite str_eqb_eq; [reflexivity|]. split.
  - intros E. exists (language_part (lower a)). split; apply language_part_spec; [reflexivity|symmetry; exact E].
  - intros (p & H1 & H2). apply language_part_spec in H1, H2. congruence.
Qed.
Lemma languages_match_lower a b : languages_match lower m (lower a) b = true <-> same_language lower m a b.
Proof. rewrite <- languages_match_spec. unfold languages_match. rewrite lower_lower. reflexivity. Qed.

Lemma first_with_find {A} (f : A -> bool) (P : A -> Prop) xs : (forall y, f y = true <-> P y) ->
  forall x, find f xs = Some x <-> first_with P xs x.
Proof. intros H x. apply find_first_with. exact H. Qed.

Lemma get_single_spec q l s : get_single lower m t q l = Ok s <-> answers lower m t q l s.
Proof.
  unfold get_single. destruct l as [|c l].
  - split.
    + intros E; inversion E; constructor.
    + intros H. inversion H as [|? Hn|? d e Hl]; subst; congruence.
  - destruct (dict_get qname_eqb t q) as [d|] eqn:Ed.
    + apply (dict_get_in _ qname_eqb_spec) in Ed.
      assert (Hf := first_with_find (fun e : str * str => languages_match lower m (lower (c :: l)) (fst e))
                      (fun e => same_language lower m (c :: l) (fst e)) d
                      (fun e => languages_match_lower (c :: l) (fst e))).
      split.
      * destruct (find _ d) as [e|] eqn:E; [|discriminate]. intros [= <-]. apply (answers_entry _ _ _ _ _ d); [discriminate|exact Ed|].
        apply Hf. reflexivity.
      * intros H. inversion H as [|? Hn|? d' e Hl Hd He]; subst.
        -- exfalso. apply (Hn d), Ed.
        -- assert (d' = d).
           { apply (dict_get_in_nodup _ qname_eqb_spec) in Ed; [|exact t_keys].
             apply (dict_get_in_nodup _ qname_eqb_spec) in Hd; [|exact t_keys]. congruence. }
           subst d'. apply Hf in He. rewrite He. reflexivity.
    + assert (Hn : forall d, ~ In (q, d) t).
      { intros d H. apply (dict_get_in_nodup _ qname_eqb_spec) in H; [|exact t_keys]. congruence. }
      split.
      * intros [= <-]. apply answers_unknown, Hn.
      * intros H. inversion H as [|? Hn'|? d' e Hl Hd He]; subst; [reflexivity|]. exfalso. apply (Hn d'), Hd.
Qed.

Lemma get_single_exn q l e : get_single lower m t q l = Raise e -> e = KeyError.
Proof.
  unfold get_single. destruct l; [discriminate|]. destruct (dict_get qname_eqb t q) as [d|]; [|discriminate].
  destruct (find _ d); [discriminate|]. congruence.
Qed.

Lemma get_first_spec q languages s :
  get_first lower m t q languages = Ok s <-> first_answer (answers lower m t q) languages s.
Proof.
  induction languages as [|l rest IH]; cbn [get_first].
  - split; [discriminate|]. intros (l & (pre & post & E & _) & _). destruct pre; discriminate.
  - destruct (get_single lower m t q l) as [s'|e] eqn:E.
    + split.
      * intros [= <-]. apply get_single_spec in E. exists l. split; [|exact E].
        exists [], rest. split; [reflexivity|]. split; [exists s'; exact E|intros y []].
      * intros (l' & (pre & post & E' & Hl' & Hpre) & H). destruct pre as [|x pre]; inversion E'; subst.
        -- apply get_single_spec in H. congruence.
        -- exfalso. apply (Hpre x); [left; reflexivity|]. exists s'. apply get_single_spec, E.
    + rewrite IH. assert (Hno : ~ exists s', answers lower m t q l s').
      { intros (s' & H). apply get_single_spec in H. congruence. }
      split; intros (l' & (pre & post & E' & Hl' & Hpre) & H); exists l'; (split; [|exact H]).
      * exists (l :: pre), post. rewrite E'. split; [reflexivity|]. split; [exact Hl'|].
        intros y [<-|Hy]; [exact Hno|apply Hpre, Hy].
      * destruct pre as [|x pre]; inversion E'; subst; [contradiction|].
        exists pre, post. split; [reflexivity|]. split; [exact Hl'|]. intros y Hy; apply Hpre; right; exact Hy.
Qed.

Lemma get_first_exn q languages e : get_first lower m t q languages = Raise e ->
  e = KeyError /\ forall l s, In l languages -> ~ answers lower m t q l s.
Proof.
  induction languages as [|l rest IH]; cbn [get_first].
  - intros [= <-]. split; [reflexivity|]. intros l s [].
  - destruct (get_single lower m t q l) as [s'|e'] eqn:E; [discriminate|]. intros H.
    destruct (IH H) as [H1 H2]. split; [exact H1|]. intros k s [<-|Hk]; [|apply H2, Hk].
    intros Ha. apply get_single_spec in Ha. congruence.
Qed.

Lemma label_with_language labels l d s : (exists x, get_label_with_language lower m labels l (Label d [] [] standard_role) = Some x /\ l_text x = s)
  <-> label_answers lower m labels d l s.
Proof.
  unfold get_label_with_language. destruct l as [|c l].
  - split.
    + intros (x & [= <-] & <-). constructor.
    + intros H. inversion H; subst; [|congruence]. eexists; split; reflexivity.
  - split.
    + intros (x & Hx & <-). constructor; [discriminate|]. eapply first_with_find; [|exact Hx].
      intros y. apply languages_match_spec.
    + intros H. inversion H as [|? x Hl Hx]; subst. exists x. split; [|reflexivity].
      eapply first_with_find; [|exact Hx]. intros y. apply languages_match_spec.
Qed.

Lemma label_for_spec labels languages d s :
  get_from_labels lower m labels languages d = Ok s <-> first_answer (label_answers lower m labels d) languages s.
Proof.
  unfold get_from_labels. induction languages as [|l rest IH]; cbn [label_for].
  - split; [discriminate|]. intros (l & (pre & post & E & _) & _). destruct pre; discriminate.
  - destruct (get_label_with_language lower m labels l (Label d [] [] standard_role)) as [x|] eqn:E.
    + assert (Hx : label_answers lower m labels d l (l_text x)) by (apply label_with_language; exists x; auto).
      split.
      * intros [= <-]. exists l. split; [|exact Hx].
        exists [], rest. split; [reflexivity|]. split; [eexists; exact Hx|intros y []].
      * intros (l' & (pre & post & E' & Hl' & Hpre) & H). destruct pre as [|y pre]; inversion E'; subst.
        -- apply label_with_language in H as (x' & Hx' & <-). congruence.
        -- exfalso. apply (Hpre y); [left; reflexivity|]. eexists; exact Hx.
    + rewrite IH. assert (Hno : ~ exists s', label_answers lower m labels d l s').
      { intros (s' & H). apply label_with_language in H as (x' & Hx' & _). congruence. }
      split; intros (l' & (pre & post & E' & Hl' & Hpre) & H); exists l'; (split; [|exact H]).
      * exists (l :: pre), post. rewrite E'. split; [reflexivity|]. split; [exact Hl'|].
        intros y [<-|Hy]; [exact Hno|apply Hpre, Hy].
      * destruct pre as [|x pre]; inversion E'; subst; [contradiction|].
        exists pre, post. split; [reflexivity|]. split; [exact Hl'|]. intros y Hy; apply Hpre; right; exact Hy.
Qed.

Lemma label_for_exn labels languages d e : get_from_labels lower m labels languages d = Raise e ->
  e = ValueError /\ forall l s, In l languages -> ~ label_answers lower m labels d l s.
Proof.
  unfold get_from_labels. induction languages as [|l rest IH]; cbn [label_for].
  - intros [= <-]. split; [reflexivity|]. intros l s [].
  - destruct (get_label_with_language lower m labels l (Label d [] [] standard_role)) as [x|] eqn:E; [discriminate|].
    intros H. destruct (IH H) as [H1 H2]. split; [exact H1|]. intros k s [<-|Hk]; [|apply H2, Hk].
    intros Ha. apply label_with_language in Ha as (x & Hx & _). congruence.
Qed.
End Translate.

(** ** Loading *)

Definition entry (t : translations) (q : qname) (key text : str) : Prop :=
  exists d, In (q, d) t /\ In (key, text) d.
Definition table_ok (t : translations) : Prop :=
  NoDup (map fst t) /\ forall q d, In (q, d) t -> NoDup (map fst d).

Lemma entry_get t q key text : table_ok t ->
  (entry t q key text <-> exists d, dict_get qname_eqb t q = Some d /\ dict_get str_eqb d key = Some text).
Proof.
  intros [Hk Hd]. split.
  - intros (d & H1 & H2). exists d. split; [apply (dict_get_in_nodup _ qname_eqb_spec); assumption|].
    apply (dict_get_in_nodup _ str_eqb_spec); [eapply Hd, H1|exact H2].
  - intros (d & H1 & H2). exists d. split; [apply (dict_get_in _ qname_eqb_spec), H1|apply (dict_get_in _ str_eqb_spec), H2].
Qed.

Lemma load_line_spec t line t' : table_ok t -> load_line t line = Ok t' ->
  table_ok t' /\ exists q key, line_for q key line /\
    forall q' key' text, entry t' q' key' text <->
      (q' = q /\ key' = key /\ text = line_text line) \/ (~ (q' = q /\ key' = key) /\ entry t q' key' text).
Proof.
  intros Ht. unfold load_line.
  destruct line as [|ns [|local [|language [|locale [|text more]]]]]; try discriminate.
  set (q := QName ns [] local). set (key := (language ++ u "-" ++ locale : str)).
  set (d := match dict_get qname_eqb t q with Some d => d | None => [] end).
  intros [= <-]. destruct Ht as [Hk Hd].
  assert (Hdd : NoDup (map fst d)).
  { unfold d. destruct (dict_get qname_eqb t q) as [d'|] eqn:E; [|constructor].
    apply (dict_get_in _ qname_eqb_spec) in E. eapply Hd, E. }
  assert (Ht' : table_ok (dict_set qname_eqb t q (dict_set str_eqb d key text))).
  { split; [apply (dict_set_keys_nodup _ qname_eqb_spec), Hk|].
    intros q' d' H. apply (dict_get_in_nodup _ qname_eqb_spec) in H.
    2:{ apply (dict_set_keys_nodup _ qname_eqb_spec), Hk. }
    destruct (qname_eqb_spec q q') as [->|Hn].
    - rewrite (dict_get_set_same _ qname_eqb_spec) in H. inversion H; subst d'.
      apply (dict_set_keys_nodup _ str_eqb_spec), Hdd.
    - rewrite (dict_get_set_other _ qname_eqb_spec) in H by exact Hn.
      apply (dict_get_in _ qname_eqb_spec) in H. eapply Hd, H. }
  split; [exact Ht'|]. exists q, key. split.
  { exists ns, local, language, locale, text, more. split; [reflexivity|]. split; [reflexivity|]. reflexivity. }
  intros q' key' text'. rewrite (entry_get _ q' key' text' Ht'), (entry_get t q' key' text' (conj Hk Hd)).
  cbn [line_text nth].
  destruct (qname_eqb_spec q q') as [<-|Hn].
  - rewrite (dict_get_set_same _ qname_eqb_spec).
    destruct (str_eqb_spec key key') as [<-|Hn'].
    + split.
      * intros (d' & [= <-] & H). rewrite (dict_get_set_same _ str_eqb_spec) in H. inversion H; subst. left; auto.
      * intros [(_ & _ & ->)|[H _]]; [|exfalso; apply H; auto]. eexists; split; [reflexivity|].
        apply (dict_get_set_same _ str_eqb_spec).
    + split.
      * intros (d' & [= <-] & H). rewrite (dict_get_set_other _ str_eqb_spec) in H by exact Hn'.
        right. split; [intros [_ E]; apply Hn'; symmetry; exact E|].
        revert H. unfold d. destruct (dict_get qname_eqb t q) as [d'|]; [|discriminate]. intros H. exists d'; auto.
      * intros [(_ & E & _)|[_ (d' & H1 & H2)]]; [exfalso; apply Hn'; symmetry; exact E|].
        eexists; split; [reflexivity|]. rewrite (dict_get_set_other _ str_eqb_spec) by exact Hn'.
        unfold d. rewrite H1. exact H2.
  - rewrite (dict_get_set_other _ qname_eqb_spec) by exact Hn. split.
    + intros H. right. split; [intros [E _]; apply Hn; symmetry; exact E|exact H].
    + intros [(E & _)|[_ H]]; [exfalso; apply Hn; symmetry; exact E|exact H].
Qed.

Lemma line_for_fun q q' key key' line : line_for q key line -> line_for q' key' line -> q = q' /\ key = key'.
Proof.
  intros (a & b & c & d & e & f & -> & -> & ->) (a' & b' & c' & d' & e' & f' & E & -> & ->).
  inversion E; subst. split; reflexivity.
Qed.

Lemma load_lines_spec lines t t' : table_ok t -> load_lines t lines = Ok t' ->
  table_ok t' /\
  forall q key text, entry t' q key text <->
    (exists line, last_with (line_for q key) lines line /\ text = line_text line) \/
    ((forall line, In line lines -> ~ line_for q key line) /\ entry t q key text).
Proof.
  revert t; induction lines as [|line lines IH]; intros t Ht; cbn [load_lines].
  - intros [= <-]. split; [exact Ht|]. intros q key text. split.
    + intros H. right. split; [intros line []|exact H].
    + intros [(line & (pre & post & E & _) & _)|[_ H]]; [destruct pre; discriminate|exact H].
  - destruct (load_line t line) as [t1|] eqn:E1; cbn [bind]; [|discriminate]. intros H.
    destruct (load_line_spec t line t1 Ht E1) as (Ht1 & q1 & key1 & Hline & Hent).
    destruct (IH t1 Ht1 H) as [Ht' Hall]. split; [exact Ht'|]. intros q key text. rewrite Hall, Hent. split.
    + intros [(x & (pre & post & E & Hx & Hpost) & ->)|[Hno [(-> & -> & ->)|[Hne He]]]].
      * left. exists x. split; [|reflexivity]. exists (line :: pre), post. rewrite E. auto.
      * left. exists line. split; [|reflexivity]. exists [], lines. split; [reflexivity|]. split; [exact Hline|].
        intros y Hy. apply Hno, Hy.
      * right. split; [|exact He]. intros y [<-|Hy]; [|apply Hno, Hy].
        intros Hl. apply Hne. eapply line_for_fun; eassumption.
    + intros [(x & (pre & post & E & Hx & Hpost) & ->)|[Hno He]].
      * destruct pre as [|y pre]; inversion E; subst.
        -- right. split; [exact Hpost|]. left. destruct (line_for_fun _ _ _ _ _ Hx Hline) as [-> ->]. auto.
        -- left. exists x. split; [|reflexivity]. exists pre, post. auto.
      * right. split; [intros y Hy; apply Hno; right; exact Hy|]. right. split; [|exact He].
        intros [-> ->]. apply (Hno line); [left; reflexivity|exact Hline].
Qed.

Lemma empty_table_ok : table_ok [].
Proof. split; [constructor|intros q d []]. Qed.

(** ** Frames *)
Section Frame.
Context {A R : Type}.
Variable convert : A -> list str -> res R.

Lemma map_res_forall2 languages elements rows :
  map_res (fun x => convert x languages) elements = Ok rows <-> rows_in convert languages elements rows.
Proof.
  unfold rows_in. revert rows; induction elements as [|x l IH]; intros rows; cbn [map_res].
  - split; [intros [= <-]; constructor|]. intros H; inversion H; reflexivity.
  - split.
    + destruct (convert x languages) as [r|] eqn:E; cbn [bind]; [|discriminate].
      destruct (map_res _ l) as [rs|] eqn:E'; cbn [bind]; [|discriminate]. intros [= <-].
      constructor; [exact E|]. apply IH. reflexivity.
    + intros H. inversion H as [|? r ? rs H1 H2]; subst. rewrite H1. cbn [bind]. apply IH in H2. rewrite H2. reflexivity.
Qed.

Lemma add_rows_good l elements rows data : rows_in convert [l] elements rows ->
  add_rows convert l elements data = data ++ rows.
Proof.
  intros H. revert data. unfold rows_in in H. induction H as [|x r xs rs Hx _ IH]; intros data; cbn [add_rows].
  - rewrite app_nil_r. reflexivity.
  - rewrite Hx, IH, <- app_assoc. reflexivity.
Qed.

Lemma add_rows_bad l elements data : fails_in convert elements l -> add_rows convert l elements data = [].
Proof.
  intros (x & e & Hx & E). revert data; induction elements as [|y ys IH]; intros data; [destruct Hx|].
  cbn [add_rows]. destruct Hx as [->|Hx].
  - rewrite E. reflexivity.
  - destruct (convert y [l]); [apply IH, Hx|reflexivity].
Qed.

Lemma fold_good elements languages blocks data : Forall2 (fun l b => rows_in convert [l] elements b) languages blocks ->
  fold_left (fun data l => add_rows convert l elements data) languages data = data ++ concat blocks.
Proof.
  intros H. revert data. induction H as [|l b ls bs Hl _ IH]; intros data; cbn.
  - rewrite app_nil_r. reflexivity.
  - rewrite (add_rows_good l elements b) by exact Hl. rewrite IH, <- app_assoc. reflexivity.
Qed.

Lemma good_or_bad elements l : (exists rows, rows_in convert [l] elements rows) \/ fails_in convert elements l.
Proof.
  induction elements as [|x xs IH]; [left; exists []; constructor|].
  destruct (convert x [l]) as [r|e] eqn:E.
  - destruct IH as [[rows H]|(y & e & Hy & Ey)]; [left|right].
    + exists (r :: rows). constructor; assumption.
    + exists y, e. split; [right; exact Hy|exact Ey].
  - right. exists x, e. split; [left; reflexivity|exact E].
Qed.
End Frame.
