(** Two readings of an inline filing with different orders of sets. *)
From Coq Require Import QArith Permutation.
From Verif Require Import Base QNameModel ErrBase ErrTable ErrModel NumModel DateModel CtxModel CtxProofs InlineModel InlineSpec InlineProofs InlineStepProofs InlineReportSpec InlineDocProofs
  InlineFrame InlineFilingModel InlineFilingSpec InlineFilingProofs InlineFootProofs InlineContProofs.
From Verif Require TextModel TextProofs FootModel FootSpec FootProofs FilingModel FilingStages.
Local Open Scope nat_scope.
Local Opaque u create insert.

(** ** Computations that do alike *)

Definition like (s1 s2 : state) : Prop :=
  Forall2 alike (s_errors s1) (s_errors s2) /\ s_chars s1 = s_chars s2 /\ s_aspects s1 = s_aspects s2 /\ s_facts s1 = s_facts s2.
Definition do_alike {A} (R : A -> A -> Prop) (m1 m2 : M A) : Prop :=
  forall s1 s2, like s1 s2 -> forall a1 s1' a2 s2', m1 s1 = Ok (a1, s1') -> m2 s2 = Ok (a2, s2') -> R a1 a2 /\ like s1' s2'.

Lemma alike_refl l : Forall2 alike l l.
Proof. induction l; constructor; [left; reflexivity|assumption]. Qed.
Lemma like_refl s : like s s.
Proof. split; [apply alike_refl|auto]. Qed.

Lemma framed_alike {A} (m : M A) : framed m -> do_alike eq m m.
Proof.
  intros F [e1 c1 p1 f1] [e2 c2 p2 f2] (He & Hc & Hp & Hf) a1 s1' a2 s2'. cbn [s_errors s_chars s_aspects s_facts] in *. subst.
  pose proof (F e1 (State [] c2 p2 f2)) as F1. pose proof (F e2 (State [] c2 p2 f2)) as F2. unfold after in F1, F2. cbn [s_errors s_chars s_aspects s_facts] in F1, F2.
  rewrite app_nil_r in F1, F2. rewrite F1, F2. clear F1 F2. destruct (m (State [] c2 p2 f2)) as [[a s']|er]; cbv beta iota; intros E1 E2; [|discriminate E1]. injection E1 as <- <-. injection E2 as <- <-.
  split; [reflexivity|]. split; cbn [s_errors s_chars s_aspects s_facts]; [|auto]. apply Forall2_app; [exact He|apply alike_refl].
Qed.
Lemma alike_bind {A B} R R' (m1 m2 : M A) (g1 g2 : A -> M B) : do_alike R m1 m2 -> (forall a1 a2, R a1 a2 -> do_alike R' (g1 a1) (g2 a2)) -> do_alike R' (mbind m1 g1) (mbind m2 g2).
Proof.
  intros H H' s1 s2 L b1 s1' b2 s2'. unfold mbind. destruct (m1 s1) as [[a1 t1]|] eqn:E1; [|discriminate]. destruct (m2 s2) as [[a2 t2]|] eqn:E2; [|discriminate].
  destruct (H s1 s2 L _ _ _ _ E1 E2) as [HR L']. intros E3 E4. exact (H' _ _ HR t1 t2 L' _ _ _ _ E3 E4).
Qed.
Lemma alike_lift {A} (R : A -> A -> Prop) (r1 r2 : res A) : (forall a1 a2, r1 = Ok a1 -> r2 = Ok a2 -> R a1 a2) -> do_alike R (lift r1) (lift r2).
Proof.
  intros H s1 s2 L a1 s1' a2 s2'. unfold lift. destruct r1 as [x|]; [|discriminate]. destruct r2 as [y|]; [|discriminate].
  intros [= <- <-] [= <- <-]. split; [apply H; reflexivity|exact L].
Qed.
Lemma alike_ret {A} (R : A -> A -> Prop) a1 a2 : R a1 a2 -> do_alike R (ret a1) (ret a2).
Proof. intros H s1 s2 L b1 s1' b2 s2' [= <- <-] [= <- <-]. auto. Qed.
Lemma alike_add l1 l2 : Forall2 alike l1 l2 -> do_alike eq (add_errors l1) (add_errors l2).
Proof.
  intros H s1 s2 (L & Hc & Hp & Hf) b1 s1' b2 s2' [= <- <-] [= <- <-]. split; [reflexivity|]. split; cbn [s_errors s_chars s_aspects s_facts]; [|auto].
  apply Forall2_app; assumption.
Qed.

(** ** Continuations *)

Definition kinds_alike (k1 k2 : string * xml * list (str * str)) : Prop :=
  k1 = k2 \/ fst (fst k1) = fst (fst k2) /\ fst (fst k1) = "IXBRL_UNUSED_CONTINUATION_ELEMENTS"%string.
Lemma insert_made {A} (es es' : repo A) code x kw : insert es code x kw = Ok es' -> exists er, create code x kw = Ok er /\ es' = es ++ [er].
Proof. Local Transparent insert. unfold insert. destruct (create code x kw) as [er|]; [|discriminate]. intros [= <-]. eauto. Local Opaque insert. Qed.
Lemma alike_report code x y kw kw' : x = y \/ code = "IXBRL_UNUSED_CONTINUATION_ELEMENTS"%string -> do_alike eq (report code x kw) (report code y kw').
Proof.
  intros Hxy s1 s2 (L & Hc & Hp & Hf) b1 s1' b2 s2'. unfold report. destruct (insert (s_errors s1) code (Some x) kw) as [l1|] eqn:E1; [|discriminate].
  destruct (insert (s_errors s2) code (Some y) kw') as [l2|] eqn:E2; [|discriminate]. intros [= <- <-] [= <- <-]. split; [reflexivity|].
  apply insert_made in E1 as (x1 & C1 & ->). apply insert_made in E2 as (x2 & C2 & ->).
  split; cbn [s_errors s_chars s_aspects s_facts]; [|auto]. apply Forall2_app; [exact L|]. constructor; [|constructor]. right.
  exists code, (Some x), (Some y), kw, kw'. split; [exact C1|]. split; [exact C2|]. destruct Hxy; [left; congruence|auto].
Qed.
Lemma alike_kinds ks1 ks2 : Forall2 kinds_alike ks1 ks2 ->
  do_alike eq (for_each (fun k => report (fst (fst k)) (snd (fst k)) (snd k)) ks1) (for_each (fun k => report (fst (fst k)) (snd (fst k)) (snd k)) ks2).
Proof.
  induction 1 as [|[[c1 x1] d1] [[c2 x2] d2] ks1 ks2 H _ IH]; cbn [for_each]; [apply alike_ret; reflexivity|].
  eapply alike_bind; [|intros _ _ _; exact IH]. cbn [fst snd]. unfold kinds_alike in H. cbn [fst snd] in H. destruct H as [[= <- <- <-]|[<- ->]]; apply alike_report; auto.
Qed.

Lemma unused_known fuel roots taken cs errs tk l : chains fuel roots taken = Some (cs, errs, tk) -> In (TextModel.Unused l) errs ->
  l <> [] /\ forall i, In i l -> exists c, dict_get str_eqb (TextModel.continuation_index (map (celem_of (all_places roots)) (cont_places roots))) i = Some c.
Proof.
  intros E Hl. unfold chains, TextModel.create_continuation_chains in E. destruct (TextModel.check_continuation_ids _ _) as [errs0 tk0] eqn:E0.
  destruct (TextModel.chains_loop _ _ _ _ _ _) as [[[chs0 used] errs1]|] eqn:El; [|discriminate]. injection E as _ <- _.
  pose proof (chains_loop_kinds _ _ _ _ _ _ _ El l) as K. cbn [snd] in K. apply in_app_iff in Hl as [Hl|Hl].
  - exfalso. apply K in Hl. clear -E0 Hl. unfold TextModel.check_continuation_ids in E0.
    pose proof (checked_ids roots (cont_places roots) [] taken (TextModel.Unused l)) as K. rewrite E0 in K. cbn [fst] in K.
    apply K in Hl as [[]|[(p & _ & _ & [=])|(a & p & b & i & _ & _ & _ & [=])]].
  - apply in_app_iff in Hl as [Hl|Hl]; [apply descendant_kind in Hl as (d & pa & [=])|].
    match goal with K : In _ (match ?l with _ => _ end) |- _ => destruct l eqn:Ef end; [destruct Hl|]. destruct Hl as [[= <-]|[]]. split; [discriminate|].
    intros i Hi. rewrite <- Ef in Hi. apply filter_In in Hi as [Hi _]. destruct (dict_get _ _ i) as [c|] eqn:Ec; [eauto|]. exfalso.
    apply (dict_get_none _ str_eqb_spec) in Ec. exact (Ec Hi).
Qed.

Section Sets.
Variables uri : str -> bool.
Variable float : str -> option Q.
Variables set1 set2 : list str -> list str.
Variables repr1 repr2 : list str -> str.
Hypothesis H1 : FootSpec.lists_sets set1.
Hypothesis H2 : FootSpec.lists_sets set2.
Let e1 := FootModel.Env uri float set1 repr1.
Let e2 := FootModel.Env uri float set2 repr2.

Lemma reports_alike roots errs : 
  (forall l, In (TextModel.Unused l) errs -> l <> [] /\ forall i, In i l -> exists c, dict_get str_eqb (TextModel.continuation_index (map (celem_of (all_places roots)) (cont_places roots))) i = Some c) ->
  Forall2 kinds_alike (flat_map (chain_report e1 (all_places roots) (cont_places roots)) errs) (flat_map (chain_report e2 (all_places roots) (cont_places roots)) errs).
Proof.
  assert (R : forall l, Forall2 kinds_alike l l) by (induction l; constructor; [left; reflexivity|assumption]).
  induction errs as [|r errs IH]; intros H; [constructor|]. cbn [flat_map]. apply Forall2_app; [|apply IH; intros l Hl; apply H; right; exact Hl].
  destruct r as [k|k id|k id|k id|k pa|ids]; try apply R. destruct (H ids (or_introl eq_refl)) as [Hn Hk].
  assert (G : forall e, FootSpec.lists_sets (FootModel.e_set e) -> exists x kw, chain_report e (all_places roots) (cont_places roots) (TextModel.Unused ids) = [("IXBRL_UNUSED_CONTINUATION_ELEMENTS"%string, x, kw)]).
  { intros e He. cbn [chain_report]. destruct (He ids) as [_ Hin]. destruct (FootModel.e_set e ids) as [|i rest] eqn:Es.
    { exfalso. destruct ids as [|i ids]; [auto|]. assert (In i []) as [] by (apply Hin; left; reflexivity). }
    destruct (Hk i) as (c & Ec); [apply Hin; left; reflexivity|]. rewrite Ec. eauto. }
  destruct (G e1 H1) as (x1 & kw1 & ->), (G e2 H2) as (x2 & kw2 & ->). constructor; [|constructor]. right. auto.
Qed.
Lemma continuations_alike fuel1 fuel2 roots taken :
  do_alike eq (check_continuations (continuations e1 fuel1 roots) taken) (check_continuations (continuations e2 fuel2 roots) taken).
Proof.
  unfold check_continuations, continuations. destruct (chains fuel1 roots taken) as [[[cs1 errs1] tk1]|] eqn:E1; [|intros s1 s2 _ a1 s1' a2 s2'; discriminate].
  destruct (chains fuel2 roots taken) as [[[cs2 errs2] tk2]|] eqn:E2; [|intros s1 s2 _ a1 s1' a2 s2' _; discriminate].
  pose proof (chains_same _ _ _ _ _ _ E1 E2) as K. injection K as <- <- <-. eapply alike_bind; [apply alike_kinds, reports_alike|].
  - intros l Hl. eapply unused_known; eassumption.
  - intros _ _ _. apply alike_ret. reflexivity.
Qed.
Lemma inline_alike pd rep pf ev fuel1 fuel2 roots docs :
  do_alike eq (parse_inline pd rep pf ev (continuations e1 fuel1 roots) docs) (parse_inline pd rep pf ev (continuations e2 fuel2 roots) docs).
Proof.
  unfold parse_inline. eapply alike_bind; [apply framed_alike, fr_headers|]. intros h _ <-.
  eapply alike_bind; [apply framed_alike, fr_references|]. intros t _ <-.
  eapply alike_bind; [apply framed_alike, fr_resources|]. intros r _ <-.
  eapply alike_bind; [apply framed_alike, fr_contexts|]. intros tc _ <-.
  eapply alike_bind; [apply framed_alike, fr_units|]. intros t2 _ <-.
  eapply alike_bind; [apply framed_alike, fr_hidden|]. intros _ _ _.
  eapply alike_bind; [apply continuations_alike|]. intros t3 _ <-.
  eapply alike_bind; [apply framed_alike, fr_facts|]. intros tf _ <-. apply alike_ret. reflexivity.
Qed.

(** ** Footnotes *)

Definition codes_alike {A} (a b : error A) : Prop := exists code x y kw kw', create code x kw = Ok a /\ create code y kw' = Ok b.
Lemma insert_codes {A} (es1 es2 es1' es2' : repo A) code x y kw kw' : Forall2 codes_alike es1 es2 ->
  insert es1 code x kw = Ok es1' -> insert es2 code y kw' = Ok es2' -> Forall2 codes_alike es1' es2'.
Proof.
  intros H E1 E2. apply insert_made in E1 as (x1 & C1 & ->). apply insert_made in E2 as (x2 & C2 & ->). apply Forall2_app; [exact H|].
  constructor; [|constructor]. exists code, x, y, kw, kw'. auto.
Qed.
Definition arcs_alike (a b : FootModel.arc) : Prop :=
  (forall i, In i (FootModel.a_from a) <-> In i (FootModel.a_from b)) /\ (forall i, In i (FootModel.a_to a) <-> In i (FootModel.a_to b)) /\
  FootModel.a_arcrole a = FootModel.a_arcrole b /\ FootModel.a_linkrole a = FootModel.a_linkrole b /\ FootModel.a_order a = FootModel.a_order b.

Lemma existsb_same {A} (p q : A -> bool) l l' : (forall i, In i l <-> In i l') -> (forall i, p i = q i) -> existsb p l = existsb q l'.
Proof.
  intros H Hp. apply eq_true_iff_eq. rewrite !existsb_exists. split; intros (x & Hx & E); exists x; (split; [apply H, Hx|]); [rewrite <- Hp|rewrite Hp]; exact E.
Qed.
Lemma forallb_same {A} (p : A -> bool) l l' : (forall i, In i l <-> In i l') -> forallb p l = forallb p l'.
Proof. intros H. apply eq_true_iff_eq. rewrite !forallb_forall. split; intros K x Hx; apply K, H, Hx. Qed.
Lemma filter_empty {A} (p : A -> bool) l l' : (forall i, In i l <-> In i l') -> (filter p l = [] <-> filter p l' = []).
Proof.
  assert (G : forall l l', (forall i, In i l <-> In i l') -> filter p l = [] -> filter p l' = []).
  { clear. intros l l' H E. destruct (filter p l') as [|x r] eqn:Ef; [reflexivity|]. exfalso.
    assert (Hx : In x (filter p l')) by (rewrite Ef; left; reflexivity). apply filter_In in Hx as [Hx Px].
    assert (K : In x (filter p l)) by (apply filter_In; split; [apply H, Hx|exact Px]). rewrite E in K. exact K. }
  intros H. split; apply G; [exact H|intros i; symmetry; apply H].
Qed.

Lemma refs_alike from1 from2 to1 to2 : (forall i, In i from1 <-> In i from2) -> (forall i, In i to1 <-> In i to2) ->
  forall ns fs x es1 es2 es1' es2', Forall2 codes_alike es1 es2 ->
  FootModel.validate_refs e1 x from1 to1 ns fs es1 = Ok es1' -> FootModel.validate_refs e2 x from2 to2 ns fs es2 = Ok es2' -> Forall2 codes_alike es1' es2'.
Proof.
  intros Hf Ht ns fs x es1 es2 es1' es2' H. unfold FootModel.validate_refs.
  assert (Eq : existsb (fun i => FootModel.mem i to1) from1 = existsb (fun i => FootModel.mem i to2) from2)
    by (apply existsb_same; [exact Hf|intros i; apply existsb_same; [exact Ht|reflexivity]]).
  rewrite Eq. clear Eq. intros E1 E2.
  match type of E1 with bind ?m _ = _ => destruct m as [a1|] eqn:A1; [|discriminate E1] end.
  match type of E2 with bind ?m _ = _ => destruct m as [a2|] eqn:A2; [|discriminate E2] end. cbn [bind] in E1, E2.
  assert (Ha : Forall2 codes_alike a1 a2) by (destruct (existsb _ _); [eapply insert_codes; eassumption|congruence]). clear H A1 A2 es1 es2.
  pose proof (filter_empty (fun i => negb (dict_mem str_eqb fs i)) _ _ Hf) as Kf.
  match type of E1 with bind ?m _ = _ => destruct m as [b1|] eqn:B1; [|discriminate E1] end.
  match type of E2 with bind ?m _ = _ => destruct m as [b2|] eqn:B2; [|discriminate E2] end. cbn [bind] in E1, E2.
  assert (Hb : Forall2 codes_alike b1 b2).
  { destruct (filter (fun i => negb (dict_mem str_eqb fs i)) from1), (filter (fun i => negb (dict_mem str_eqb fs i)) from2).
    - congruence.
    - discriminate (proj1 Kf eq_refl).
    - discriminate (proj2 Kf eq_refl).
    - eapply insert_codes; eassumption. }
  clear Ha B1 B2 a1 a2 Kf.
  pose proof (filter_empty (fun i => negb (dict_mem str_eqb fs i) && negb (dict_mem str_eqb ns i)) _ _ Ht) as Kt.
  match type of E1 with bind ?m _ = _ => destruct m as [c1|] eqn:C1; [|discriminate E1] end.
  match type of E2 with bind ?m _ = _ => destruct m as [c2|] eqn:C2; [|discriminate E2] end. cbn [bind] in E1, E2.
  assert (Hc : Forall2 codes_alike c1 c2).
  { destruct (filter (fun i => negb (dict_mem str_eqb fs i) && negb (dict_mem str_eqb ns i)) to1), (filter (fun i => negb (dict_mem str_eqb fs i) && negb (dict_mem str_eqb ns i)) to2).
    - congruence.
    - discriminate (proj1 Kt eq_refl).
    - discriminate (proj2 Kt eq_refl).
    - eapply insert_codes; eassumption. }
  rewrite (existsb_same _ (dict_mem str_eqb ns) _ _ Ht), (forallb_same _ _ _ Ht) in E1 by reflexivity.
  destruct (existsb _ _ && _); [eapply insert_codes; eassumption|congruence].
Qed.
Lemma attributes_alike x es1 es2 a1 l1 o1 es1' a2 l2 o2 es2' : Forall2 codes_alike es1 es2 ->
  FootModel.parse_attributes e1 x es1 = Ok (a1, l1, o1, es1') -> FootModel.parse_attributes e2 x es2 = Ok (a2, l2, o2, es2') ->
  a1 = a2 /\ l1 = l2 /\ o1 = o2 /\ Forall2 codes_alike es1' es2'.
Proof.
  intros H. unfold FootModel.parse_attributes, e1, e2. cbn [FootModel.e_uri FootModel.e_float]. intros E1 E2.
  match type of E1 with bind ?m _ = _ => destruct m as [[x1 b1]|] eqn:B1; [|discriminate E1] end.
  match type of E2 with bind ?m _ = _ => destruct m as [[x2 b2]|] eqn:B2; [|discriminate E2] end. cbn [bind] in E1, E2.
  assert (Hb : x1 = x2 /\ Forall2 codes_alike b1 b2).
  { destruct (FootModel.given (FootModel.r_arcrole x)) as [s|]; [destruct (uri s)|]; [split; congruence| |split; congruence].
    match type of B1 with bind ?m _ = _ => destruct m as [i1|] eqn:I1; [|discriminate B1] end. match type of B2 with bind ?m _ = _ => destruct m as [i2|] eqn:I2; [|discriminate B2] end. cbn [bind] in B1, B2.
    injection B1 as <- <-. injection B2 as <- <-. split; [reflexivity|eapply insert_codes; eassumption]. }
  destruct Hb as [<- Hb]. clear B1 B2 H es1 es2.
  match type of E1 with bind ?m _ = _ => destruct m as [[y1 c1]|] eqn:C1; [|discriminate E1] end.
  match type of E2 with bind ?m _ = _ => destruct m as [[y2 c2]|] eqn:C2; [|discriminate E2] end. cbn [bind] in E1, E2.
  assert (Hc : y1 = y2 /\ Forall2 codes_alike c1 c2).
  { destruct (FootModel.given (FootModel.r_linkrole x)) as [s|]; [destruct (uri s)|]; [split; congruence| |split; congruence].
    match type of C1 with bind ?m _ = _ => destruct m as [i1|] eqn:I1; [|discriminate C1] end. match type of C2 with bind ?m _ = _ => destruct m as [i2|] eqn:I2; [|discriminate C2] end. cbn [bind] in C1, C2.
    injection C1 as <- <-. injection C2 as <- <-. split; [reflexivity|eapply insert_codes; eassumption]. }
  destruct Hc as [<- Hc]. clear C1 C2 Hb b1 b2.
  destruct (FootModel.given (FootModel.r_order x)) as [s|]; [destruct (float s) as [q|]|]; cbn [bind] in E1, E2.
  - injection E1 as <- <- <- <-. injection E2 as <- <- <- <-. auto.
  - destruct (insert c1 _ _ _) as [i1|]; discriminate E1.
  - discriminate E1.
Qed.
Lemma relationship_alike ns fs x a1 es1 a2 es2 :
  FootModel.parse_relationship e1 ns fs x [] = Ok (a1, es1) -> FootModel.parse_relationship e2 ns fs x [] = Ok (a2, es2) ->
  arcs_alike a1 a2 /\ Forall2 codes_alike es1 es2.
Proof.
  unfold FootModel.parse_relationship, FootModel.parse_refs. intros E1 E2.
  assert (C : forall es : FootModel.erepo, (exists l, Forall2 (fun k er => create (fst (fst k)) (snd (fst k)) (snd k) = Ok er) l es) -> Forall2 codes_alike es es).
  { intros es (l & Hl). induction Hl as [|k er l es Hk _ IH]; constructor; [|exact IH]. exists (fst (fst k)), (snd (fst k)), (snd (fst k)), (snd k), (snd k). auto. }
  match type of E1 with bind (bind ?m _) _ = _ => destruct m as [[w es]|] eqn:B; [|discriminate E1] end. cbn [bind] in E1, E2.
  assert (Hb : Forall2 codes_alike es es).
  { apply C. destruct (FootModel.given (FootModel.r_from x)); [injection B as _ <-; exists []; constructor|].
    destruct (insert [] _ _ _) as [i|] eqn:I; [|discriminate]. injection B as _ <-. apply insert_made in I as (er & I & ->).
    eexists [(_, _, _)]. constructor; [exact I|constructor]. }
  match type of E1 with bind (bind ?m _) _ = _ => destruct m as [[w' es']|] eqn:B'; [|discriminate E1] end. cbn [bind] in E1, E2.
  assert (Hb' : Forall2 codes_alike es' es').
  { destruct (FootModel.given (FootModel.r_to x)); [injection B' as _ <-; exact Hb|].
    destruct (insert es _ _ _) as [i|] eqn:I; [|discriminate]. injection B' as _ <-. eapply insert_codes; eassumption. }
  clear Hb B B' es. cbn [FootModel.e_set e1 e2] in E1, E2.
  destruct (FootModel.validate_refs e1 _ _ _ _ _ _) as [v1|] eqn:V1; [|discriminate E1]. destruct (FootModel.validate_refs e2 _ _ _ _ _ _) as [v2|] eqn:V2; [|discriminate E2]. cbn [bind] in E1, E2.
  assert (S : forall l i, In i (set1 l) <-> In i (set2 l)) by (intros l i; rewrite (proj2 (H1 l)), (proj2 (H2 l)); reflexivity).
  pose proof (refs_alike _ _ _ _ (S _) (S _) _ _ _ _ _ _ _ Hb' V1 V2) as Hv.
  destruct (FootModel.parse_attributes e1 x v1) as [[[[ar1 l1] o1] w1]|] eqn:W1; [|discriminate E1]. destruct (FootModel.parse_attributes e2 x v2) as [[[[ar2 l2] o2] w2]|] eqn:W2; [|discriminate E2].
  cbn [bind] in E1, E2. destruct (attributes_alike _ _ _ _ _ _ _ _ _ _ _ Hv W1 W2) as (<- & <- & <- & Hw). injection E1 as <- <-. injection E2 as <- <-.
  split; [|exact Hw]. split; [apply S|]. split; [apply S|]. auto.
Qed.
Lemma about_alike x es1 es2 : Forall2 (@codes_alike FootModel.felem) es1 es2 -> Forall2 alike (map (about x) es1) (map (about x) es2).
Proof.
  induction 1 as [|a b l l' (code & y & z & kw & kw' & C1 & C2) _ IH]; cbn [map]; constructor; [|exact IH]. right. exists code, (Some x), (Some x), kw, kw'.
  assert (G : forall y (er : error FootModel.felem) kw, create code y kw = Ok er -> create code (Some x) kw = Ok (about x er)).
  { clear. Local Transparent create. intros y er kw. unfold create. destruct (dict_get _ _ _) as [en|]; [|discriminate]. destruct (update_message _ _) as [m|]; [|discriminate].
    cbn [bind]. intros [= <-]. reflexivity. Local Opaque create. }
  split; [eapply G, C1|]. split; [eapply G, C2|]. auto.
Qed.
Lemma arcs_read_alike ns fs xs : do_alike (Forall2 arcs_alike) (read_arcs e1 ns fs xs) (read_arcs e2 ns fs xs).
Proof.
  induction xs as [|x xs IH]; cbn [read_arcs]; [apply alike_ret; constructor|].
  eapply alike_bind with (R := fun r1 r2 => arcs_alike (fst r1) (fst r2) /\ Forall2 codes_alike (snd r1) (snd r2)).
  { apply alike_lift. intros [a1 es1] [a2 es2] E1 E2. exact (relationship_alike _ _ _ _ _ _ _ E1 E2). }
  intros r1 r2 [Ha He]. eapply alike_bind; [apply alike_add, about_alike, He|]. intros _ _ _.
  eapply alike_bind; [exact IH|]. intros l1 l2 Hl. apply alike_ret. constructor; assumption.
Qed.

Lemma group_alike l1 l2 : Forall2 arcs_alike l1 l2 ->
  Forall2 (fun g1 g2 => fst g1 = fst g2 /\ Forall2 arcs_alike (snd g1) (snd g2)) (FootModel.group l1) (FootModel.group l2).
Proof.
  unfold FootModel.group. assert (G : forall l1 l2, Forall2 arcs_alike l1 l2 -> forall d1 d2 : list (str * str * list FootModel.arc),
    Forall2 (fun g1 g2 => fst g1 = fst g2 /\ Forall2 arcs_alike (snd g1) (snd g2)) d1 d2 ->
    Forall2 (fun g1 g2 => fst g1 = fst g2 /\ Forall2 arcs_alike (snd g1) (snd g2))
      (fold_left (fun d a => let k := (FootModel.a_linkrole a, FootModel.a_arcrole a) in
         dict_set FootModel.key_eqb d k (match dict_get FootModel.key_eqb d k with Some l => l | None => [] end ++ [a])) l1 d1)
      (fold_left (fun d a => let k := (FootModel.a_linkrole a, FootModel.a_arcrole a) in
         dict_set FootModel.key_eqb d k (match dict_get FootModel.key_eqb d k with Some l => l | None => [] end ++ [a])) l2 d2)); [|intros H; exact (G _ _ H _ _ (Forall2_nil _))].
  clear l1 l2. induction 1 as [|a b l1 l2 Hab _ IH]; intros d1 d2 Hd; [exact Hd|]. cbn [fold_left]. apply IH. clear IH. cbv zeta.
  destruct Hab as (Hf & Ht & Ea & El & Eo). rewrite Ea, El. set (k := (FootModel.a_linkrole b, FootModel.a_arcrole b)).
  assert (Hab : arcs_alike a b) by (repeat split; try assumption; apply Hf || apply Ht).
  assert (Hg : Forall2 arcs_alike (match dict_get FootModel.key_eqb d1 k with Some l => l | None => [] end ++ [a]) (match dict_get FootModel.key_eqb d2 k with Some l => l | None => [] end ++ [b])).
  { apply Forall2_app; [|constructor; [exact Hab|constructor]]. clear -Hd. induction Hd as [|[k1 v1] [k2 v2] d1 d2 [E Hv] _ IH]; [constructor|]. cbn [fst snd] in *. subst k2.
    cbn [dict_get]. destruct (FootModel.key_eqb k1 k); [exact Hv|exact IH]. }
  revert Hg. match goal with |- Forall2 _ ?x ?y -> _ => generalize x, y end. clear -Hd. intros x y Hxy.
  induction Hd as [|[k1 v1] [k2 v2] d1 d2 [E Hv] Hd IH]; cbn [dict_set]; [constructor; [auto|constructor]|]. cbn [fst snd] in *. subst k2.
  destruct (FootModel.key_eqb k1 k); constructor; auto.
Qed.
Lemma network_alike ns fs arcs1 arcs2 l nw1 nw2 : Forall2 arcs_alike arcs1 arcs2 ->
  FootModel.build_network e1 ns fs arcs1 l = Ok nw1 -> FootModel.build_network e2 ns fs arcs2 l = Ok nw2 -> networks_alike nw1 nw2.
Proof.
  intros Ha. unfold FootModel.build_network, FootModel.create_nodes. cbv zeta. cbn [FootModel.e_set e1 e2].
  assert (P : Permutation (set1 (filter (fun i => negb (FootModel.mem i (flat_map FootModel.a_to arcs1))) (flat_map (fun a => FootModel.a_from a ++ FootModel.a_to a) arcs1)))
                          (set2 (filter (fun i => negb (FootModel.mem i (flat_map FootModel.a_to arcs2))) (flat_map (fun a => FootModel.a_from a ++ FootModel.a_to a) arcs2)))).
  { destruct (H1 (filter (fun i => negb (FootModel.mem i (flat_map FootModel.a_to arcs1))) (flat_map (fun a => FootModel.a_from a ++ FootModel.a_to a) arcs1))) as [N1 I1].
    destruct (H2 (filter (fun i => negb (FootModel.mem i (flat_map FootModel.a_to arcs2))) (flat_map (fun a => FootModel.a_from a ++ FootModel.a_to a) arcs2))) as [N2 I2].
    apply NoDup_Permutation; [exact N1|exact N2|]. intros i. rewrite I1, I2, !filter_In.
    assert (M : forall g : FootModel.arc -> list str, (forall a b, arcs_alike a b -> forall i, In i (g a) <-> In i (g b)) -> forall i, In i (flat_map g arcs1) <-> In i (flat_map g arcs2)).
    { clear -Ha. intros g Hg i. induction Ha as [|a b l1 l2 Hab _ IH]; [reflexivity|]. cbn [flat_map]. rewrite !in_app_iff, (Hg _ _ Hab i), IH. reflexivity. }
    rewrite (M (fun a => FootModel.a_from a ++ FootModel.a_to a)) by (intros a b (F & T & _) j; rewrite !in_app_iff, F, T; reflexivity).
    assert (E : FootModel.mem i (flat_map FootModel.a_to arcs1) = FootModel.mem i (flat_map FootModel.a_to arcs2)).
    { apply existsb_same; [|reflexivity]. apply M. intros a b (_ & T & _). exact T. }
    rewrite E. reflexivity. }
  revert P. match goal with |- Permutation ?x ?y -> _ => generalize x, y end. intros r1 r2 P E1 E2.
  destruct (FootModel.add_arcs ns fs r1 arcs1 []) as [d1|]; [|discriminate E1]. destruct (FootModel.add_arcs ns fs r2 arcs2 []) as [d2|]; [|discriminate E2]. cbn [bind] in E1, E2.
  destruct (forallb _ r1); [|discriminate E1]. destruct (forallb _ r2); [|discriminate E2]. cbn [bind] in E1, E2.
  destruct (FootModel.connect d1 _) as [c1|]; [|discriminate E1]. destruct (FootModel.connect d2 _) as [c2|]; [|discriminate E2]. cbn [bind] in E1, E2.
  injection E1 as <-. injection E2 as <-. split; [reflexivity|exact P].
Qed.
Lemma networks_built_alike ns fs arcs1 arcs2 nws1 nws2 : Forall2 arcs_alike arcs1 arcs2 ->
  FootModel.build_networks e1 ns fs arcs1 = Ok nws1 -> FootModel.build_networks e2 ns fs arcs2 = Ok nws2 -> Forall2 networks_alike nws1 nws2.
Proof.
  intros Ha. apply group_alike in Ha. unfold FootModel.build_networks. revert nws1 nws2.
  induction Ha as [|[k1 v1] [k2 v2] g1 g2 [Ek Hv] _ IH]; intros nws1 nws2; cbn [map_res]; [intros [= <-] [= <-]; constructor|]. cbn [fst snd] in *. subst k2.
  destruct (FootModel.build_network e1 _ _ _ _) as [n1|] eqn:N1; [|discriminate]. destruct (FootModel.build_network e2 _ _ _ _) as [n2|] eqn:N2; [|discriminate]. cbn [bind].
  destruct (map_res _ g1) as [m1|]; [|discriminate]. destruct (map_res _ g2) as [m2|]; [|discriminate]. cbn [bind]. intros [= <-] [= <-].
  constructor; [exact (network_alike _ _ _ _ _ _ _ Hv N1 N2)|apply IH; reflexivity].
Qed.
Lemma footnotes_alike tostring fuel1 fuel2 roots r taken fs : chains_of fuel1 roots = chains_of fuel2 roots ->
  do_alike (fun p1 p2 => fst p1 = fst p2 /\ Forall2 networks_alike (snd p1) (snd p2))
    (read_footnotes e1 tostring fuel1 roots r taken fs) (read_footnotes e2 tostring fuel2 roots r taken fs).
Proof.
  intros Ec. unfold read_footnotes. rewrite Ec.
  eapply alike_bind; [apply (framed_alike (parse_role_references e1 r)), fr_for_each|].
  { intros x. unfold parse_role_reference. repeat first [apply fr_lift | apply fr_report | apply fr_when | apply fr_bind | match goal with |- forall _, framed _ => intro end | match goal with |- framed (match ?y with _ => _ end) => destruct y end]. }
  intros _ _ _. eapply alike_bind.
  { apply (framed_alike (read_notes e1 tostring (all_places roots) (chains_of fuel2 roots) (note_places roots) [] taken)).
    generalize (note_places roots), (@nil (str * FootModel.note)), taken. intros ps. induction ps as [|p ps IH]; intros ns t; cbn [read_notes]; [apply fr_ret|].
    apply fr_bind; [apply fr_lift|]. intros n. apply fr_bind; [apply fr_lift|]. intros q. apply fr_bind; [|intros _; apply IH].
    intros es s. unfold add_errors, after. cbn [s_errors s_chars s_aspects s_facts]. rewrite app_assoc. reflexivity. }
  intros ns _ <-. eapply alike_bind; [apply arcs_read_alike|]. intros a1 a2 Ha.
  eapply alike_bind; [apply (alike_lift (Forall2 networks_alike)); intros n1 n2; apply networks_built_alike, Ha|]. intros n1 n2 Hn. apply alike_ret. auto.
Qed.
End Sets.

(** ** The same orders *)

Definition do_same {A} (m1 m2 : M A) : Prop := forall s r1 r2, m1 s = Ok r1 -> m2 s = Ok r2 -> r1 = r2.
Lemma same_refl {A} (m : M A) : do_same m m.
Proof. intros s r1 r2 E1 E2. congruence. Qed.
Lemma same_bind {A B} (m1 m2 : M A) (g1 g2 : A -> M B) : do_same m1 m2 -> (forall a, do_same (g1 a) (g2 a)) -> do_same (mbind m1 g1) (mbind m2 g2).
Proof.
  intros H H' s r1 r2. unfold mbind. destruct (m1 s) as [[a1 t1]|] eqn:E1; [|discriminate]. destruct (m2 s) as [[a2 t2]|] eqn:E2; [|discriminate].
  specialize (H s _ _ E1 E2). injection H as <- <-. apply H'.
Qed.
Lemma inline_same e pd rep pf ev fuel1 fuel2 roots docs :
  do_same (parse_inline pd rep pf ev (continuations e fuel1 roots) docs) (parse_inline pd rep pf ev (continuations e fuel2 roots) docs).
Proof.
  unfold parse_inline. do 6 (apply same_bind; [apply same_refl|intros ?]). apply same_bind; [|intros t; apply same_refl].
  unfold check_continuations, continuations. destruct (chains fuel1 roots _) as [[[cs1 errs1] tk1]|] eqn:E1; [|intros s r1 r2; discriminate].
  destruct (chains fuel2 roots _) as [[[cs2 errs2] tk2]|] eqn:E2; [|intros s r1 r2 _; discriminate].
  pose proof (chains_same _ _ _ _ _ _ E1 E2) as K. injection K as <- <- <-. apply same_refl.
Qed.

(** Reading succeeds only if the chains end. *)
Lemma inline_chains e pd rep pf ev fuel roots docs r taken cs fr s :
  parse_inline pd rep pf ev (continuations e fuel roots) docs empty_state = Ok ((r, (taken, cs, fr)), s) -> exists cr, chains fuel roots [] = Some cr.
Proof.
  intros H. apply parse_inline_all in H as (_ & osc & osu & osf & tu & tk & e1 & e2 & e3 & e6 & e7 & R). destruct R as [_ _ _ _ _ (ks & Ek & _) _ _ _ _ _ _].
  apply continuations_taken in Ek. tauto.
Qed.
Lemma chains_of_same fuel1 fuel2 roots cr1 cr2 : chains fuel1 roots [] = Some cr1 -> chains fuel2 roots [] = Some cr2 -> chains_of fuel1 roots = chains_of fuel2 roots.
Proof. intros E1 E2. unfold chains_of. rewrite E1, E2, (chains_same _ _ _ _ _ _ E1 E2). reflexivity. Qed.
