(** The networks of a whole filing. *)
From Verif Require Import Base Regex QNameModel ErrBase ErrTable ErrModel CtxModel InlineModel NetModel NetSpec NetProofs NetLinkProofs NetCombineProofs NetProps
  LangModel DtsProofs LinkModel LinkSpec LinkProofs LinkLoopProofs.
Local Open Scope nat_scope.
Local Opaque insert create.

(** ** Combination changes only what it combines *)

Definition closed (h : heap) (S : nat -> Prop) : Prop := forall n k, S n -> In k (get_children h n) -> S k.
(** Only nodes of [S] differ, and only in their children. *)
Definition within (S : nat -> Prop) (h h' : heap) : Prop :=
  (forall n, object h' n = object h n) /\ (forall n, ~ S n -> nth_error h' n = nth_error h n).

Lemma within_refl S h : within S h h. Proof. split; auto. Qed.
Lemma within_trans S h1 h2 h3 : within S h1 h2 -> within S h2 h3 -> within S h1 h3.
Proof. intros [A B] [C D]. split; [intros n; rewrite C; apply A|intros n Hn; rewrite (D n Hn); apply B, Hn]. Qed.
Lemma within_more (S T : nat -> Prop) h h' : (forall n, S n -> T n) -> within S h h' -> within T h h'.
Proof. intros HST [A B]. split; [exact A|]. intros n Hn. apply B. auto. Qed.

Lemma closed_reach h S i j : closed h S -> S i -> reach h i j -> S j.
Proof. intros Hc Hi. induction 1 as [|j k _ IH Hk]; [exact Hi|]. apply (Hc j k IH Hk). Qed.
Lemma same_children h h' n : nth_error h' n = nth_error h n -> get_children h' n = get_children h n.
Proof. unfold get_children. intros ->. reflexivity. Qed.
(** What is outside stays closed and shows the same. *)
Lemma within_closed (S T : nat -> Prop) h h' : within S h h' -> (forall n, T n -> ~ S n) -> closed h T -> closed h' T.
Proof. intros [_ W] Hd Hc n k Hn Hk. rewrite (same_children h h' n (W n (Hd n Hn))) in Hk. eauto. Qed.
Lemma within_reach (S T : nat -> Prop) h h' i j : within S h h' -> (forall n, T n -> ~ S n) -> closed h T -> T i -> (reach h' i j <-> reach h i j).
Proof.
  intros W Hd Hc Hi. split.
  - induction 1 as [|j k Hr IH Hk]; [constructor|]. pose proof (closed_reach h T i j Hc Hi IH) as Hj. destruct W as [_ W].
    rewrite (same_children h h' j (W j (Hd j Hj))) in Hk. eapply reach_step; eauto.
  - induction 1 as [|j k Hr IH Hk]; [constructor|]. pose proof (closed_reach h T i j Hc Hi Hr) as Hj. destruct W as [_ W].
    eapply reach_step; [exact IH|]. rewrite (same_children h h' j (W j (Hd j Hj))). exact Hk.
Qed.
Lemma within_shown (S T : nat -> Prop) h h' roots : within S h h' -> (forall n, T n -> ~ S n) -> closed h T -> (forall r, In r roots -> T r) ->
  same_shown h roots h' roots.
Proof.
  intros W Hd Hc Hr. split.
  - intros o. split; intros (r & n & A & B & C); exists r, n; (split; [exact A|]).
    + rewrite (within_reach S T h h' r n W Hd Hc (Hr r A)) in B. rewrite (proj1 W) in C. auto.
    + rewrite (within_reach S T h h' r n W Hd Hc (Hr r A)), (proj1 W). auto.
  - intros o o'. split; intros (r & n & m & A & B & C & D & E); exists r, n, m; (split; [exact A|]).
    + rewrite (within_reach S T h h' r n W Hd Hc (Hr r A)) in B. rewrite (proj1 W) in D, E. split; [exact B|].
      rewrite (same_children h h' n (proj2 W n (Hd n (closed_reach h T r n Hc (Hr r A) B)))) in C. auto.
    + rewrite (within_reach S T h h' r n W Hd Hc (Hr r A)), !(proj1 W). split; [exact B|].
      rewrite (same_children h h' n (proj2 W n (Hd n (closed_reach h T r n Hc (Hr r A) B)))). auto.
Qed.

Lemma give_nth h p r j : j <> p -> nth_error (give h p r) j = nth_error h j.
Proof. intros Hn. unfold give. rewrite nth_add_all, added_give. destruct (Nat.eqb_spec p j); [congruence|]. destruct (nth_error h j); reflexivity. Qed.
Lemma give_within (S : nat -> Prop) h p r : S p -> S r -> closed h S -> p < length h -> within S h (give h p r) /\ closed (give h p r) S.
Proof.
  intros Hp Hr Hc Hlt. split; [split|].
  - intros n. apply object_add_all.
  - intros n Hn. apply give_nth. intros ->. auto.
  - intros n k Hn Hk. apply give_children in Hk as [Hk|[-> Hk]]; [eauto|eauto|exact Hlt].
Qed.

Lemma combine_roots_within (S : nat -> Prop) agg : (forall n, In n agg -> S n) -> forall roots h A h' A', combine_roots h agg A roots = (h', A') ->
  closed h S -> (forall r, In r roots -> S r) -> within S h h' /\ closed h' S.
Proof.
  intros Ha. induction roots as [|r roots IH]; intros h A h' A' H Hc Hr; cbn [combine_roots] in H.
  - injection H as <- _. split; [apply within_refl|exact Hc].
  - destruct (find (fun n => nodes_equal h n r) agg) as [p|] eqn:E.
    + apply find_some in E as [Hin He]. fold (give h p r) in H. destruct (nodes_equal_object _ _ _ He) as (o & Ho & _).
      destruct (give_within S h p r (Ha p Hin) (Hr r (or_introl eq_refl)) Hc (object_lt _ _ _ Ho)) as [W1 C1].
      destruct (IH _ _ _ _ H C1 (fun r' Hr' => Hr r' (or_intror Hr'))) as [W2 C2]. split; [eapply within_trans; eassumption|exact C2].
    + apply (IH _ _ _ _ H Hc (fun r' Hr' => Hr r' (or_intror Hr'))).
Qed.
Lemma combine_loop_within (S : nat -> Prop) fuel shuffle : some_order shuffle -> forall networks h A h' A', combine_loop fuel shuffle h A networks = Some (h', A') ->
  closed h S -> (forall r, In r A -> S r) -> (forall r, In r (concat networks) -> S r) -> within S h h' /\ closed h' S.
Proof.
  intros Hs. induction networks as [|roots networks IH]; intros h A h' A' H Hc HA Hr; cbn [combine_loop] in H.
  - injection H as <- _. split; [apply within_refl|exact Hc].
  - destruct (all_descendants fuel h A) as [agg|] eqn:E; [|discriminate]. destruct (combine_roots h (shuffle agg) A roots) as [h1 A1] eqn:E1.
    assert (Hagg : forall n, In n (shuffle agg) -> S n).
    { intros n Hn. apply (Permutation_in _ (Permutation_sym (Hs agg))) in Hn. apply (all_descendants_in _ _ _ _ E) in Hn as (q & Hq & Hqn). eapply closed_reach; eauto. }
    assert (Hroots : forall r, In r roots -> S r) by (intros r Hin; apply Hr; cbn; apply in_or_app; auto).
    destruct (combine_roots_within S (shuffle agg) Hagg _ _ _ _ _ E1 Hc Hroots) as [W1 C1].
    destruct (combine_roots_spec _ _ _ _ _ _ [] E1) as (_ & _ & _ & m & -> & Hm).
    { intros n Hn. apply (all_descendants_in _ _ _ _ E). apply (Permutation_in _ (Permutation_sym (Hs agg))), Hn. }
    destruct (IH _ _ _ _ H C1) as [W2 C2].
    + intros r Hin. apply in_app_or in Hin as [Hin|Hin]; [auto|]. apply Hroots, Hm, Hin.
    + intros r Hin. apply Hr. cbn. apply in_or_app. auto.
    + split; [eapply within_trans; eassumption|exact C2].
Qed.
Lemma combine_within (S : nat -> Prop) fuel shuffle h networks h' roots : some_order shuffle -> combine_networks fuel shuffle h networks = Ok (h', roots) ->
  closed h S -> (forall r, In r (concat networks) -> S r) -> within S h h' /\ closed h' S /\ (forall r, In r roots -> S r) /\
  same_shown h (concat networks) h' roots.
Proof.
  intros Hs H Hc Hr. unfold combine_networks in H.
  assert (Hrev : forall x, In x (concat (rev networks)) <-> In x (concat networks)).
  { intros x. rewrite !in_concat. split; intros (l & Hl & Hx); exists l; (split; [|exact Hx]); [apply in_rev, Hl|apply in_rev in Hl; exact Hl]. }
  destruct (rev networks) as [|a [|b rest]]; [discriminate| |].
  - injection H as <- <-. cbn in Hrev. rewrite app_nil_r in Hrev. split; [apply within_refl|]. split; [exact Hc|].
    split; [intros r Hin; apply Hr, Hrev, Hin|]. apply same_shown_roots. intros x. symmetry. apply Hrev.
  - destruct (combine_loop fuel shuffle h a (b :: rest)) as [[h1 r1]|] eqn:E; [|discriminate]. injection H as <- <-.
    destruct (combine_loop_spec fuel shuffle Hs _ _ _ _ _ E) as (S' & _ & _ & m & -> & Hm).
    assert (HA : forall r, In r a -> S r) by (intros r Hin; apply Hr, Hrev; cbn [concat]; apply in_or_app; auto).
    assert (HB : forall r, In r (concat (b :: rest)) -> S r) by (intros r Hin; apply Hr, Hrev; cbn [concat] in *; apply in_or_app; auto).
    destruct (combine_loop_within S fuel shuffle Hs _ _ _ _ _ E Hc HA HB) as [W C]. split; [exact W|]. split; [exact C|]. split.
    + intros r Hin. apply in_app_or in Hin as [Hin|Hin]; auto.
    + eapply same_shown_trans; [|exact S']. apply same_shown_roots. intros x. rewrite <- Hrev. reflexivity.
Qed.

(** ** A row of combinations *)

Lemma Forall2_impl_l {A B} (P Q : A -> B -> Prop) l l' : (forall a b, In a l -> P a b -> Q a b) -> Forall2 P l l' -> Forall2 Q l l'.
Proof. intros H F. induction F as [|a b l l' Hab _ IH]; constructor; [apply H; [left; reflexivity|exact Hab]|]. apply IH. intros x y Hx. apply H. right. exact Hx. Qed.

Section Combine.
Variable fuel : nat.
Variable shuffle : list nat -> list nat.
Hypothesis Hshuffle : some_order shuffle.

Inductive comb : list (list net) -> heap -> list net -> heap -> Prop :=
| comb_nil h : comb [] h [] h
| comb_cons g gs h h1 roots w pre ws h2 : combine_networks fuel shuffle h (map w_roots g) = Ok (h1, roots) -> g = pre ++ [w] ->
    comb gs h1 ws h2 -> comb (g :: gs) h (Net (w_kind w) (w_role w) roots :: ws) h2.

Lemma comb_app gs1 gs2 h ws1 h1 ws2 h2 : comb gs1 h ws1 h1 -> comb gs2 h1 ws2 h2 -> comb (gs1 ++ gs2) h (ws1 ++ ws2) h2.
Proof. intros H. revert gs2 ws2 h2. induction H; intros; cbn; [assumption|]. econstructor; eauto. Qed.

Lemma combine_groups_comb : forall gs h ws h', combine_groups fuel shuffle gs h = Ok (ws, h') -> comb (map snd gs) h ws h'.
Proof.
  induction gs as [|[c g] gs IH]; intros h ws h' H; cbn [combine_groups] in H; [injection H as <- <-; constructor|].
  apply bind_ok in H as ([h1 roots] & H1 & H). cbn [fst snd] in H. destruct (rev g) as [|w pre] eqn:E; [discriminate|].
  apply bind_ok in H as ([ws2 h2] & H2 & H). cbn [fst snd] in H. injection H as <- <-. cbn [map snd].
  eapply comb_cons; [exact H1| |apply IH, H2]. rewrite <- (rev_involutive g), E. reflexivity.
Qed.
Definition logical (w : net) : bool := negb (physical w).
Definition groups_of (d : by_role) : list (list net) := flat_map (fun p => map snd (group (filter logical (snd p)))) d.
Lemma comb_kinds gs h ws h' : comb gs h ws h' -> (forall g w, In g gs -> In w g -> logical w = true) -> forall w, In w ws -> logical w = true.
Proof.
  induction 1 as [|g gs h h1 roots w pre ws h2 _ E _ IH]; intros Hg w'; [intros []|]. intros [<-|Hw].
  - assert (Hl : logical w = true) by (apply (Hg g); [left; reflexivity|rewrite E; apply in_or_app; right; left; reflexivity]). exact Hl.
  - apply IH; [|exact Hw]. intros g' w'' Hg'. apply Hg. right. exact Hg'.
Qed.

(** Every result shows what its group showed. *)
Lemma comb_shown (T : list net -> nat -> Prop) : forall gs h ws h', comb gs h ws h' ->
  NoDup gs -> (forall g, In g gs -> closed h (T g) /\ forall w r, In w g -> In r (w_roots w) -> T g r) ->
  (forall g g' n, In g gs -> In g' gs -> T g n -> T g' n -> g = g') ->
  within (fun n => exists g, In g gs /\ T g n) h h' /\
  Forall2 (fun g w => (exists w', In w' g /\ w_kind w = w_kind w' /\ w_role w = w_role w') /\ (forall r, In r (w_roots w) -> T g r) /\ closed h' (T g) /\
     same_shown h (concat (map w_roots g)) h' (w_roots w)) gs ws.
Proof.
  induction 1 as [h|g gs h h1 roots w pre ws h2 Hcomb E Hrest IH]; intros Hn HT Hd.
  - split; [apply within_refl|constructor].
  - inversion Hn as [|? ? Hng Hn']; subst x l. destruct (HT g (or_introl eq_refl)) as [Hcl Hro].
    assert (Hin : forall r, In r (concat (map w_roots g)) -> T g r).
    { intros r Hr. apply in_concat in Hr as (l & Hl & Hr). apply in_map_iff in Hl as (w' & <- & Hw'). eapply Hro; eauto. }
    destruct (combine_within (T g) fuel shuffle h _ _ _ Hshuffle Hcomb Hcl Hin) as (W1 & C1 & R1 & S1).
    assert (Hother : forall g', In g' gs -> forall n, T g' n -> ~ T g n).
    { intros g' Hg' n A B. assert (g' = g) by (eapply Hd; [right; exact Hg'|left; reflexivity|exact A|exact B]). congruence. }
    destruct IH as [W2 F]; [exact Hn'| |intros a b n Ha Hb; apply Hd; right; assumption|].
    { intros g' Hg'. destruct (HT g' (or_intror Hg')) as [A B]. split; [|exact B]. eapply within_closed; [exact W1|apply Hother, Hg'|exact A]. }
    assert (Hout : forall n, T g n -> ~ exists g', In g' gs /\ T g' n) by (intros n A (g' & Hg' & B); exact (Hother g' Hg' n B A)).
    split.
    + eapply within_trans; (eapply within_more; [|eassumption]); cbn; [intros n A; exists g; auto|intros n (g' & A & B); exists g'; auto].
    + constructor.
      * split; [exists w; split; [rewrite E; apply in_or_app; right; left; reflexivity|split; reflexivity]|]. cbn [w_roots]. split; [exact R1|].
        split; [eapply within_closed; eassumption|]. eapply same_shown_trans; [exact S1|]. eapply within_shown; eassumption.
      * eapply Forall2_impl_l; [|exact F]. intros g' w' Hg' (A & B & C & D). split; [exact A|]. split; [exact B|]. split; [exact C|].
        eapply same_shown_trans; [|exact D]. eapply within_shown; [exact W1|apply Hother, Hg'|apply HT; right; exact Hg'|].
        intros r Hr. apply in_concat in Hr as (l & Hl & Hr). apply in_map_iff in Hl as (w'' & <- & Hw'). eapply (HT g'); [right; exact Hg'|exact Hw'|exact Hr].
Qed.

(** ** Groups *)

Lemma wclass_reflect a b : reflect (a = b) (wclass_eqb a b).
Proof. destruct a, b; cbn; constructor; congruence. Qed.
Definition wclass_of (w : net) : wclass := class_of_kind (w_kind w).
Definition group_step (d : list (wclass * list net)) (w : net) : list (wclass * list net) :=
  dict_set wclass_eqb d (wclass_of w) (match dict_get wclass_eqb d (wclass_of w) with Some g => g | None => [] end ++ [w]).
Lemma group_eq l : group l = fold_left group_step l []. Proof. reflexivity. Qed.
Lemma group_get c : forall l d, match dict_get wclass_eqb (fold_left group_step l d) c with Some g => g | None => [] end =
  match dict_get wclass_eqb d c with Some g => g | None => [] end ++ filter (fun w => wclass_eqb (wclass_of w) c) l.
Proof.
  induction l as [|w l IH]; intros d; cbn [fold_left filter]; [rewrite app_nil_r; reflexivity|]. rewrite IH. unfold group_step.
  destruct (wclass_reflect (wclass_of w) c) as [E|E].
  - rewrite E, (dict_get_set_same _ wclass_reflect), <- app_assoc. reflexivity.
  - rewrite (dict_get_set_other _ wclass_reflect) by exact E. reflexivity.
Qed.
Lemma group_keys : forall l d, NoDup (dict_keys d) -> NoDup (dict_keys (fold_left group_step l d)).
Proof. induction l as [|w l IH]; intros d H; [exact H|]. apply IH, (dict_set_keys_nodup _ wclass_reflect), H. Qed.
Lemma group_nonempty : forall l d, (forall c g, In (c, g) d -> g <> []) -> forall c g, In (c, g) (fold_left group_step l d) -> g <> [].
Proof.
  induction l as [|w l IH]; intros d H; [exact H|]. apply IH. intros c g Hin. unfold group_step in Hin.
  assert (G : forall (d : list (wclass * list net)) k v, In (c, g) (dict_set wclass_eqb d k v) -> g = v \/ In (c, g) d).
  { clear. induction d as [|[k' v'] d IH]; intros k v Hin; cbn in Hin; [destruct Hin as [E|[]]; left; congruence|].
    destruct (wclass_eqb k' k); destruct Hin as [E|Hin]; [left; congruence|right; right; exact Hin|right; left; exact E|].
    destruct (IH _ _ Hin) as [A|A]; [auto|right; right; exact A]. }
  apply G in Hin as [-> | Hin]; [|eauto]. intros E. apply app_eq_nil in E as [_ [=]].
Qed.
Lemma in_group l c g : In (c, g) (group l) -> g = filter (fun w => wclass_eqb (wclass_of w) c) l /\ g <> [].
Proof.
  intros H. split.
  - pose proof (group_get c l []) as G. rewrite <- group_eq in G. rewrite (dict_get_in_nodup _ wclass_reflect (group l) c g) in G; [exact G| |exact H].
    rewrite group_eq. apply group_keys. constructor.
  - rewrite group_eq in H. eapply group_nonempty; [|exact H]. intros ? ? [].
Qed.
Lemma group_has l w : In w l -> exists g, In (wclass_of w, g) (group l).
Proof.
  intros Hw. pose proof (group_get (wclass_of w) l []) as G. rewrite <- group_eq in G. destruct (dict_get wclass_eqb (group l) (wclass_of w)) as [g|] eqn:E.
  - exists g. apply (dict_get_in _ wclass_reflect), E.
  - cbn in G. assert (Hin : In w (filter (fun w' => wclass_eqb (wclass_of w') (wclass_of w)) l)) by (apply filter_In; split; [exact Hw|destruct (wclass_reflect (wclass_of w) (wclass_of w)); congruence]).
    rewrite <- G in Hin. destruct Hin.
Qed.

Lemma logical_class k k' : is_physical k = false -> is_physical k' = false -> class_of_kind k = class_of_kind k' -> k = k'.
Proof. destruct k, k'; cbn; congruence. Qed.

Definition same_place (w w' : net) : Prop := w_kind w = w_kind w' /\ w_role w = w_role w'.

Section Groups.
Variable d : by_role.
Hypothesis Hkeys : NoDup (dict_keys d).
Hypothesis Hroles : forall R l w, In (R, l) d -> In w l -> w_role w = R.

Lemma in_groups g : In g (groups_of d) -> g <> [] /\ forall w, In w g ->
  logical w = true /\ forall w', In w' g <-> (exists R l, In (R, l) d /\ In w' l) /\ logical w' = true /\ same_place w' w.
Proof.
  intros H. unfold groups_of in H. apply in_flat_map in H as ([R l] & Hp & H). cbn [snd] in H. apply in_map_iff in H as ([c g'] & E & H). cbn in E. subst g'.
  apply in_group in H as [-> Hne]. split; [exact Hne|]. intros w Hw. apply filter_In in Hw as [Hw Hcw]. apply filter_In in Hw as [Hw Hlw].
  destruct (wclass_reflect (wclass_of w) c) as [<-|]; [|discriminate]. split; [exact Hlw|]. intros w'. rewrite !filter_In. split.
  - intros [[Hw' Hl'] Hc']. destruct (wclass_reflect (wclass_of w') (wclass_of w)) as [Ec|]; [|discriminate]. split; [eauto|]. split; [exact Hl'|]. split.
    + apply logical_class; [| |exact Ec]; unfold logical, physical in *; apply negb_true_iff; assumption.
    + rewrite (Hroles _ _ _ Hp Hw'), (Hroles _ _ _ Hp Hw). reflexivity.
  - intros ((R' & l' & Hp' & Hw') & Hl' & Hk & Hr). assert (R' = R) by (rewrite <- (Hroles _ _ _ Hp' Hw'), Hr; apply (Hroles _ _ _ Hp Hw)). subst R'.
    assert (l' = l). { pose proof (dict_get_in_nodup _ str_reflect d R l' Hkeys Hp'). pose proof (dict_get_in_nodup _ str_reflect d R l Hkeys Hp). congruence. }
    subst l'. split; [auto|]. unfold wclass_of. rewrite Hk. destruct (wclass_reflect (class_of_kind (w_kind w)) (class_of_kind (w_kind w))); congruence.
Qed.
Lemma groups_have R l w : In (R, l) d -> In w l -> logical w = true -> exists g, In g (groups_of d) /\ In w g.
Proof.
  intros Hp Hw Hl. assert (Hf : In w (filter logical l)) by (apply filter_In; auto). destruct (group_has _ _ Hf) as [g Hg]. exists g. split.
  - unfold groups_of. apply in_flat_map. exists (R, l). split; [exact Hp|]. cbn [snd]. change g with (snd (wclass_of w, g)). apply in_map, Hg.
  - apply in_group in Hg as [-> _]. apply filter_In. split; [exact Hf|]. destruct (wclass_reflect (wclass_of w) (wclass_of w)); congruence.
Qed.
Lemma groups_nodup : NoDup (groups_of d).
Proof.
  unfold groups_of. revert Hkeys Hroles. clear. induction d as [|[R l] d' IH]; intros Hk Hr; [constructor|]. cbn [flat_map snd]. cbn [dict_keys map fst] in Hk.
  inversion Hk as [|? ? HR Hk']; subst. apply NoDup_app_intro.
  - assert (Hg : forall c g, In (c, g) (group (filter logical l)) -> g = filter (fun w => wclass_eqb (wclass_of w) c) (filter logical l) /\ g <> []) by (intros c g; apply in_group).
    assert (Hn : NoDup (map fst (group (filter logical l)))) by (rewrite group_eq; apply group_keys; constructor).
    revert Hg Hn. generalize (group (filter logical l)). intros gs Hg Hn. induction gs as [|[c g] gs IHg]; [constructor|]. cbn in Hn |- *. inversion Hn as [|? ? Hc Hn']; subst.
    constructor; [|apply IHg; [intros c' g' Hin; apply Hg; right; exact Hin|exact Hn']].
    intros Hin. apply in_map_iff in Hin as ([c' g'] & E & Hin). cbn in E. subst g'. destruct (Hg c g (or_introl eq_refl)) as [E1 Hne]. destruct (Hg c' g (or_intror Hin)) as [E2 _].
    destruct g as [|w g]; [congruence|]. assert (A : In w (w :: g)) by (left; reflexivity). assert (B : In w (w :: g)) by (left; reflexivity).
    rewrite E1 in A. rewrite E2 in B. apply filter_In in A as [_ A]. apply filter_In in B as [_ B].
    destruct (wclass_reflect (wclass_of w) c) as [<-|]; [|discriminate]. destruct (wclass_reflect (wclass_of w) c') as [<-|]; [|discriminate].
    apply Hc. change (wclass_of w) with (fst (wclass_of w, w :: g)). apply in_map, Hin.
  - apply IH; [exact Hk'|]. intros R' l' w Hp. apply Hr. right. exact Hp.
  - intros g Hg Hg'. apply in_map_iff in Hg as ([c g0] & E & Hg). cbn in E. subst g0. apply in_group in Hg as [Eg Hne].
    apply in_flat_map in Hg' as ([R' l'] & Hp & Hg'). cbn [snd] in Hg'. apply in_map_iff in Hg' as ([c' g0] & E & Hg'). cbn in E. subst g0. apply in_group in Hg' as [Eg' _].
    destruct g as [|w g]; [congruence|]. assert (A : In w (w :: g)) by (left; reflexivity). assert (B : In w (w :: g)) by (left; reflexivity).
    rewrite Eg in A. rewrite Eg' in B. apply filter_In in A as [A _]. apply filter_In in A as [A _]. apply filter_In in B as [B _]. apply filter_In in B as [B _].
    assert (R' = R) by (rewrite <- (Hr R' l' w (or_intror Hp) B); apply (Hr R l w (or_introl eq_refl) A)). subst R'. apply HR. change R with (fst (R, l')). apply in_map, Hp.
Qed.
End Groups.

(** ** All roles *)

Lemma combine_roles_comb : forall d h ws h', combine_roles fuel shuffle d h = Ok (ws, h') ->
  exists ls, comb (groups_of d) h ls h' /\ filter logical ws = ls /\ forall w, In w ws <-> In w ls \/ exists R l, In (R, l) d /\ In w l /\ physical w = true.
Proof.
  induction d as [|[R l] d IH]; intros h ws h' H; cbn [combine_roles] in H.
  - injection H as <- <-. exists []. split; [constructor|]. split; [reflexivity|]. intros w. split; [intros []|intros [[]|(? & ? & [] & _)]].
  - apply bind_ok in H as ([w1 h1] & H1 & H). apply bind_ok in H as ([w2 h2] & H2 & H). cbn [fst snd] in *. injection H as <- <-.
    destruct (IH _ _ _ H2) as (ls & Hc & Hf & Hin). unfold combine_role in H1. apply bind_ok in H1 as ([w3 h3] & H3 & H1). cbn [fst snd] in H1. injection H1 as <- <-.
    apply combine_groups_comb in H3. exists (w3 ++ ls).
    assert (Hl3 : forall w, In w w3 -> logical w = true).
    { apply (comb_kinds _ _ _ _ H3). intros g w Hg Hw. apply in_map_iff in Hg as ([c g'] & E & Hg). cbn in E. subst g'. apply in_group in Hg as [-> _].
      apply filter_In in Hw as [Hw _]. apply filter_In in Hw. tauto. }
    split; [|split].
    + unfold groups_of. cbn [flat_map snd]. eapply comb_app; [exact H3|exact Hc].
    + rewrite !filter_app, Hf. f_equal. transitivity (filter logical w3).
      * replace (filter logical (filter physical l)) with (@nil net); [reflexivity|]. clear. induction l as [|w l IH]; [reflexivity|]. cbn.
        destruct (physical w) eqn:E; [|exact IH]. cbn. unfold logical at 1. rewrite E. exact IH.
      * clear -Hl3. induction w3 as [|w w3 IH]; [reflexivity|]. cbn. rewrite (Hl3 w (or_introl eq_refl)), IH; [reflexivity|]. intros w' Hw'. apply Hl3. right. exact Hw'.
    + intros w. rewrite !in_app_iff, Hin, filter_In. split.
      * intros [[[A B]|A]|[A|(R' & l' & A & B)]]; [right; exists R, l; cbn; auto|auto|auto|right; exists R', l'; cbn; auto].
      * intros [[A|A]|(R' & l' & [A|A] & B & C)]; [auto|auto|injection A as <- <-; auto|right; right; eauto].
Qed.
End Combine.

(** ** The runs of the factories *)

Record run := Run {
  r_link : xml; r_out : list xml; r_role : str; r_kind : kind; r_base : nat;
  r_arcs : list arc; r_entries : list entry; r_heap : heap; r_nets : list (list nat) }.
Definition r_key (r : run) : xml * list xml * str * kind := (r_link r, r_out r, r_role r, r_kind r).
Definition nets_of (r : run) : list net := map (fun rs => Net (r_kind r) (r_role r) (map (Nat.add (r_base r)) rs)) (r_nets r).
Definition heap_of (rs : list run) : heap := flat_map (fun r => map (shift_node (r_base r)) (r_heap r)) rs.
Fixpoint based (b : nat) (rs : list run) : Prop :=
  match rs with [] => True | r :: rs' => r_base r = b /\ based (b + length (r_heap r)) rs' end.
Definition nets_in (d : by_role) (R : str) : list net := match dict_get str_eqb d R with Some l => l | None => [] end.

Definition expected (p : xml * list xml) : list (xml * list xml * str * kind) :=
  match xl "role" (fst p), x_tag (fst p) with
  | Some role, Some t => map (fun k => (fst p, snd p, role, k)) (factories t)
  | _, _ => []
  end.

Lemma heap_of_length rs b : based b rs -> length (heap_of rs) = length (concat (map r_heap rs)).
Proof. intros _. unfold heap_of. induction rs as [|r rs IH]; [reflexivity|]. cbn. rewrite !app_length, map_length, IH. reflexivity. Qed.
Lemma based_app b rs1 rs2 : based b (rs1 ++ rs2) <-> based b rs1 /\ based (b + length (heap_of rs1)) rs2.
Proof.
  revert b. induction rs1 as [|r rs1 IH]; intros b; cbn; [rewrite Nat.add_0_r; tauto|]. rewrite IH, app_length, map_length, Nat.add_assoc. tauto.
Qed.
Lemma heap_of_app rs1 rs2 : heap_of (rs1 ++ rs2) = heap_of rs1 ++ heap_of rs2.
Proof. unfold heap_of. apply flat_map_app'. Qed.

Section Runs.
Variable element_str : xml -> str.
Variable number : str -> Q.
Variable find_id : str -> option found.
Variable edge_order : nat -> list edge -> list edge.
Variable root_order : nat -> list nat -> list nat.
Hypothesis Horders : orders edge_order root_order.

Definition run_ok (r : run) : Prop := exists es es1 es2 eo ro dups, some_order eo /\ some_order ro /\
  link_arcs number [] (typed_below [u "arc"] (r_link r) (r_out r)) es = Ok (r_arcs r, es1) /\
  link_entries element_str find_id 0 (link_parts (r_link r) (r_out r)) es1 = Ok (r_entries r, es2) /\
  parse_link (r_kind r) eo ro (r_arcs r) (map loc_of (r_entries r)) = Ok (r_heap r, r_nets r, dups).

Lemma run_factory_run k link outside role st ws st' : run_factory element_str number find_id edge_order root_order k link outside role st = Ok (ws, st') ->
  exists r, r_key r = (link, outside, role, k) /\ run_ok r /\ r_base r = length (ls_heap st) /\ ls_heap st' = ls_heap st ++ heap_of [r] /\ ws = nets_of r.
Proof.
  intros H. apply run_factory_inv in H as (arcs & es1 & entries & es2 & h & nets & dups & added & Ha & He & Hp & _ & -> & ->).
  exists (Run link outside role k (length (ls_heap st)) arcs entries h nets). unfold heap_of. cbn [ls_heap r_base r_heap flat_map]. rewrite app_nil_r. split; [reflexivity|]. split; [|auto].
  exists (ls_errors st), es1, es2, (edge_order (ls_runs st)), (root_order (ls_runs st)), dups. destruct Horders as [A B]. cbn. auto.
Qed.
Lemma run_factories_runs : forall ks link outside role st ws st',
  run_factories element_str number find_id edge_order root_order ks link outside role st = Ok (ws, st') ->
  exists rs, map r_key rs = map (fun k => (link, outside, role, k)) ks /\ (forall r, In r rs -> run_ok r) /\ based (length (ls_heap st)) rs /\
    ls_heap st' = ls_heap st ++ heap_of rs /\ ws = flat_map nets_of rs.
Proof.
  induction ks as [|k ks IH]; intros link outside role st ws st' H; cbn [run_factories] in H.
  - injection H as <- <-. exists []. cbn. rewrite app_nil_r. repeat split. intros r [].
  - apply bind_ok in H as ([w1 st1] & H1 & H). apply bind_ok in H as ([w2 st2] & H2 & H). cbn [fst snd] in *. injection H as <- <-.
    destruct (run_factory_run _ _ _ _ _ _ _ H1) as (r & Ek & Hr & Hb & Hh & ->). destruct (IH _ _ _ _ _ _ H2) as (rs & Eks & Hrs & Hbs & Hhs & ->).
    exists (r :: rs). cbn [map flat_map]. split; [congruence|]. split; [intros r' [<-|Hr']; auto|]. split.
    + cbn [based]. split; [exact Hb|]. rewrite Hh, app_length in Hbs. unfold heap_of in Hbs. cbn in Hbs. rewrite app_nil_r, map_length in Hbs. exact Hbs.
    + split; [|reflexivity]. rewrite Hhs, Hh, <- app_assoc. f_equal. symmetry. apply (heap_of_app [r] rs).
Qed.
Lemma parse_xml_link_runs link outside role st ws st' : parse_xml_link element_str number find_id edge_order root_order link outside role st = Ok (ws, st') ->
  xl "role" link = Some role ->
  exists rs, map r_key rs = expected (link, outside) /\ (forall r, In r rs -> run_ok r) /\ based (length (ls_heap st)) rs /\
    ls_heap st' = ls_heap st ++ heap_of rs /\ ws = flat_map nets_of rs.
Proof.
  intros H Hr. unfold parse_xml_link in H. unfold expected. cbn [fst snd]. rewrite Hr. destruct (x_tag link) as [t|]; [|discriminate].
  destruct (factories t) as [|k ks].
  - apply bind_ok in H as (es & _ & H). injection H as <- <-. exists []. cbn. rewrite app_nil_r. repeat split. intros r [].
  - apply run_factories_runs in H. exact H.
Qed.

Lemma nets_extend d role new R : nets_in (extend_role d role new) R = nets_in d R ++ (if str_eqb role R then new else []).
Proof.
  unfold nets_in, extend_role. destruct (str_eqb_spec role R) as [->|Hn].
  - rewrite (dict_get_set_same _ str_reflect). reflexivity.
  - rewrite (dict_get_set_other _ str_reflect) by exact Hn. rewrite app_nil_r. reflexivity.
Qed.
Lemma nets_of_role r w : In w (nets_of r) -> w_role w = r_role r /\ w_kind w = r_kind r.
Proof. unfold nets_of. intros H. apply in_map_iff in H as (rs & <- & _). auto. Qed.

Lemma links_loop_runs : forall l d st d' st', (forall p, In p l -> usual (fst p)) ->
  links_loop element_str number find_id edge_order root_order l d st = Ok (d', st') -> NoDup (dict_keys d) ->
  exists rs, map r_key rs = flat_map expected l /\ (forall r, In r rs -> run_ok r) /\ based (length (ls_heap st)) rs /\
    ls_heap st' = ls_heap st ++ heap_of rs /\ NoDup (dict_keys d') /\
    forall R, nets_in d' R = nets_in d R ++ flat_map nets_of (filter (fun r => str_eqb (r_role r) R) rs).
Proof.
  induction l as [|[link outside] l IH]; intros d st d' st' Hu H Hd; cbn [links_loop] in H.
  - injection H as <- <-. exists []. cbn. rewrite app_nil_r. split; [reflexivity|]. split; [intros r []|]. split; [exact I|]. split; [reflexivity|]. split; [exact Hd|].
    intros R. rewrite app_nil_r. reflexivity.
  - apply bind_ok in H as ([d1 st1] & H1 & H). cbn [fst snd] in H. pose proof (Hu _ (or_introl eq_refl)) as Hul. cbn [fst] in Hul.
    assert (Hu' : forall p, In p l -> usual (fst p)) by (intros p Hp; apply Hu; right; exact Hp).
    unfold one_link in H1. cbn [fst snd] in H1. rewrite (opt_role link Hul) in H1. cbn [bind] in H1. cbn [flat_map].
    destruct (xl "role" link) as [role|] eqn:Er.
    + apply bind_ok in H1 as ([ws st2] & H1 & E). cbn [fst snd] in E. injection E as <- <-.
      destruct (parse_xml_link_runs _ _ _ _ _ _ H1 Er) as (rs1 & K1 & O1 & B1 & E1 & ->).
      destruct (IH _ _ _ _ Hu' H) as (rs2 & K2 & O2 & B2 & E2 & N2 & G2); [apply (dict_set_keys_nodup _ str_reflect), Hd|].
      exists (rs1 ++ rs2). split; [rewrite map_app; congruence|]. split; [intros r Hr; apply in_app_or in Hr as [Hr|Hr]; auto|].
      split; [apply based_app; split; [exact B1|rewrite E1, app_length in B2; exact B2]|]. split; [rewrite heap_of_app, app_assoc; congruence|]. split; [exact N2|].
      intros R. rewrite G2, nets_extend, <- app_assoc. f_equal. rewrite filter_app, flat_map_app'. f_equal.
      assert (Hrole : forall r, In r rs1 -> r_role r = role).
      { intros r Hr. apply (in_map r_key) in Hr. rewrite K1 in Hr. unfold expected in Hr. cbn [fst snd] in Hr. rewrite Er in Hr.
        destruct (x_tag link); [|destruct Hr]. apply in_map_iff in Hr as (k & E & _). unfold r_key in E. congruence. }
      clear -Hrole. induction rs1 as [|r rs1 IH1]; [destruct (str_eqb role R); reflexivity|]. cbn [filter flat_map]. rewrite (Hrole r (or_introl eq_refl)).
      specialize (IH1 (fun r' Hr' => Hrole r' (or_intror Hr'))). destruct (str_eqb role R); [cbn; rewrite IH1; reflexivity|exact IH1].
    + apply bind_ok in H1 as (es & _ & E). injection E as <- <-. destruct (IH _ _ _ _ Hu' H Hd) as (rs & K & R). exists rs. split; [|exact R].
      rewrite K. unfold expected at 2. cbn [fst snd]. rewrite Er. reflexivity.
Qed.

(** The same without conditions, not saying which runs there are *)
Lemma links_loop_any : forall l d st d' st',
  links_loop element_str number find_id edge_order root_order l d st = Ok (d', st') -> NoDup (dict_keys d) ->
  exists rs, (forall r, In r rs -> run_ok r) /\ based (length (ls_heap st)) rs /\
    ls_heap st' = ls_heap st ++ heap_of rs /\ NoDup (dict_keys d') /\
    forall R, nets_in d' R = nets_in d R ++ flat_map nets_of (filter (fun r => str_eqb (r_role r) R) rs).
Proof.
  induction l as [|[link outside] l IH]; intros d st d' st' H Hd; cbn [links_loop] in H.
  - injection H as <- <-. exists []. cbn. rewrite app_nil_r. split; [intros r []|]. split; [exact I|]. split; [reflexivity|]. split; [exact Hd|].
    intros R. rewrite app_nil_r. reflexivity.
  - apply bind_ok in H as ([d1 st1] & H1 & H). cbn [fst snd] in H. unfold one_link in H1. cbn [fst snd] in H1.
    apply bind_ok in H1 as ([role|] & _ & H1).
    + apply bind_ok in H1 as ([ws st2] & H1 & E). cbn [fst snd] in E. injection E as <- <-.
      assert (H2 : exists rs, (forall r, In r rs -> r_role r = role) /\ (forall r, In r rs -> run_ok r) /\ based (length (ls_heap st)) rs /\
        ls_heap st2 = ls_heap st ++ heap_of rs /\ ws = flat_map nets_of rs).
      { unfold parse_xml_link in H1. destruct (x_tag link) as [t|]; [|discriminate]. destruct (factories t) as [|k ks].
        - apply bind_ok in H1 as (es & _ & H1). injection H1 as <- <-. exists []. cbn. rewrite app_nil_r. repeat split; intros r [].
        - apply run_factories_runs in H1 as (rs & K & R). exists rs. split; [|exact R]. intros r Hr. apply (in_map r_key) in Hr. rewrite K in Hr.
          apply in_map_iff in Hr as (k' & E & _). unfold r_key in E. congruence. }
      destruct H2 as (rs1 & Hrole & O1 & B1 & E1 & ->).
      destruct (IH _ _ _ _ H) as (rs2 & O2 & B2 & E2 & N2 & G2); [apply (dict_set_keys_nodup _ str_reflect), Hd|].
      exists (rs1 ++ rs2). split; [intros r Hr; apply in_app_or in Hr as [Hr|Hr]; auto|].
      split; [apply based_app; split; [exact B1|rewrite E1, app_length in B2; exact B2]|]. split; [rewrite heap_of_app, app_assoc; congruence|]. split; [exact N2|].
      intros R. rewrite G2, nets_extend, <- app_assoc. f_equal. rewrite filter_app, flat_map_app'. f_equal.
      clear -Hrole. induction rs1 as [|r rs1 IH1]; [destruct (str_eqb role R); reflexivity|]. cbn [filter flat_map]. rewrite (Hrole r (or_introl eq_refl)).
      specialize (IH1 (fun r' Hr' => Hrole r' (or_intror Hr'))). destruct (str_eqb role R); [cbn; rewrite IH1; reflexivity|exact IH1].
    + apply bind_ok in H1 as (es & _ & E). injection E as <- <-. exact (IH _ _ _ _ H Hd).
Qed.

(** Whose node is it? *)
Definition own (r : run) (n : nat) : Prop := r_base r <= n < r_base r + length (r_heap r).
Lemma based_in : forall rs b r, based b rs -> In r rs -> b <= r_base r.
Proof. induction rs as [|r0 rs IH]; intros b r H Hr; [destruct Hr|]. destruct H as [E H], Hr as [<-|Hr]; [lia|]. apply (IH _ r) in H; [lia|exact Hr]. Qed.
Lemma own_unique : forall rs b r r' n, based b rs -> In r rs -> In r' rs -> own r n -> own r' n -> r = r'.
Proof.
  induction rs as [|r0 rs IH]; intros b r r' n H Hr Hr' O O'; [destruct Hr|]. destruct H as [E H]. unfold own in *.
  destruct Hr as [<-|Hr], Hr' as [<-|Hr']; [reflexivity| | |eapply IH; eauto].
  - pose proof (based_in _ _ _ H Hr'). lia.
  - pose proof (based_in _ _ _ H Hr). lia.
Qed.
Lemma heap_nth : forall rs b r n, based b rs -> In r rs -> n < length (r_heap r) ->
  nth_error (heap_of rs) (r_base r + n - b) = option_map (shift_node (r_base r)) (nth_error (r_heap r) n).
Proof.
  induction rs as [|r0 rs IH]; intros b r n H Hr Hn; [destruct Hr|]. destruct H as [E H]. unfold heap_of. cbn [flat_map]. destruct Hr as [<-|Hr].
  - rewrite nth_error_app1 by (rewrite map_length; lia). replace (r_base r0 + n - b) with n by lia. apply nth_error_map.
  - pose proof (based_in _ _ _ H Hr). rewrite nth_error_app2, map_length by (rewrite map_length; lia). rewrite <- (IH _ r n H Hr Hn). unfold heap_of. f_equal. lia.
Qed.

Section Heap.
Variable rs : list run.
Hypothesis Hb : based 0 rs.
Hypothesis Hok : forall r, In r rs -> run_ok r.
Notation H0 := (heap_of rs).

Lemma heap_at r n : In r rs -> n < length (r_heap r) -> nth_error H0 (r_base r + n) = option_map (shift_node (r_base r)) (nth_error (r_heap r) n).
Proof. intros Hr Hn. rewrite <- (heap_nth rs 0 r n Hb Hr Hn). f_equal. lia. Qed.
Lemma children_at r n : In r rs -> n < length (r_heap r) -> get_children H0 (r_base r + n) = map (Nat.add (r_base r)) (get_children (r_heap r) n).
Proof. intros Hr Hn. unfold get_children. rewrite (heap_at r n Hr Hn). destruct (nth_error (r_heap r) n); reflexivity. Qed.
Lemma object_at r n : In r rs -> n < length (r_heap r) -> object H0 (r_base r + n) = object (r_heap r) n.
Proof. intros Hr Hn. unfold object. rewrite (heap_at r n Hr Hn). destruct (nth_error (r_heap r) n); reflexivity. Qed.
Lemma child_inside r n k : In r rs -> In k (get_children (r_heap r) n) -> k < length (r_heap r).
Proof.
  intros Hr Hk. destruct (Hok r Hr) as (es & es1 & es2 & eo & ro & dups & _ & _ & _ & _ & Hp). destruct (C19_children_inside _ _ _ _ _ _ _ _ _ _ Hp Hk) as (y & l & [E _]).
  apply nth_error_Some. congruence.
Qed.
Lemma root_inside r net n : In r rs -> In net (r_nets r) -> In n net -> n < length (r_heap r).
Proof.
  intros Hr Hnet Hn. destruct (Hok r Hr) as (es & es1 & es2 & eo & ro & dups & _ & Hro & _ & _ & Hp). apply parse_link_inv in Hp as (_ & _ & Eh & roots & Er & En).
  assert (Hroots : forall m, In m roots -> m < length (r_heap r)).
  { intros m Hm. rewrite Er in Hm. apply (Permutation_in _ (Permutation_sym (Hro _))) in Hm. apply in_map_iff in Hm as ([i x] & Ei & Hin). cbn in Ei. subst i.
    apply filter_In in Hin as [Hin _]. apply in_combine_l in Hin. apply in_seq in Hin. rewrite Eh, add_all_length, map_length. lia. }
  rewrite En in Hnet. cbv zeta in Hnet. destruct (is_physical (r_kind r)).
  - apply in_map_iff in Hnet as (role & <- & _). apply filter_In in Hn as [Hn _]. auto.
  - destruct roots; [destruct Hnet|]. destruct Hnet as [<-|[]]. auto.
Qed.
Lemma reach_at r i n : In r rs -> i < length (r_heap r) -> (reach H0 (r_base r + i) n <-> exists m, n = r_base r + m /\ m < length (r_heap r) /\ reach (r_heap r) i m).
Proof.
  intros Hr Hi. split.
  - induction 1 as [|j k _ (m & -> & Hm & Hrm) Hk]; [exists i; split; [reflexivity|split; [exact Hi|constructor]]|].
    rewrite (children_at r m Hr Hm) in Hk. apply in_map_iff in Hk as (k' & <- & Hk). exists k'. split; [reflexivity|]. split; [eapply child_inside; eauto|]. eapply reach_step; eauto.
  - intros (m & -> & Hm & Hrm). clear Hm. induction Hrm as [|j k Hij IH Hk]; [constructor|]. eapply reach_step; [exact IH|].
    assert (Hj : j < length (r_heap r)) by (destruct Hij; [exact Hi|eapply child_inside; eauto]). rewrite (children_at r j Hr Hj). apply in_map, Hk.
Qed.
Lemma relates_at r net o o' : In r rs -> In net (r_nets r) -> (relates H0 (map (Nat.add (r_base r)) net) o o' <-> relates (r_heap r) net o o').
Proof.
  intros Hr Hnet. split.
  - intros (a & n & m & Ha & Hn & Hm & E & E'). apply in_map_iff in Ha as (a' & <- & Ha). pose proof (root_inside r net a' Hr Hnet Ha) as Hla.
    apply (reach_at r a' n Hr Hla) in Hn as (n' & -> & Hln & Hn). rewrite (children_at r n' Hr Hln) in Hm. apply in_map_iff in Hm as (m' & <- & Hm).
    rewrite (object_at r n' Hr Hln) in E. rewrite (object_at r m' Hr (child_inside r n' m' Hr Hm)) in E'. exists a', n', m'. auto.
  - intros (a & n & m & Ha & Hn & Hm & E & E'). pose proof (root_inside r net a Hr Hnet Ha) as Hla.
    assert (Hln : n < length (r_heap r)) by (apply (object_lt _ _ _ E)). pose proof (child_inside r n m Hr Hm) as Hlm.
    exists (r_base r + a), (r_base r + n), (r_base r + m). split; [apply in_map, Ha|]. split; [apply (reach_at r a _ Hr Hla); eauto|].
    rewrite (children_at r n Hr Hln), (object_at r n Hr Hln), (object_at r m Hr Hlm). split; [apply in_map, Hm|auto].
Qed.
Lemma shows_at r net o : In r rs -> In net (r_nets r) -> (shows H0 (map (Nat.add (r_base r)) net) o <-> shows (r_heap r) net o).
Proof.
  intros Hr Hnet. split.
  - intros (a & n & Ha & Hn & E). apply in_map_iff in Ha as (a' & <- & Ha). pose proof (root_inside r net a' Hr Hnet Ha) as Hla.
    apply (reach_at r a' n Hr Hla) in Hn as (n' & -> & Hln & Hn). rewrite (object_at r n' Hr Hln) in E. exists a', n'. auto.
  - intros (a & n & Ha & Hn & E). pose proof (root_inside r net a Hr Hnet Ha) as Hla. assert (Hln : n < length (r_heap r)) by (apply (object_lt _ _ _ E)).
    exists (r_base r + a), (r_base r + n). split; [apply in_map, Ha|]. split; [apply (reach_at r a _ Hr Hla); eauto|]. rewrite (object_at r n Hr Hln). exact E.
Qed.

Definition place (R : str) (k : kind) (n : nat) : Prop := exists r, In r rs /\ r_role r = R /\ r_kind r = k /\ own r n.
Lemma place_closed R k : closed H0 (place R k).
Proof.
  intros n c (r & Hr & A & B & O) Hc. unfold own in O. assert (E : n = r_base r + (n - r_base r)) by lia. rewrite E in Hc.
  rewrite children_at in Hc by (auto; lia). apply in_map_iff in Hc as (c' & <- & Hc). exists r. repeat (split; [assumption|]). pose proof (child_inside r _ _ Hr Hc). unfold own. lia.
Qed.
Lemma place_unique R k R' k' n : place R k n -> place R' k' n -> R = R' /\ k = k'.
Proof. intros (r & Hr & <- & <- & O) (r' & Hr' & <- & <- & O'). rewrite (own_unique _ _ _ _ _ Hb Hr Hr' O O'). auto. Qed.
Lemma place_roots r w n : In r rs -> In w (nets_of r) -> In n (w_roots w) -> place (w_role w) (w_kind w) n.
Proof.
  intros Hr Hw Hn. exists r. destruct (nets_of_role r w Hw) as [-> ->]. split; [exact Hr|]. split; [reflexivity|]. split; [reflexivity|]. unfold nets_of in Hw. apply in_map_iff in Hw as (net & <- & Hnet).
  cbn [w_roots] in Hn. apply in_map_iff in Hn as (m & <- & Hm). pose proof (root_inside r net m Hr Hnet Hm). unfold own. lia.
Qed.

(** ** The whole *)

Variable fuel : nat.
Variable shuffle : list nat -> list nat.
Hypothesis Hshuffle : some_order shuffle.
Variable d : by_role.
Hypothesis Hkeys : NoDup (dict_keys d).
Hypothesis Hnets : forall R, nets_in d R = flat_map nets_of (filter (fun r => str_eqb (r_role r) R) rs).

Lemma in_dict R l : In (R, l) d -> l = flat_map nets_of (filter (fun r => str_eqb (r_role r) R) rs).
Proof. intros H. rewrite <- Hnets. unfold nets_in. rewrite (dict_get_in_nodup _ str_reflect d R l Hkeys H). reflexivity. Qed.
Lemma dict_roles R l w : In (R, l) d -> In w l -> w_role w = R.
Proof.
  intros H Hw. rewrite (in_dict R l H) in Hw. apply in_flat_map in Hw as (r & Hr & Hw). apply filter_In in Hr as [_ E]. apply str_eqb_eq in E.
  destruct (nets_of_role r w Hw). congruence.
Qed.
Lemma dict_nets w : (exists R l, In (R, l) d /\ In w l) <-> exists r, In r rs /\ In w (nets_of r).
Proof.
  split.
  - intros (R & l & H & Hw). rewrite (in_dict R l H) in Hw. apply in_flat_map in Hw as (r & Hr & Hw). apply filter_In in Hr as [Hr _]. eauto.
  - intros (r & Hr & Hw). assert (Hin : In w (nets_in d (r_role r))).
    { rewrite Hnets. apply in_flat_map. exists r. split; [|exact Hw]. apply filter_In. split; [exact Hr|apply str_eqb_refl]. }
    unfold nets_in in Hin. destruct (dict_get str_eqb d (r_role r)) as [l|] eqn:E; [|destruct Hin]. exists (r_role r), l. split; [|exact Hin].
    apply (dict_get_in _ str_reflect), E.
Qed.

Variable ws : list net.
Variable h' : heap.
Hypothesis Hcomb : combine_roles fuel shuffle d H0 = Ok (ws, h').

Definition group_place (g : list net) (n : nat) : Prop := exists w, In w g /\ place (w_role w) (w_kind w) n.

Lemma combined_full : exists ls, filter logical ws = ls /\ within (fun n => exists R k, is_physical k = false /\ place R k n) H0 h' /\
  (forall w, In w ws <-> In w ls \/ exists r, In r rs /\ In w (nets_of r) /\ physical w = true) /\
  Forall2 (fun g w => ((forall r, In r (w_roots w) -> place (w_role w) (w_kind w) r) /\ closed h' (place (w_role w) (w_kind w))) /\
    (exists w', In w' g /\ same_place w w') /\ same_shown H0 (concat (map w_roots g)) h' (w_roots w)) (groups_of d) ls.
Proof.
  destruct (combine_roles_comb fuel shuffle _ _ _ _ Hcomb) as (ls & Hc & Hf & Hin). exists ls. split; [exact Hf|].
  assert (Hg : forall g w, In g (groups_of d) -> In w g -> forall n, group_place g n <-> place (w_role w) (w_kind w) n).
  { intros g w Hg Hw n. destruct (in_groups d Hkeys dict_roles g Hg) as [_ G]. split.
    - intros (w' & Hw' & Hp). apply (proj2 (G w Hw)) in Hw' as (_ & _ & <- & <-). exact Hp.
    - intros Hp. exists w. auto. }
  destruct (comb_shown fuel shuffle Hshuffle group_place _ _ _ _ Hc) as [W F].
  - apply groups_nodup; [exact Hkeys|exact dict_roles].
  - intros g Hgin. destruct (in_groups d Hkeys dict_roles g Hgin) as [Hne G]. destruct g as [|w g]; [congruence|]. split.
    + intros n k Hn Hk. rewrite (Hg _ w Hgin (or_introl eq_refl)) in *. eapply place_closed; eauto.
    + intros w' r Hw' Hr. apply (Hg _ w' Hgin Hw'). destruct (G w' Hw') as [_ G']. apply (proj1 (G' w')) in Hw' as (Hd & _). apply dict_nets in Hd as (r' & Hr' & Hw').
      eapply place_roots; eauto.
  - intros g g' n Hgin Hgin' (w & Hw & Hp) (w' & Hw' & Hp'). destruct (place_unique _ _ _ _ _ Hp Hp') as [ER EK].
    destruct (in_groups d Hkeys dict_roles g Hgin) as [_ G]. destruct (in_groups d Hkeys dict_roles g' Hgin') as [_ G'].
    (* both are the lists of all networks of the place *)
    unfold groups_of in Hgin, Hgin'. apply in_flat_map in Hgin as ([R l] & HRl & Hgin). apply in_flat_map in Hgin' as ([R' l'] & HRl' & Hgin'). cbn [snd] in *.
    apply in_map_iff in Hgin as ([c g0] & E & Hgin). cbn in E. subst g0. apply in_map_iff in Hgin' as ([c' g0] & E & Hgin'). cbn in E. subst g0.
    apply in_group in Hgin as [Eg _]. apply in_group in Hgin' as [Eg' _].
    pose proof Hw as Hw0. pose proof Hw' as Hw0'. rewrite Eg in Hw0. rewrite Eg' in Hw0'. apply filter_In in Hw0 as [Hwl Hc1]. apply filter_In in Hw0' as [Hwl' Hc2].
    apply filter_In in Hwl as [Hwl _]. apply filter_In in Hwl' as [Hwl' _].
    assert (R' = R) by (rewrite <- (dict_roles _ _ _ HRl Hwl), <- (dict_roles _ _ _ HRl' Hwl'); congruence). subst R'.
    assert (l' = l) by (rewrite (in_dict _ _ HRl), (in_dict _ _ HRl'); reflexivity). subst l'.
    destruct (wclass_reflect (wclass_of w) c) as [<-|]; [|discriminate]. destruct (wclass_reflect (wclass_of w') c') as [<-|]; [|discriminate].
    rewrite Eg, Eg'. unfold wclass_of. rewrite EK. reflexivity.
  - split; [|split].
    + eapply within_more; [|exact W]. intros n (g & Hgin & w & Hw & Hp). exists (w_role w), (w_kind w). split; [|exact Hp].
      destruct (in_groups d Hkeys dict_roles g Hgin) as [_ G]. destruct (G w Hw) as [Hl _]. unfold logical, physical in Hl. apply negb_true_iff, Hl.
    + intros w. rewrite Hin. split; (intros [A|B]; [left; exact A|right]).
      * destruct B as (R & l & A & B & C). destruct (proj1 (dict_nets w)) as (r & Hr & Hw); [eauto|]. eauto.
      * destruct B as (r & Hr & Hw & Hp). destruct (proj2 (dict_nets w)) as (R & l & A & B); [eauto|]. eauto 6.
    + eapply Forall2_impl_l; [|exact F]. intros g w Hgin ((w' & A & B & C) & Hr & Hcl & D). split; [|split; [exists w'; split; [exact A|split; assumption]|exact D]].
      rewrite B, C. split; [intros r Hin'; apply (Hg g w' Hgin A), Hr, Hin'|]. intros n k Hn Hk. apply (Hg g w' Hgin A). apply (Hg g w' Hgin A) in Hn. eapply Hcl; eauto.
Qed.
Lemma combined : exists ls, filter logical ws = ls /\ within (fun n => exists R k, is_physical k = false /\ place R k n) H0 h' /\
  (forall w, In w ws <-> In w ls \/ exists r, In r rs /\ In w (nets_of r) /\ physical w = true) /\
  Forall2 (fun g w => (exists w', In w' g /\ same_place w w') /\ same_shown H0 (concat (map w_roots g)) h' (w_roots w)) (groups_of d) ls.
Proof.
  destruct combined_full as (ls & A & B & C & F). exists ls. repeat (split; [assumption|]). eapply Forall2_impl_l; [|exact F]. intros g w _ [_ H]. exact H.
Qed.
(** The nodes of a network come from runs of its place. *)
Lemma network_places w r n : In w ws -> In r (w_roots w) -> reach h' r n -> place (w_role w) (w_kind w) n.
Proof.
  intros Hw Hr Hn. destruct combined_full as (ls & Hf & W & Hin & F). apply Hin in Hw as [Hw|(r' & Hr' & Hw & Hp)].
  - destruct (Forall2_in_r _ _ _ _ F Hw) as (g & _ & (A & B) & _). eapply closed_reach; eauto.
  - eapply closed_reach; [|eapply place_roots; eassumption|exact Hn]. eapply within_closed; [exact W| |apply place_closed].
    intros m Hm (R & k & Hk & Hm'). destruct (place_unique _ _ _ _ _ Hm Hm') as [_ E]. unfold physical in Hp. congruence.
Qed.

(** At most one logical network in a place. *)
Lemma combined_once : NoDup (map (fun w => (w_kind w, w_role w)) (filter logical ws)).
Proof.
  destruct combined as (ls & -> & _ & _ & F). pose proof (groups_nodup d Hkeys dict_roles) as Hn.
  assert (Hg : forall g, In g (groups_of d) -> forall w, In w g -> logical w = true /\ forall w', In w' g <-> (exists R l, In (R, l) d /\ In w' l) /\ logical w' = true /\ same_place w' w).
  { intros g Hgin. apply (in_groups d Hkeys dict_roles g Hgin). }
  assert (Huniq : forall g g' w w', In g (groups_of d) -> In g' (groups_of d) -> In w g -> In w' g' -> same_place w w' -> g = g').
  { intros g g' w w' Hgin Hgin' Hw Hw' [EK ER].
    unfold groups_of in Hgin, Hgin'. apply in_flat_map in Hgin as ([R l] & HRl & Hgin). apply in_flat_map in Hgin' as ([R' l'] & HRl' & Hgin'). cbn [snd] in *.
    apply in_map_iff in Hgin as ([c g0] & E & Hgin). cbn in E. subst g0. apply in_map_iff in Hgin' as ([c' g0] & E & Hgin'). cbn in E. subst g0.
    apply in_group in Hgin as [Eg _]. apply in_group in Hgin' as [Eg' _].
    pose proof Hw as Hw0. pose proof Hw' as Hw0'. rewrite Eg in Hw0. rewrite Eg' in Hw0'. apply filter_In in Hw0 as [Hwl Hc1]. apply filter_In in Hw0' as [Hwl' Hc2].
    apply filter_In in Hwl as [Hwl _]. apply filter_In in Hwl' as [Hwl' _].
    assert (R' = R) by (rewrite <- (dict_roles _ _ _ HRl Hwl), <- (dict_roles _ _ _ HRl' Hwl'); congruence). subst R'.
    assert (l' = l) by (rewrite (in_dict _ _ HRl), (in_dict _ _ HRl'); reflexivity). subst l'.
    destruct (wclass_reflect (wclass_of w) c) as [<-|]; [|discriminate]. destruct (wclass_reflect (wclass_of w') c') as [<-|]; [|discriminate].
    rewrite Eg, Eg'. unfold wclass_of. rewrite EK. reflexivity. }
  assert (Hsub : forall g, In g (groups_of d) -> In g (groups_of d)) by auto. revert F Hn Hsub. generalize (groups_of d) at 1 2 3. intros gs F. clear Hg.
  induction F as [|g w gs ls ((w0 & Hw0 & Hs0) & _) F IH]; intros Hn Hsub; [constructor|]. inversion Hn as [|? ? Hng Hn']; subst. cbn. constructor.
  - intros Hin. apply in_map_iff in Hin as (w2 & E & Hw2). destruct (Forall2_in_r _ _ _ _ F Hw2) as (g2 & Hg2 & (w3 & Hw3 & Hs3) & _).
    apply Hng. replace g with g2; [exact Hg2|]. symmetry. eapply (Huniq g g2 w0 w3); [apply Hsub; left; reflexivity|apply Hsub; right; exact Hg2|exact Hw0|exact Hw3|].
    destruct Hs0, Hs3. injection E as E1 E2. split; congruence.
  - apply IH; [exact Hn'|]. intros g' Hg'. apply Hsub. right. exact Hg'.
Qed.

(** What a logical network relates is what the links of the place relate. *)
Lemma combined_relates R k o o' : is_physical k = false ->
  ((exists w, In w ws /\ w_kind w = k /\ w_role w = R /\ relates h' (w_roots w) o o') <->
   exists r net, In r rs /\ r_role r = R /\ r_kind r = k /\ In net (r_nets r) /\ relates (r_heap r) net o o').
Proof.
  intros Hk. destruct combined as (ls & Hf & _ & Hin & F). split.
  - intros (w & Hw & Ek & Er & Hrel). assert (Hl : In w ls).
    { rewrite <- Hf. apply filter_In. split; [exact Hw|]. unfold logical, physical. rewrite Ek, Hk. reflexivity. }
    destruct (Forall2_in_r _ _ _ _ F Hl) as (g & Hg & (w0 & Hw0 & Hs0) & _ & Srel). apply Srel in Hrel as (a & n & m & Ha & X). apply in_concat in Ha as (l & Hl' & Ha).
    apply in_map_iff in Hl' as (w' & <- & Hw'). destruct (in_groups d Hkeys dict_roles g Hg) as [_ G]. pose proof Hw' as Hw''.
    apply (proj2 (G w0 Hw0)) in Hw'' as (Hd & _ & Ek' & Er'). apply dict_nets in Hd as (r & Hr & Hnr). destruct (nets_of_role r w' Hnr) as [E1 E2].
    pose proof Hnr as Hnr'. unfold nets_of in Hnr'. apply in_map_iff in Hnr' as (net & E & Hnet). exists r, net. destruct Hs0 as [S1 S2].
    split; [exact Hr|]. split; [congruence|]. split; [congruence|]. split; [exact Hnet|]. apply (relates_at r net o o' Hr Hnet). rewrite <- E in Ha. exists a, n, m. split; [exact Ha|exact X].
  - intros (r & net & Hr & Er & Ek & Hnet & Hrel). set (w0 := Net (r_kind r) (r_role r) (map (Nat.add (r_base r)) net)).
    assert (Hw0 : In w0 (nets_of r)) by (unfold nets_of; apply (in_map (fun rs => Net (r_kind r) (r_role r) (map (Nat.add (r_base r)) rs))), Hnet).
    destruct (proj2 (dict_nets w0)) as (R' & l & A & B); [eauto|]. destruct (groups_have d R' l w0 A B) as (g & Hg & Hwg).
    { unfold logical, physical, w0. cbn [w_kind]. rewrite Ek, Hk. reflexivity. }
    destruct (Forall2_in_l _ _ _ _ F Hg) as (w & Hw & (w1 & Hw1 & S1 & S2) & _ & Srel). exists w. split; [apply Hin; left; exact Hw|].
    destruct (in_groups d Hkeys dict_roles g Hg) as [_ G]. apply (proj2 (G w0 Hwg)) in Hw1 as (_ & _ & T1 & T2). cbn [w0 w_kind w_role] in T1, T2.
    split; [congruence|]. split; [congruence|]. apply Srel. apply (relates_at r net o o' Hr Hnet) in Hrel. destruct Hrel as (a & n & m & Ha & X).
    exists a, n, m. split; [|exact X]. apply in_concat. exists (w_roots w0). split; [apply in_map, Hwg|exact Ha].
Qed.
Lemma combined_shows R k o : is_physical k = false ->
  ((exists w, In w ws /\ w_kind w = k /\ w_role w = R /\ shows h' (w_roots w) o) <->
   exists r net, In r rs /\ r_role r = R /\ r_kind r = k /\ In net (r_nets r) /\ shows (r_heap r) net o).
Proof.
  intros Hk. destruct combined as (ls & Hf & _ & Hin & F). split.
  - intros (w & Hw & Ek & Er & Hrel). assert (Hl : In w ls).
    { rewrite <- Hf. apply filter_In. split; [exact Hw|]. unfold logical, physical. rewrite Ek, Hk. reflexivity. }
    destruct (Forall2_in_r _ _ _ _ F Hl) as (g & Hg & (w0 & Hw0 & Hs0) & Ssh & _). apply Ssh in Hrel as (a & n & Ha & X). apply in_concat in Ha as (l & Hl' & Ha).
    apply in_map_iff in Hl' as (w' & <- & Hw'). destruct (in_groups d Hkeys dict_roles g Hg) as [_ G]. pose proof Hw' as Hw''.
    apply (proj2 (G w0 Hw0)) in Hw'' as (Hd & _ & Ek' & Er'). apply dict_nets in Hd as (r & Hr & Hnr). destruct (nets_of_role r w' Hnr) as [E1 E2].
    pose proof Hnr as Hnr'. unfold nets_of in Hnr'. apply in_map_iff in Hnr' as (net & E & Hnet). exists r, net. destruct Hs0 as [S1 S2].
    split; [exact Hr|]. split; [congruence|]. split; [congruence|]. split; [exact Hnet|]. apply (shows_at r net o Hr Hnet). rewrite <- E in Ha. exists a, n. split; [exact Ha|exact X].
  - intros (r & net & Hr & Er & Ek & Hnet & Hrel). set (w0 := Net (r_kind r) (r_role r) (map (Nat.add (r_base r)) net)).
    assert (Hw0 : In w0 (nets_of r)) by (unfold nets_of; apply (in_map (fun rs => Net (r_kind r) (r_role r) (map (Nat.add (r_base r)) rs))), Hnet).
    destruct (proj2 (dict_nets w0)) as (R' & l & A & B); [eauto|]. destruct (groups_have d R' l w0 A B) as (g & Hg & Hwg).
    { unfold logical, physical, w0. cbn [w_kind]. rewrite Ek, Hk. reflexivity. }
    destruct (Forall2_in_l _ _ _ _ F Hg) as (w & Hw & (w1 & Hw1 & S1 & S2) & Ssh & _). exists w. split; [apply Hin; left; exact Hw|].
    destruct (in_groups d Hkeys dict_roles g Hg) as [_ G]. apply (proj2 (G w0 Hwg)) in Hw1 as (_ & _ & T1 & T2). cbn [w0 w_kind w_role] in T1, T2.
    split; [congruence|]. split; [congruence|]. apply Ssh. apply (shows_at r net o Hr Hnet) in Hrel. destruct Hrel as (a & n & Ha & X).
    exists a, n. split; [|exact X]. apply in_concat. exists (w_roots w0). split; [apply in_map, Hwg|exact Ha].
Qed.
(** Physical networks are left as they are. *)
Lemma combined_physical w : physical w = true -> (In w ws <-> exists r, In r rs /\ In w (nets_of r)).
Proof.
  intros Hp. destruct combined as (ls & Hf & _ & Hin & _). rewrite Hin. split.
  - intros [A|(r & A & B & _)]; [|eauto]. rewrite <- Hf in A. apply filter_In in A as [_ A]. unfold logical in A. rewrite Hp in A. discriminate.
  - intros (r & A & B). right. eauto.
Qed.
Lemma physical_nodes_kept r n : In r rs -> is_physical (r_kind r) = true -> n < length (r_heap r) ->
  nth_error h' (r_base r + n) = option_map (shift_node (r_base r)) (nth_error (r_heap r) n).
Proof.
  intros Hr Hp Hn. destruct combined as (_ & _ & [_ W] & _). rewrite <- (heap_at r n Hr Hn). apply W. intros (R & k & Hk & Hpl).
  destruct (place_unique (r_role r) (r_kind r) R k (r_base r + n)) as [_ E]; [|exact Hpl|congruence]. exists r. split; [exact Hr|]. split; [reflexivity|]. split; [reflexivity|]. unfold own. lia.
Qed.
End Heap.
End Runs.
