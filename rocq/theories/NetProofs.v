(** Proofs about networks. *)
From Verif Require Import Base NetModel NetSpec.
Local Open Scope nat_scope.

(** ** Sorting *)

Section SortMore.
  Context {A : Type} (leb : A -> A -> bool).
  Hypothesis leb_total : forall x y, leb x y = true \/ leb y x = true.
  Hypothesis leb_trans : forall x y z, leb x y = true -> leb y z = true -> leb x z = true.
  Lemma leb_refl x : leb x x = true.
  Proof. destruct (leb_total x x); assumption. Qed.
  Lemma sorted_unique l1 : forall l2, StronglySorted (le leb) l1 -> StronglySorted (le leb) l2 ->
    (forall k, filter (same_key leb k) l1 = filter (same_key leb k) l2) -> l1 = l2.
  Proof.
    assert (Hin : forall (l l' : list A) x, (forall k, filter (same_key leb k) l = filter (same_key leb k) l') -> In x l -> In x l').
    { intros l l' x H Hx. assert (In x (filter (same_key leb x) l)) as H1.
      { apply filter_In. split; [exact Hx|]. unfold same_key. rewrite leb_refl. reflexivity. }
      rewrite H in H1. apply filter_In in H1. tauto. }
    induction l1 as [|x t1 IH]; intros l2 H1 H2 Hf.
    - destruct l2 as [|y t2]; [reflexivity|]. exfalso. apply (Hin (y :: t2) [] y); [symmetry; apply Hf|left; reflexivity].
    - destruct l2 as [|y t2]; [exfalso; apply (Hin (x :: t1) [] x); [exact Hf|left; reflexivity]|].
      inversion H1 as [|? ? S1 F1]; subst. inversion H2 as [|? ? S2 F2]; subst.
      assert (Hxy : leb x y = true).
      { destruct (Hin (y :: t2) (x :: t1) y) as [->|Hy]; [symmetry; apply Hf|left; reflexivity|apply leb_refl|].
        rewrite Forall_forall in F1. apply F1, Hy. }
      assert (Hyx : leb y x = true).
      { destruct (Hin (x :: t1) (y :: t2) x) as [->|Hy]; [apply Hf|left; reflexivity|apply leb_refl|].
        rewrite Forall_forall in F2. apply F2, Hy. }
      assert (x = y) as ->.
      { specialize (Hf x). cbn [filter] in Hf.
        assert (E1 : same_key leb x x = true) by (unfold same_key; rewrite leb_refl; reflexivity).
        assert (E2 : same_key leb x y = true) by (unfold same_key; rewrite Hxy, Hyx; reflexivity).
        rewrite E1, E2 in Hf. congruence. }
      f_equal. apply IH; [assumption|assumption|]. intros k. specialize (Hf k). cbn in Hf. destruct (same_key leb k y); congruence.
  Qed.
  Lemma sort_sort_snoc l c : stable_sort leb (stable_sort leb l ++ [c]) = stable_sort leb (l ++ [c]).
  Proof.
    apply sorted_unique; [apply stable_sort_sorted; assumption|apply stable_sort_sorted; assumption|].
    intros k. rewrite !stable_sort_stable, !filter_app, stable_sort_stable by assumption. reflexivity.
  Qed.
End SortMore.

Lemma order_total h x y : order_leb h x y = true \/ order_leb h y x = true.
Proof. unfold order_leb. rewrite !Qle_bool_iff. destruct (Qlt_le_dec (get_order h x) (get_order h y)); [left; apply Qlt_le_weak|right]; assumption. Qed.
Lemma order_trans h x y z : order_leb h x y = true -> order_leb h y z = true -> order_leb h x z = true.
Proof. unfold order_leb. rewrite !Qle_bool_iff. apply Qle_trans. Qed.

(** ** The heap *)

Lemma nth_update h i f j :
  nth_error (update h i f) j = if Nat.eqb i j then option_map f (nth_error h j) else nth_error h j.
Proof.
  unfold update. destruct (nth_error h i) as [n|] eqn:E.
  - pose proof E as E'. apply nth_error_split in E as (l1 & l2 & -> & Hl). subst i.
    rewrite firstn_app, firstn_all, Nat.sub_diag. cbn [firstn]. rewrite app_nil_r.
    assert (Hs : skipn (S (length l1)) (l1 ++ n :: l2) = l2).
    { clear. induction l1; [reflexivity|]. exact IHl1. }
    rewrite Hs. destruct (Nat.eqb_spec (length l1) j) as [<-|Hn].
    + rewrite E', nth_error_app2, Nat.sub_diag by lia. reflexivity.
    + destruct (Nat.lt_ge_cases j (length l1)).
      * rewrite !nth_error_app1 by lia. reflexivity.
      * rewrite !nth_error_app2 by lia. destruct (j - length l1) eqn:Ej; [lia|reflexivity].
  - apply nth_error_None in E. rewrite firstn_all2 by lia. rewrite app_nil_r.
    destruct (Nat.eqb_spec i j) as [<-|Hn]; [|reflexivity]. apply nth_error_None in E. rewrite E. reflexivity.
Qed.
Lemma add_child_order h p c i : get_order (add_child h p c) i = get_order h i.
Proof. unfold get_order, add_child. rewrite nth_update. destruct (Nat.eqb p i), (nth_error h i); reflexivity. Qed.

Lemma stable_sort_ext {A} (f g : A -> A -> bool) l : (forall x y, f x y = g x y) -> stable_sort f l = stable_sort g l.
Proof.
  intros H. unfold stable_sort. induction l as [|x l IH]; [reflexivity|]. cbn. rewrite IH. generalize (fold_right (insert_sorted g) [] l).
  induction l0 as [|y l0 IH0]; [reflexivity|]. cbn. rewrite H, IH0. reflexivity.
Qed.

Definition added (adds : list (nat * nat)) (p : nat) : list nat :=
  map snd (filter (fun x => Nat.eqb (fst x) p) adds).

(** What a sequence of additions does to one node. *)
Lemma nth_add_all adds : forall h j,
  nth_error (add_all h adds) j =
  option_map (fun n => match added adds j with [] => n | l => set_children n (stable_sort (order_leb h) (n_kids n ++ l)) end)
             (nth_error h j).
Proof.
  induction adds as [|[p c] adds IH]; intros h j.
  - cbn. destruct (nth_error h j); reflexivity.
  - unfold add_all. cbn [fold_left]. fold (add_all (add_child h (fst (p, c)) (snd (p, c))) adds). rewrite IH. clear IH.
    cbn [fst snd]. unfold add_child at 2. rewrite nth_update. unfold added. cbn [filter fst]. fold (added adds j).
    assert (Ho : forall x y, order_leb (add_child h p c) x y = order_leb h x y).
    { intros x y. unfold order_leb. rewrite !add_child_order. reflexivity. }
    change (map snd (filter (fun x => Nat.eqb (fst x) j) adds)) with (added adds j).
    destruct (Nat.eqb_spec p j) as [->|Hn]; cbn [map snd filter].
    + change (map snd (filter (fun x => Nat.eqb (fst x) j) adds)) with (added adds j).
      destruct (nth_error h j) as [n|]; [|reflexivity]. cbn [option_map]. f_equal.
      destruct (added adds j) as [|x l] eqn:E; [reflexivity|].
      unfold set_children. cbn [n_loc n_obj n_role n_order n_weight n_pref n_kids]. f_equal. rewrite (stable_sort_ext _ _ _ Ho).
      change (n_kids n ++ c :: x :: l) with (n_kids n ++ [c] ++ x :: l). rewrite app_assoc.
      generalize (x :: l) as r. clear. intros r. generalize (n_kids n ++ [c]) as k.
      intros k. apply sorted_unique with (leb := order_leb h); [apply order_total|apply stable_sort_sorted;[apply order_total|apply order_trans]..|].
      intros q. rewrite !stable_sort_stable, !filter_app, stable_sort_stable by (apply order_total || apply order_trans). reflexivity.
    + change (map snd (filter (fun x => Nat.eqb (fst x) j) adds)) with (added adds j).
      destruct (nth_error h j) as [n|]; [|reflexivity]. cbn [option_map]. f_equal.
      destruct (added adds j) as [|x l] eqn:E; [reflexivity|]. rewrite (stable_sort_ext _ _ _ Ho). reflexivity.
Qed.
Lemma add_all_length adds : forall h, length (add_all h adds) = length h.
Proof.
  intros h. apply Nat.le_antisymm.
  - destruct (Nat.le_gt_cases (length (add_all h adds)) (length h)) as [H|H]; [exact H|]. exfalso.
    apply nth_error_Some in H. rewrite nth_add_all in H. destruct (nth_error h (length h)) eqn:E; [|apply H; reflexivity].
    assert (length h < length h) by (apply nth_error_Some; congruence). lia.
  - destruct (Nat.le_gt_cases (length h) (length (add_all h adds))) as [H|H]; [exact H|]. exfalso.
    assert (E : nth_error (add_all h adds) (length (add_all h adds)) = None) by (apply nth_error_None; lia).
    rewrite nth_add_all in E. apply nth_error_Some in H. destruct (nth_error h _); [discriminate|congruence].
Qed.
Lemma add_all_order adds h i : get_order (add_all h adds) i = get_order h i.
Proof. unfold get_order. rewrite nth_add_all. destruct (nth_error h i); [|reflexivity]. cbn. destruct (added adds i); reflexivity. Qed.

Lemma sort_sorted_by h l : sorted_by (get_order h) l (stable_sort (order_leb h) l).
Proof.
  split; [apply stable_sort_perm|]. split.
  - assert (H := stable_sort_sorted (order_leb h) (order_total h) (order_trans h) l). induction H as [|x l' H IH HF]; constructor; [assumption|].
    eapply Forall_impl; [|exact HF]. intros y Hy. apply Qle_bool_iff, Hy.
  - intros q. destruct (existsb (fun x => Qeq_bool (get_order h x) q) l) eqn:E.
    + apply existsb_exists in E as (k & Hk & Hq). apply Qeq_bool_iff in Hq.
      assert (He : forall x, Qeq_bool (get_order h x) q = same_key (order_leb h) k x).
      { intros x. unfold same_key, order_leb. apply eq_true_iff_eq. rewrite andb_true_iff, !Qle_bool_iff, Qeq_bool_iff, <- Hq.
        split; [intros ->; split; apply Qle_refl|intros [H1 H2]; apply Qle_antisym; assumption]. }
      rewrite !(filter_ext _ _ He). apply stable_sort_stable; [apply order_total|apply order_trans].
    + assert (H : forall x, In x l -> Qeq_bool (get_order h x) q = false).
      { intros x Hx. destruct (Qeq_bool (get_order h x) q) eqn:Ex; [|reflexivity].
        assert (existsb (fun x => Qeq_bool (get_order h x) q) l = true) by (apply existsb_exists; eauto). congruence. }
      assert (G : forall l', (forall x, In x l' -> In x l) -> filter (fun x => Qeq_bool (get_order h x) q) l' = []).
      { induction l' as [|x l' IH]; intros Hl; [reflexivity|]. cbn. rewrite H by (apply Hl; left; reflexivity). apply IH. intros; apply Hl; right; assumption. }
      rewrite !G; [reflexivity|auto|]. intros x. apply stable_sort_in.
Qed.

Lemma children_add_all adds h p n : nth_error h p = Some n -> n_kids n = [] ->
  get_children (add_all h adds) p = stable_sort (order_leb h) (added adds p).
Proof.
  intros E Hk. unfold get_children. rewrite nth_add_all, E. cbn. destruct (added adds p); [cbn; exact Hk|]. rewrite Hk. reflexivity.
Qed.

(** ** Traversal *)

Lemma nmem_in x l : nmem x l = true <-> In x l.
Proof. unfold nmem. rewrite existsb_exists. split; [intros (y & Hy & E); apply Nat.eqb_eq in E; subst; exact Hy|intros H; exists x; rewrite Nat.eqb_refl; auto]. Qed.
Lemma set_add_in x y l : In x (set_add y l) <-> x = y \/ In x l.
Proof.
  unfold set_add. destruct (nmem y l) eqn:E.
  - apply nmem_in in E. intuition (subst; assumption).
  - rewrite in_app_iff. cbn. intuition auto.
Qed.
Lemma set_add_nodup y l : NoDup l -> NoDup (set_add y l).
Proof.
  intros H. unfold set_add. destruct (nmem y l) eqn:E; [exact H|]. apply NoDup_snoc; [exact H|].
  intros Hn. apply nmem_in in Hn. congruence.
Qed.

Lemma reach_trans h i j k : reach h i j -> reach h j k -> reach h i k.
Proof. intros H1 H2. induction H2; [exact H1|]. eapply reach_step; eauto. Qed.
Lemma reach_inv h i j : reach h i j -> j = i \/ exists k, In k (get_children h i) /\ reach h k j.
Proof.
  induction 1 as [|j k Hr IH Hk]; [auto|]. right. destruct IH as [->|(m & Hm & Hmj)].
  - exists k. split; [exact Hk|constructor].
  - exists m. split; [exact Hm|]. eapply reach_step; eauto.
Qed.
Lemma reach_child h i k j : In k (get_children h i) -> reach h k j -> reach h i j.
Proof. intros Hk. apply reach_trans. eapply reach_step; [constructor|exact Hk]. Qed.

(** No infinite descent from the node. *)
Inductive finite (h : heap) (i : nat) : Prop := fin : (forall k, In k (get_children h i) -> finite h k) -> finite h i.

Lemma finite_reach h i j : finite h i -> reach h i j -> finite h j.
Proof. intros Hf. induction 1 as [|j k Hr IH Hk]; [exact Hf|]. destruct IH as [IH]. auto. Qed.
Lemma finite_not_below h i : finite h i -> ~ below h i i.
Proof.
  induction 1 as [i H IH]. intros (k & Hk & Hr). apply (IH k Hk).
  destruct (reach_inv _ _ _ Hr) as [->|(m & Hm & Hmi)]; [exists k; split; [exact Hk|constructor]|].
  exists m. split; [exact Hm|]. eapply reach_step; eauto.
Qed.
Lemma finite_acyclic h i : finite h i -> acyclic h i.
Proof. intros Hf j Hj. apply finite_not_below, (finite_reach _ _ _ Hf Hj). Qed.

Lemma acyclic_finite_aux h i0 : acyclic h i0 -> forall m vis i, reach h i0 i -> NoDup vis ->
  (forall v, In v vis -> v < length h /\ below h v i) -> length h - length vis <= m -> finite h i.
Proof.
  intros Hac. induction m as [|m IH]; intros vis i Hi Hn Hv Hm.
  - destruct (Nat.lt_ge_cases i (length h)) as [Hlt|Hge].
    + exfalso. assert (Hin : In i vis).
      { assert (Hl : length (seq 0 (length h)) <= length vis) by (rewrite seq_length; lia).
        apply (NoDup_length_incl Hn Hl); [intros v Hvv; apply in_seq; destruct (Hv v Hvv); lia|apply in_seq; lia]. }
      destruct (Hv i Hin) as [_ Hb]. exact (Hac i Hi Hb).
    + constructor. unfold get_children. rewrite (proj2 (nth_error_None h i) Hge). intros k [].
  - constructor. intros k Hk. apply (IH (i :: vis)).
    + eapply reach_step; eauto.
    + constructor; [|exact Hn]. intros Hin. destruct (Hv i Hin) as [_ Hb]. exact (Hac i Hi Hb).
    + intros v [<-|Hvv].
      * split; [|exists k; split; [exact Hk|constructor]]. unfold get_children in Hk. destruct (nth_error h i) eqn:E; [|destruct Hk].
        apply nth_error_Some. congruence.
      * destruct (Hv v Hvv) as [Hlt (c & Hc & Hr)]. split; [exact Hlt|]. exists c. split; [exact Hc|]. eapply reach_step; eauto.
    + cbn [length]. lia.
Qed.
Lemma finite_iff_acyclic h i : finite h i <-> acyclic h i.
Proof.
  split; [apply finite_acyclic|]. intros H. apply (acyclic_finite_aux h i H (length h) []); [constructor|constructor|intros v []|cbn; lia].
Qed.

Lemma descendants_loop_spec : forall fuel h work seen r, descendants_loop fuel h work seen = Some r ->
  (forall x, In x r <-> In x seen \/ exists w, In w work /\ reach h w x) /\ (NoDup seen -> NoDup r) /\
  (forall w, In w work -> finite h w).
Proof.
  induction fuel as [|fuel IH]; intros h work seen r H; cbn [descendants_loop] in H; destruct (rev work) as [|n rest] eqn:E.
  1, 3: injection H as ->; assert (work = []) as -> by (rewrite <- (rev_involutive work), E; reflexivity);
    (split; [intros x; split; [auto|intros [Hx|(w & [] & _)]; exact Hx]|split; [auto|intros w []]]).
  - discriminate.
  - assert (work = rev rest ++ [n]) as -> by (rewrite <- (rev_involutive work), E; reflexivity).
    destruct (IH _ _ _ _ H) as (Hin & Hn & Hf). split; [|split].
    + intros x. rewrite Hin, set_add_in. split.
      * intros [[->|Hx]|(w & Hw & Hr)].
        -- right. exists n. rewrite in_app_iff. split; [right; left; reflexivity|constructor].
        -- auto.
        -- right. apply in_app_or in Hw as [Hw|Hw].
           ++ exists w. rewrite in_app_iff. auto.
           ++ exists n. rewrite in_app_iff. split; [right; left; reflexivity|]. eapply reach_child; eauto.
      * intros [Hx|(w & Hw & Hr)]; [auto|]. apply in_app_or in Hw as [Hw|[<-|[]]].
        -- right. exists w. rewrite in_app_iff. auto.
        -- destruct (reach_inv _ _ _ Hr) as [->|(k & Hk & Hkx)]; [auto|]. right. exists k. rewrite in_app_iff. auto.
    + intros Hs. apply Hn, set_add_nodup, Hs.
    + intros w Hw. apply in_app_or in Hw as [Hw|[<-|[]]]; [apply Hf, in_or_app; auto|].
      constructor. intros k Hk. apply Hf, in_or_app. auto.
Qed.
Lemma descendants_loop_ends h : forall i, finite h i -> forall rest,
  (forall seen, exists fuel r, descendants_loop fuel h rest seen = Some r) ->
  forall seen, exists fuel r, descendants_loop fuel h (rest ++ [i]) seen = Some r.
Proof.
  induction 1 as [i H IH]. intros rest Hrest seen.
  assert (G : forall ks, incl ks (get_children h i) -> forall seen, exists fuel r, descendants_loop fuel h (rest ++ ks) seen = Some r).
  { intros ks. induction ks as [|k ks IHk] using rev_ind; intros Hi s; [rewrite app_nil_r; apply Hrest|].
    rewrite app_assoc. apply IH; [apply Hi, in_or_app; right; left; reflexivity|]. intros s'. apply IHk. intros x Hx. apply Hi, in_or_app. auto. }
  destruct (G _ (incl_refl _) (set_add i seen)) as (fuel & r & Hr). exists (S fuel), r.
  cbn [descendants_loop]. rewrite rev_app_distr. cbn. rewrite rev_involutive. exact Hr.
Qed.
Lemma descendants_ends_iff h i : (exists fuel r, get_all_descendants fuel h i = Some r) <-> finite h i.
Proof.
  split.
  - intros (fuel & r & H). apply (descendants_loop_spec _ _ _ _ _ H). left. reflexivity.
  - intros H. apply (descendants_loop_ends h i H []). intros seen. exists 0, seen. reflexivity.
Qed.
Lemma descendants_mono h : forall fuel work seen r, descendants_loop fuel h work seen = Some r ->
  forall fuel', fuel <= fuel' -> descendants_loop fuel' h work seen = Some r.
Proof.
  induction fuel as [|fuel IH]; intros work seen r H fuel' Hle; destruct fuel'; cbn [descendants_loop] in *; destruct (rev work); try exact H; try discriminate; [lia|].
  apply IH; [exact H|lia].
Qed.

(** get_all_nodes *)
Lemma fold_none h fuel l : fold_left (fun acc c => match acc with Some l => add_children fuel h c l | None => None end) l None = None.
Proof. induction l; [reflexivity|exact IHl]. Qed.
Lemma fold_add_spec fuel h :
  (forall i nodes r, add_children fuel h i nodes = Some r ->
     (forall x, In x r <-> In x nodes \/ reach h i x) /\ (NoDup nodes -> NoDup r) /\ finite h i) ->
  forall l nodes r, fold_left (fun acc c => match acc with Some l => add_children fuel h c l | None => None end) l (Some nodes) = Some r ->
    (forall x, In x r <-> In x nodes \/ exists c, In c l /\ reach h c x) /\ (NoDup nodes -> NoDup r) /\ (forall c, In c l -> finite h c).
Proof.
  intros H. induction l as [|c l IH]; intros nodes r Hr.
  - injection Hr as ->. split; [intros x; split; [auto|intros [Hx|(c & [] & _)]; exact Hx]|split; [auto|intros c []]].
  - cbn [fold_left] in Hr. destruct (add_children fuel h c nodes) as [n1|] eqn:E; [|rewrite fold_none in Hr; discriminate].
    destruct (H _ _ _ E) as (H1 & H2 & H3). destruct (IH _ _ Hr) as (I1 & I2 & I3). split; [|split; [auto|]].
    + intros x. rewrite I1, H1. split.
      * intros [[Hx|Hx]|(d & Hd & Hx)]; [auto|right; exists c; cbn; auto|right; exists d; cbn; auto].
      * intros [Hx|(d & [<-|Hd] & Hx)]; [auto|auto|right; eauto].
    + intros d [<-|Hd]; auto.
Qed.
Lemma add_children_spec h : forall fuel i nodes r, add_children fuel h i nodes = Some r ->
  (forall x, In x r <-> In x nodes \/ reach h i x) /\ (NoDup nodes -> NoDup r) /\ finite h i.
Proof.
  induction fuel as [|fuel IH]; intros i nodes r H; [discriminate|]. cbn [add_children] in H.
  destruct (fold_add_spec fuel h IH _ _ _ H) as (H1 & H2 & H3). split; [|split].
  - intros x. rewrite H1, set_add_in. split.
    + intros [[->|Hx]|(c & Hc & Hr)]; [right; constructor|auto|right; eapply reach_child; eauto].
    + intros [Hx|Hr]; [auto|]. destruct (reach_inv _ _ _ Hr) as [->|(k & Hk & Hkx)]; [auto|right; eauto].
  - intros Hn. apply H2, set_add_nodup, Hn.
  - constructor. exact H3.
Qed.
Lemma add_children_mono h : forall fuel i nodes r, add_children fuel h i nodes = Some r ->
  forall fuel', fuel <= fuel' -> add_children fuel' h i nodes = Some r.
Proof.
  induction fuel as [|fuel IH]; intros i nodes r H fuel' Hle; [discriminate|]. destruct fuel'; [lia|]. cbn [add_children] in *.
  revert H. generalize (set_add i nodes). induction (get_children h i) as [|c l IHl]; intros s H; [exact H|]. cbn [fold_left] in *.
  destruct (add_children fuel h c s) as [n1|] eqn:E; [|rewrite fold_none in H; discriminate].
  rewrite (IH _ _ _ E fuel') by lia. apply IHl, H.
Qed.
Lemma fold_add_ends h : forall l, (forall c, In c l -> forall nodes, exists fuel r, add_children fuel h c nodes = Some r) ->
  forall nodes, exists fuel r, forall fuel', fuel <= fuel' ->
    fold_left (fun acc c => match acc with Some l => add_children fuel' h c l | None => None end) l (Some nodes) = Some r.
Proof.
  induction l as [|c l IH]; intros H nodes; [exists 0, nodes; reflexivity|].
  destruct (H c (or_introl eq_refl) nodes) as (f1 & n1 & E1). destruct (IH (fun d Hd => H d (or_intror Hd)) n1) as (f2 & r & E2).
  exists (f1 + f2), r. intros f' Hf. cbn [fold_left]. rewrite (add_children_mono _ _ _ _ _ E1) by lia. apply E2. lia.
Qed.
Lemma add_children_ends h i : finite h i -> forall nodes, exists fuel r, add_children fuel h i nodes = Some r.
Proof.
  induction 1 as [i H IH]. intros nodes. destruct (fold_add_ends h (get_children h i) IH (set_add i nodes)) as (f & r & E).
  exists (S f), r. cbn [add_children]. apply E. lia.
Qed.
