(** Combination of networks. *)
From Verif Require Import Base NetModel NetSpec NetProofs.
Local Open Scope nat_scope.

Lemma object_add_all h adds n : object (add_all h adds) n = object h n.
Proof. unfold object. rewrite nth_add_all. destruct (nth_error h n) as [x|]; [|reflexivity]. cbn. destruct (added adds n); reflexivity. Qed.
Lemma nodes_equal_object h a b : nodes_equal h a b = true -> exists o, object h a = Some o /\ object h b = Some o.
Proof.
  unfold nodes_equal, object. destruct (nth_error h a) as [x|], (nth_error h b) as [y|]; try discriminate. cbn. intros E. apply Nat.eqb_eq in E. rewrite E. eauto.
Qed.
Lemma object_lt h n o : object h n = Some o -> n < length h.
Proof. unfold object. intros H. apply nth_error_Some. destruct (nth_error h n); [discriminate|discriminate]. Qed.

(** Children after the children of [r] went to [p]. *)
Definition give (h : heap) (p r : nat) : heap := add_all h (map (fun c => (p, c)) (get_children h r)).
Lemma added_give p l j : added (map (fun c => (p, c)) l) j = if Nat.eqb p j then l else [].
Proof.
  unfold added. induction l as [|c l IH]; cbn; [destruct (Nat.eqb p j); reflexivity|].
  destruct (Nat.eqb p j); cbn; rewrite IH; reflexivity.
Qed.
Lemma give_children h p r j k : p < length h ->
  (In k (get_children (give h p r) j) <-> In k (get_children h j) \/ (j = p /\ In k (get_children h r))).
Proof.
  intros Hp. unfold give. unfold get_children at 1. rewrite nth_add_all, added_give. destruct (Nat.eqb_spec p j) as [->|Hn].
  - destruct (nth_error h j) as [x|] eqn:E; [|apply nth_error_None in E; lia]. cbn [option_map].
    assert (Hj : get_children h j = n_kids x) by (unfold get_children; rewrite E; reflexivity). rewrite Hj.
    destruct (get_children h r) as [|c l]; [cbn; tauto|]. cbn [n_kids set_children]. rewrite stable_sort_in, in_app_iff. tauto.
  - destruct (nth_error h j) as [x|] eqn:E; cbn [option_map].
    + replace (get_children h j) with (n_kids x) by (unfold get_children; rewrite E; reflexivity). intuition congruence.
    + replace (get_children h j) with (@nil nat) by (unfold get_children; rewrite E; reflexivity). cbn. intuition congruence.
Qed.
Lemma give_other h p r j : j <> p -> get_children (give h p r) j = get_children h j.
Proof.
  intros Hn. unfold give, get_children at 1. rewrite nth_add_all, added_give. destruct (Nat.eqb_spec p j); [congruence|].
  unfold get_children. destruct (nth_error h j); reflexivity.
Qed.
Lemma give_reach h p r i j : p < length h -> reach h i j -> reach (give h p r) i j.
Proof. intros Hp. induction 1; [constructor|]. eapply reach_step; [eassumption|]. apply give_children; auto. Qed.
Lemma ascending_add_all h adds : ascending h -> ascending (add_all h adds).
Proof.
  intros H n. assert (G : forall l, StronglySorted (fun a b => get_order h a <= get_order h b)%Q l ->
    StronglySorted (fun a b => get_order (add_all h adds) a <= get_order (add_all h adds) b)%Q l).
  { induction 1 as [|a l Hl IH Hf]; constructor; [exact IH|]. eapply Forall_impl; [|exact Hf]. cbn. intros b Hb. rewrite !add_all_order. exact Hb. }
  apply G. unfold get_children. rewrite nth_add_all. specialize (H n). unfold get_children in H. destruct (nth_error h n) as [x|]; [|exact H]. cbn [option_map].
  destruct (added adds n) as [|c l]; [exact H|]. cbn [n_kids set_children]. apply (sort_sorted_by h).
Qed.

(** One root of a further network: nothing shown is lost or invented. *)
Definition same_shown (h : heap) (roots : list nat) (h' : heap) (roots' : list nat) : Prop :=
  (forall o, shows h' roots' o <-> shows h roots o) /\ (forall o o', relates h' roots' o o' <-> relates h roots o o').
Lemma same_shown_trans h1 r1 h2 r2 h3 r3 : same_shown h1 r1 h2 r2 -> same_shown h2 r2 h3 r3 -> same_shown h1 r1 h3 r3.
Proof. intros [A B] [C D]. split; intros; [rewrite C; apply A|rewrite D; apply B]. Qed.
Lemma same_shown_roots h r1 r2 : (forall x, In x r1 <-> In x r2) -> same_shown h r1 h r2.
Proof.
  intros H. split; intros; split.
  - intros (r & n & Hr & X). exists r, n. apply H in Hr. auto.
  - intros (r & n & Hr & X). exists r, n. apply H in Hr. auto.
  - intros (r & n & m & Hr & X). exists r, n, m. apply H in Hr. auto.
  - intros (r & n & m & Hr & X). exists r, n, m. apply H in Hr. auto.
Qed.

Lemma give_shown h p r A B : nodes_equal h p r = true -> (exists q, In q A /\ reach h q p) ->
  same_shown h (A ++ r :: B) (give h p r) (A ++ B).
Proof.
  intros He (q & Hq & Hqp). destruct (nodes_equal_object _ _ _ He) as (op & Hop & Hor). pose proof (object_lt _ _ _ Hop) as Hp.
  assert (Ho : forall n, object (give h p r) n = object h n) by (intros; apply object_add_all).
  assert (Fwd : forall x n, In x (A ++ r :: B) -> reach h x n -> n = r \/ exists y, In y (A ++ B) /\ reach (give h p r) y n).
  { intros x n Hx H. induction H as [|j k Hj IH Hk].
    - apply in_app_or in Hx as [Hx|[<-|Hx]]; [right; exists x|auto|right; exists x]; (split; [apply in_or_app; auto|constructor]).
    - right. destruct IH as [->|(y & Hy & Hyj)].
      + exists q. split; [apply in_or_app; auto|]. eapply reach_step; [apply give_reach; eassumption|]. apply give_children; auto.
      + exists y. split; [exact Hy|]. eapply reach_step; [exact Hyj|]. apply give_children; auto. }
  assert (Bwd : forall y n, In y (A ++ B) -> reach (give h p r) y n -> exists x, In x (A ++ r :: B) /\ reach h x n).
  { intros y n Hy H. induction H as [|j k Hj IH Hk].
    - exists y. split; [apply in_app_or in Hy as [?|?]; apply in_or_app; cbn; auto|constructor].
    - apply give_children in Hk as [Hk|[-> Hk]]; [| |exact Hp].
      + destruct IH as (x & Hx & Hxj). exists x. split; [exact Hx|]. eapply reach_step; eauto.
      + exists r. split; [apply in_or_app; cbn; auto|]. eapply reach_step; [constructor|exact Hk]. }
  assert (Hqp' : exists y, In y (A ++ B) /\ reach (give h p r) y p) by (exists q; split; [apply in_or_app; auto|apply give_reach; assumption]).
  split; intros; split.
  - intros (y & n & Hy & Hn & E). destruct (Bwd y n Hy Hn) as (x & Hx & Hxn). exists x, n. rewrite Ho in E. auto.
  - intros (x & n & Hx & Hn & E). destruct (Fwd x n Hx Hn) as [->|(y & Hy & Hyn)].
    + destruct Hqp' as (y & Hy & Hyp). exists y, p. rewrite Ho. split; [exact Hy|split; [exact Hyp|congruence]].
    + exists y, n. rewrite Ho. auto.
  - intros (y & n & m & Hy & Hn & Hm & E & E'). rewrite Ho in E, E'. apply give_children in Hm as [Hm|[-> Hm]]; [| |exact Hp].
    + destruct (Bwd y n Hy Hn) as (x & Hx & Hxn). exists x, n, m. auto.
    + exists r, r, m. split; [apply in_or_app; cbn; auto|]. split; [constructor|]. split; [exact Hm|]. split; [congruence|exact E'].
  - intros (x & n & m & Hx & Hn & Hm & E & E'). destruct (Fwd x n Hx Hn) as [->|(y & Hy & Hyn)].
    + destruct Hqp' as (y & Hy & Hyp). exists y, p, m. rewrite !Ho. split; [exact Hy|split; [exact Hyp|split]]; [apply give_children; auto|split; congruence].
    + exists y, n, m. rewrite !Ho. split; [exact Hy|split; [exact Hyn|split]]; [apply give_children; auto|auto].
Qed.

(** [h'] is [h] with more children. *)
Definition grown (h h' : heap) : Prop := length h' = length h /\ forall j k, In k (get_children h j) -> In k (get_children h' j).
Lemma grown_reach h h' i j : grown h h' -> reach h i j -> reach h' i j.
Proof. intros [_ G]. induction 1; [constructor|]. eapply reach_step; [eassumption|]. apply G. assumption. Qed.
Lemma grown_refl h : grown h h. Proof. split; auto. Qed.
Lemma grown_trans h1 h2 h3 : grown h1 h2 -> grown h2 h3 -> grown h1 h3.
Proof. intros [A B] [C D]. split; [congruence|auto]. Qed.
Lemma grown_give h p r : p < length h -> grown h (give h p r).
Proof. intros Hp. split; [apply add_all_length|]. intros j k Hk. apply give_children; auto. Qed.

Lemma combine_roots_spec agg : forall roots h A h' A' B, combine_roots h agg A roots = (h', A') ->
  (forall n, In n agg -> exists q, In q A /\ reach h q n) ->
  same_shown h (A ++ roots ++ B) h' (A' ++ B) /\ grown h h' /\ (ascending h -> ascending h') /\
  (exists more, A' = A ++ more /\ incl more roots).
Proof.
  induction roots as [|r roots IH]; intros h A h' A' B H Hagg; cbn [combine_roots] in H.
  - injection H as <- <-. repeat split; auto. exists []. rewrite app_nil_r. split; [reflexivity|intros x []].
  - destruct (find (fun n => nodes_equal h n r) agg) as [p|] eqn:E.
    + apply find_some in E as [Hin He]. fold (give h p r) in H. destruct (nodes_equal_object _ _ _ He) as (o & Ho & _). pose proof (object_lt _ _ _ Ho) as Hp.
      destruct (IH _ _ _ _ B H) as (S & G & Asc & more & -> & Hm).
      { intros n Hn. destruct (Hagg n Hn) as (q & Hq & Hr). exists q. split; [exact Hq|]. apply give_reach; assumption. }
      split; [|split; [eapply grown_trans; [apply grown_give, Hp|exact G]|split; [intros Ha; apply Asc, ascending_add_all, Ha|]]].
      * eapply same_shown_trans; [|exact S]. cbn [app]. apply give_shown; [exact He|]. apply Hagg, Hin.
      * exists more. split; [reflexivity|]. intros x Hx. right. apply Hm, Hx.
    + destruct (IH _ _ _ _ B H) as (S & G & Asc & more & -> & Hm).
      { intros n Hn. destruct (Hagg n Hn) as (q & Hq & Hr). exists q. split; [apply in_or_app; auto|exact Hr]. }
      split; [|split; [exact G|split; [exact Asc|]]].
      * rewrite <- (app_assoc A [r]) in S. exact S.
      * exists (r :: more). rewrite <- app_assoc. split; [reflexivity|]. intros x [<-|Hx]; [left; reflexivity|right; apply Hm, Hx].
Qed.

Lemma all_descendants_in fuel h : forall roots l, all_descendants fuel h roots = Some l ->
  forall n, In n l <-> exists q, In q roots /\ reach h q n.
Proof.
  induction roots as [|r roots IH]; intros l H n; cbn in H; [injection H as <-; split; [intros []|intros (q & [] & _)]|].
  destruct (get_all_descendants fuel h r) as [a|] eqn:E1; [|discriminate]. destruct (all_descendants fuel h roots) as [b|]; [|discriminate].
  injection H as <-. destruct (descendants_loop_spec _ _ _ _ _ E1) as (Hin & _). rewrite in_app_iff, Hin, (IH b eq_refl). split.
  - intros [[[]|(w & [<-|[]] & Hr)]|(q & Hq & Hr)]; [exists r; cbn; auto|exists q; cbn; auto].
  - intros (q & [<-|Hq] & Hr); [left; right; exists r; cbn; auto|right; eauto].
Qed.

Lemma combine_loop_spec fuel shuffle : some_order shuffle -> forall networks h A h' A', combine_loop fuel shuffle h A networks = Some (h', A') ->
  same_shown h (A ++ concat networks) h' A' /\ grown h h' /\ (ascending h -> ascending h') /\ exists more, A' = A ++ more /\ incl more (concat networks).
Proof.
  intros Hs. induction networks as [|roots networks IH]; intros h A h' A' H; cbn [combine_loop] in H.
  - injection H as <- <-. cbn. rewrite app_nil_r. repeat split; auto. exists []. rewrite app_nil_r. split; [reflexivity|intros x []].
  - destruct (all_descendants fuel h A) as [agg|] eqn:E; [|discriminate]. destruct (combine_roots h (shuffle agg) A roots) as [h1 A1] eqn:E1.
    destruct (combine_roots_spec _ _ _ _ _ _ (concat networks) E1) as (S1 & G1 & Asc1 & m1 & -> & Hm1).
    { intros n Hn. apply (all_descendants_in _ _ _ _ E). apply (Permutation_in _ (Permutation_sym (Hs agg))), Hn. }
    destruct (IH _ _ _ _ H) as (S2 & G2 & Asc2 & m2 & -> & Hm2). split; [eapply same_shown_trans; eassumption|].
    split; [eapply grown_trans; eassumption|]. split; [auto|]. exists (m1 ++ m2). rewrite <- app_assoc. split; [reflexivity|].
    cbn [concat]. apply incl_app; [apply incl_appl, Hm1|apply incl_appr, Hm2].
Qed.

(** *** Termination *)

Lemma all_descendants_ends h : forall roots, (forall r, In r roots -> finite h r) -> exists fuel, forall fuel', fuel <= fuel' -> exists l, all_descendants fuel' h roots = Some l.
Proof.
  induction roots as [|r roots IH]; intros H; [exists 0; intros; exists []; reflexivity|].
  destruct (proj2 (descendants_ends_iff h r) (H r (or_introl eq_refl))) as (f1 & l1 & E1).
  destruct IH as (f2 & E2); [intros x Hx; apply H; right; exact Hx|]. exists (f1 + f2). intros f Hf. cbn.
  unfold get_all_descendants in *. rewrite (descendants_mono _ _ _ _ _ E1) by lia. destruct (E2 f) as (l2 & ->); [lia|]. eauto.
Qed.

(** What merging the roots of a network can change: only nodes of [S] get children, and these
    are in [T]. *)
Definition between (h h' : heap) (S T : nat -> Prop) : Prop :=
  (forall j, ~ S j -> get_children h' j = get_children h j) /\
  (forall j k, In k (get_children h' j) -> In k (get_children h j) \/ T k).
Lemma combine_roots_between agg h (S T : nat -> Prop) : (forall n, In n agg -> S n) -> (forall n, S n -> ~ T n) ->
  (forall n k, T n -> In k (get_children h n) -> T k) ->
  forall roots h1 A h' A', (forall r, In r roots -> T r) -> between h h1 S T -> combine_roots h1 agg A roots = (h', A') -> between h h' S T.
Proof.
  intros Hagg Hd Hcl. induction roots as [|r roots IH]; intros h1 A h' A' Hr Hb H; cbn [combine_roots] in H; [congruence|].
  destruct (find (fun n => nodes_equal h1 n r) agg) as [p|] eqn:E.
  - apply find_some in E as [Hin He]. fold (give h1 p r) in H. destruct (nodes_equal_object _ _ _ He) as (o & Ho & _). pose proof (object_lt _ _ _ Ho) as Hp.
    eapply IH; [intros x Hx; apply Hr; right; exact Hx| |exact H]. destruct Hb as [B1 B2]. split.
    + intros j Hj. rewrite give_other; [auto|]. intros ->. apply Hj, Hagg, Hin.
    + intros j k Hk. apply give_children in Hk as [Hk|[-> Hk]]; [auto| |exact Hp]. right.
      assert (HTr : T r) by (apply Hr; left; reflexivity). rewrite B1 in Hk; [eapply Hcl; eauto|]. intros HS. apply (Hd r HS HTr).
  - eapply IH; [intros x Hx; apply Hr; right; exact Hx|exact Hb|exact H].
Qed.
Lemma between_finite h h' S T : between h h' S T -> (forall n, S n -> ~ T n) -> (forall n k, T n -> In k (get_children h n) -> T k) ->
  (forall n, T n -> finite h n) -> forall j, finite h j -> finite h' j.
Proof.
  intros [B1 B2] Hd Hcl HT.
  assert (FT : forall t, finite h t -> T t -> finite h' t).
  { induction 1 as [t _ IH]. intros Ht. constructor. intros k Hk. rewrite B1 in Hk by (intros HS; exact (Hd t HS Ht)). apply IH; [exact Hk|]. eapply Hcl; eauto. }
  induction 1 as [j _ IH]. constructor. intros k Hk. destruct (B2 j k Hk) as [Hk'|Hk']; [apply IH, Hk'|apply FT; [apply HT, Hk'|exact Hk']].
Qed.
Lemma between_reach h h' S T i j : between h h' S T -> (forall n k, T n -> In k (get_children h n) -> T k) -> (forall n, S n -> ~ T n) ->
  reach h' i j -> reach h i j \/ T j.
Proof.
  intros [B1 B2] Hcl Hd. induction 1 as [|j k Hj IH Hk]; [left; constructor|]. destruct IH as [IH|IH].
  - destruct (B2 j k Hk) as [Hk'|Hk']; [left; eapply reach_step; eauto|auto].
  - right. rewrite B1 in Hk by (intros HS; exact (Hd j HS IH)). eapply Hcl; eauto.
Qed.

(** The nodes reached from a list of roots. *)
Definition from (h : heap) (roots : list nat) (n : nat) : Prop := exists r, In r roots /\ reach h r n.
Lemma from_closed h roots n k : from h roots n -> In k (get_children h n) -> from h roots k.
Proof. intros (r & Hr & H) Hk. exists r. split; [exact Hr|]. eapply reach_step; eauto. Qed.
(** Every network apart from those after it. *)
Inductive apart (h : heap) : list (list nat) -> Prop :=
| apart_nil : apart h []
| apart_cons a nets : (forall b n, In b nets -> from h a n -> ~ from h b n) -> apart h nets -> apart h (a :: nets).

Lemma combine_loop_ends shuffle : some_order shuffle -> forall networks h A, apart h (A :: networks) ->
  (forall r, In r (A ++ concat networks) -> finite h r) ->
  exists fuel, forall fuel', fuel <= fuel' -> exists r, combine_loop fuel' shuffle h A networks = Some r.
Proof.
  intros Hs. induction networks as [|roots networks IH]; intros h A Hap Hfin; [exists 0; intros; eexists; reflexivity|].
  destruct (all_descendants_ends h A) as (f1 & E1); [intros r Hr; apply Hfin, in_or_app; auto|].
  (* the result of the first round does not depend on the fuel *)
  destruct (E1 f1 (le_n _)) as (agg & Eagg).
  assert (Efix : forall f', f1 <= f' -> all_descendants f' h A = Some agg).
  { clear -Eagg. intros f' Hf. revert agg Eagg. induction A as [|a A IH]; intros agg E; [exact E|]. cbn in E |- *. unfold get_all_descendants in *.
    destruct (descendants_loop f1 h [a] []) as [x|] eqn:E1; [|discriminate]. destruct (all_descendants f1 h A) as [y|]; [|discriminate].
    rewrite (descendants_mono _ _ _ _ _ E1 _ Hf), (IH y eq_refl). exact E. }
  destruct (combine_roots h (shuffle agg) A roots) as [h1 A1] eqn:Ec.
  inversion Hap as [|? ? HA Hap']; subst. inversion Hap' as [|? ? HR Hap'']; subst.
  assert (Hagg : forall n, In n (shuffle agg) -> from h A n).
  { intros n Hn. apply (all_descendants_in _ _ _ _ Eagg). apply (Permutation_in _ (Permutation_sym (Hs agg))), Hn. }
  assert (Hd : forall n, from h A n -> ~ from h roots n) by (intros n Hn; apply HA; [left; reflexivity|exact Hn]).
  assert (Hcl : forall n k, from h roots n -> In k (get_children h n) -> from h roots k) by (intros; eapply from_closed; eauto).
  assert (HT : forall n, from h roots n -> finite h n).
  { intros n (r & Hr & H). eapply finite_reach; [|exact H]. apply Hfin. apply in_or_app. right. cbn. apply in_or_app. auto. }
  pose proof (combine_roots_between (shuffle agg) h (from h A) (from h roots) Hagg Hd Hcl roots h A h1 A1) as Hb.
  assert (B : between h h1 (from h A) (from h roots)).
  { apply Hb; [intros r Hr; exists r; split; [exact Hr|constructor]|split; auto|exact Ec]. }
  clear Hb. destruct (combine_roots_spec _ _ _ _ _ _ [] Ec) as (_ & _ & _ & more & -> & Hmore); [exact Hagg|].
  assert (Hreach : forall n, from h1 (A ++ more) n -> from h A n \/ from h roots n).
  { intros n (r & Hr & H). destruct (between_reach _ _ _ _ _ _ B Hcl Hd H) as [H'|H']; [|auto].
    apply in_app_or in Hr as [Hr|Hr]; [left; exists r; auto|right; exists r; auto]. }
  assert (Hsame : forall b n, In b networks -> from h1 b n -> from h b n).
  { intros b n Hb (r & Hr & H). exists r. split; [exact Hr|]. induction H as [|j k Hj IHj Hk]; [constructor|].
    eapply reach_step; [exact IHj|]. rewrite (proj1 B) in Hk; [exact Hk|]. intros HS. apply (HA b j); [right; exact Hb|exact HS|exists r; auto]. }
  destruct (IH h1 (A ++ more)) as (f2 & E2).
  - constructor.
    + intros b n Hb Hn Hbn. apply (Hsame b n Hb) in Hbn. destruct (Hreach n Hn) as [Hn'|Hn']; [apply (HA b n (or_intror Hb) Hn' Hbn)|apply (HR b n Hb Hn' Hbn)].
    + clear -Hap'' Hsame. induction Hap'' as [|a nets H _ IH]; constructor.
      * intros b n Hb Ha Hbn. apply (H b n Hb); apply Hsame; cbn; auto.
      * apply IH. intros b n Hb. apply Hsame. right. exact Hb.
  - intros r Hr. apply (between_finite _ _ _ _ B Hd Hcl HT). apply Hfin. cbn [concat]. rewrite !in_app_iff in Hr |- *.
    destruct Hr as [[Hr|Hr]|Hr]; auto.
  - exists (f1 + f2). intros f Hf. cbn [combine_loop]. rewrite Efix by lia. rewrite Ec. apply E2. lia.
Qed.
