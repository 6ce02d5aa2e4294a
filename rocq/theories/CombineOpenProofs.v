(** When networks can be combined. *)
From Verif Require Import Base NetModel NetSpec NetProofs NetCombineProofs.
Local Open Scope nat_scope.

Lemma grown_finite h h' i : grown h h' -> finite h' i -> finite h i.
Proof. intros [_ G]. induction 1 as [i _ IH]. constructor. intros k Hk. apply IH, G, Hk. Qed.

Lemma all_descendants_finite fuel h : forall roots l, all_descendants fuel h roots = Some l -> forall r, In r roots -> finite h r.
Proof.
  induction roots as [|r roots IH]; intros l H; [intros r []|]. cbn in H. destruct (get_all_descendants fuel h r) as [a|] eqn:E1; [|discriminate].
  destruct (all_descendants fuel h roots) as [b|]; [|discriminate]. intros x [<-|Hx]; [apply descendants_ends_iff; eauto|]. eapply IH; eauto.
Qed.
Lemma all_descendants_mono f f' h : forall roots l, all_descendants f h roots = Some l -> f <= f' -> all_descendants f' h roots = Some l.
Proof.
  intros roots l H Hf. revert l H. induction roots as [|a A IH]; intros l E; [exact E|]. cbn in E |- *. unfold get_all_descendants in *.
  destruct (descendants_loop f h [a] []) as [x|] eqn:E1; [|discriminate]. destruct (all_descendants f h A) as [y|]; [|discriminate].
  rewrite (descendants_mono _ _ _ _ _ E1 _ Hf), (IH y eq_refl). exact E.
Qed.
Lemma combine_loop_mono f f' shuffle : f <= f' -> forall networks h A r, combine_loop f shuffle h A networks = Some r -> combine_loop f' shuffle h A networks = Some r.
Proof.
  intros Hf. induction networks as [|roots networks IH]; intros h A r H; [exact H|]. cbn [combine_loop] in *.
  destruct (all_descendants f h A) as [agg|] eqn:E; [|discriminate]. rewrite (all_descendants_mono f f' h A agg E Hf).
  destruct (combine_roots h (shuffle agg) A roots). apply IH, H.
Qed.
Lemma combine_mono f f' shuffle h networks r : f <= f' -> combine_networks f shuffle h networks = Ok r -> combine_networks f' shuffle h networks = Ok r.
Proof.
  intros Hf. unfold combine_networks. destruct (rev networks) as [|a [|b rest]]; auto. destruct (combine_loop f shuffle h a (b :: rest)) eqn:E; [|discriminate].
  rewrite (combine_loop_mono f f' shuffle Hf _ _ _ _ E). auto.
Qed.

(** What was merged is finite if what it was merged into is. *)
Lemma combine_roots_finite agg : forall roots h A h' A', combine_roots h agg A roots = (h', A') -> (forall n, In n agg -> exists q, In q A /\ reach h q n) ->
  (forall r, In r A' -> finite h' r) -> forall r, In r roots -> finite h r.
Proof.
  induction roots as [|r roots IH]; intros h A h' A' H Hagg Hfin; [intros r []|]. cbn [combine_roots] in H.
  destruct (find (fun n => nodes_equal h n r) agg) as [p|] eqn:E.
  - apply find_some in E as [Hin He]. fold (give h p r) in H. destruct (nodes_equal_object _ _ _ He) as (o & Ho & _). pose proof (object_lt _ _ _ Ho) as Hp.
    assert (Hagg' : forall n, In n agg -> exists q, In q A /\ reach (give h p r) q n).
    { intros n Hn. destruct (Hagg n Hn) as (q & Hq & Hr). exists q. split; [exact Hq|]. apply give_reach; assumption. }
    destruct (combine_roots_spec _ _ _ _ _ _ [] H Hagg') as (_ & G & _ & more & EA & _).
    assert (G0 : grown h h') by (eapply grown_trans; [apply grown_give, Hp|exact G]).
    intros x [<-|Hx]; [|apply (grown_finite h (give h p r)); [apply grown_give, Hp|]; eapply IH; eauto].
    constructor. intros k Hk. apply (grown_finite h h' k G0). destruct (Hagg p Hin) as (q & Hq & Hqp).
    assert (Hfp : finite h' p).
    { apply (finite_reach h' q p); [apply Hfin; rewrite EA; apply in_or_app; auto|]. apply (grown_reach h h' q p G0 Hqp). }
    destruct Hfp as [Hfp]. apply Hfp. apply (proj2 G). apply give_children; auto.
  - assert (Hagg' : forall n, In n agg -> exists q, In q (A ++ [r]) /\ reach h q n).
    { intros n Hn. destruct (Hagg n Hn) as (q & Hq & Hr). exists q. split; [apply in_or_app; auto|exact Hr]. }
    destruct (combine_roots_spec _ _ _ _ _ _ [] H Hagg') as (_ & G & _ & more & EA & _).
    intros x [<-|Hx]; [|eapply IH; eauto]. apply (grown_finite h h' r G), Hfin. rewrite EA. apply in_or_app. left. apply in_or_app. right. left. reflexivity.
Qed.

(** All but the last to be merged were traversed. *)
Lemma combine_loop_needs fuel shuffle : some_order shuffle -> forall networks h A r, combine_loop fuel shuffle h A networks = Some r -> networks <> [] ->
  forall n, In n (A ++ concat (removelast networks)) -> finite h n.
Proof.
  intros Hs. induction networks as [|roots networks IH]; intros h A r H Hne; [congruence|]. cbn [combine_loop] in H.
  destruct (all_descendants fuel h A) as [agg|] eqn:E; [|discriminate]. destruct (combine_roots h (shuffle agg) A roots) as [h1 A1] eqn:E1.
  assert (HA : forall n, In n A -> finite h n) by (intros n; apply (all_descendants_finite _ _ _ _ E)).
  assert (Hagg : forall n, In n (shuffle agg) -> exists q, In q A /\ reach h q n).
  { intros n Hn. apply (all_descendants_in _ _ _ _ E). apply (Permutation_in _ (Permutation_sym (Hs agg))), Hn. }
  destruct (combine_roots_spec _ _ _ _ _ _ [] E1 Hagg) as (_ & G & _ & more & EA & _).
  destruct networks as [|n1 rest]; [cbn; rewrite app_nil_r; exact HA|].
  assert (Hnext := IH h1 A1 r H ltac:(discriminate)). change (removelast (roots :: n1 :: rest)) with (roots :: removelast (n1 :: rest)). cbn [concat].
  intros n Hn. apply in_app_or in Hn as [Hn|Hn]; [auto|]. apply in_app_or in Hn as [Hn|Hn].
  - apply (combine_roots_finite (shuffle agg) roots h A h1 A1 E1 Hagg); [|exact Hn]. intros q Hq. apply Hnext, in_or_app. auto.
  - apply (grown_finite h h1 n G), Hnext, in_or_app. auto.
Qed.

Lemma combine_loop_ends_but_last shuffle : some_order shuffle -> forall networks h A, apart h (A :: networks) -> networks <> [] ->
  (forall r, In r (A ++ concat (removelast networks)) -> finite h r) ->
  exists fuel r, combine_loop fuel shuffle h A networks = Some r.
Proof.
  intros Hs. induction networks as [|roots networks IH]; intros h A Hap Hne Hfin; [congruence|].
  destruct (all_descendants_ends h A) as (f1 & E1); [intros r Hr; apply Hfin, in_or_app; auto|].
  destruct (E1 f1 (le_n _)) as (agg & Eagg). destruct (combine_roots h (shuffle agg) A roots) as [h1 A1] eqn:Ec.
  destruct networks as [|n1 rest]; [exists f1, (h1, A1); cbn [combine_loop]; rewrite Eagg, Ec; reflexivity|].
  change (removelast (roots :: n1 :: rest)) with (roots :: removelast (n1 :: rest)) in Hfin. cbn [concat] in Hfin. remember (n1 :: rest) as networks eqn:En.
  inversion Hap as [|? ? HA Hap']; subst a nets. inversion Hap' as [|? ? HR Hap'']; subst a nets.
  assert (Hagg : forall n, In n (shuffle agg) -> from h A n).
  { intros n Hn. apply (all_descendants_in _ _ _ _ Eagg). apply (Permutation_in _ (Permutation_sym (Hs agg))), Hn. }
  assert (Hd : forall n, from h A n -> ~ from h roots n) by (intros n Hn; apply HA; [left; reflexivity|exact Hn]).
  assert (Hcl : forall n k, from h roots n -> In k (get_children h n) -> from h roots k) by (intros; eapply from_closed; eauto).
  assert (HT : forall n, from h roots n -> finite h n).
  { intros n (r & Hr & H). eapply finite_reach; [|exact H]. apply Hfin. apply in_or_app. right. apply in_or_app. auto. }
  pose proof (combine_roots_between (shuffle agg) h (from h A) (from h roots) Hagg Hd Hcl roots h A h1 A1) as Hb.
  assert (B : between h h1 (from h A) (from h roots)).
  { apply Hb; [intros r Hr; exists r; split; [exact Hr|constructor]|split; auto|exact Ec]. }
  clear Hb. destruct (combine_roots_spec _ _ _ _ _ _ [] Ec) as (_ & _ & _ & more & EA & Hmore); [exact Hagg|].
  assert (Hreach : forall n, from h1 A1 n -> from h A n \/ from h roots n).
  { intros n (r & Hr & H). destruct (between_reach _ _ _ _ _ _ B Hcl Hd H) as [H'|H']; [|auto]. rewrite EA in Hr.
    apply in_app_or in Hr as [Hr|Hr]; [left; exists r; auto|right; exists r; auto]. }
  assert (Hsame : forall b n, In b networks -> from h1 b n -> from h b n).
  { intros b n Hb (r & Hr & H). exists r. split; [exact Hr|]. induction H as [|j k Hj IHj Hk]; [constructor|].
    eapply reach_step; [exact IHj|]. rewrite (proj1 B) in Hk; [exact Hk|]. intros HS. apply (HA b j); [right; exact Hb|exact HS|exists r; auto]. }
  destruct (IH h1 A1) as (f2 & r & E2).
  - constructor.
    + intros b n Hb Hn Hbn. apply (Hsame b n Hb) in Hbn. destruct (Hreach n Hn) as [Hn'|Hn']; [apply (HA b n (or_intror Hb) Hn' Hbn)|apply (HR b n Hb Hn' Hbn)].
    + clear -Hap'' Hsame. induction Hap'' as [|a nets H _ IH]; constructor.
      * intros b n Hb Ha Hbn. apply (H b n Hb); apply Hsame; cbn; auto.
      * apply IH. intros b n Hb. apply Hsame. right. exact Hb.
  - subst networks. discriminate.
  - intros r Hr. apply (between_finite _ _ _ _ B Hd Hcl HT). apply Hfin. rewrite EA in Hr. rewrite !in_app_iff in Hr |- *.
    destruct Hr as [[Hr|Hr]|Hr]; auto.
  - exists (f1 + f2), r. cbn [combine_loop]. rewrite (all_descendants_mono f1 (f1 + f2) h A agg Eagg) by lia. rewrite Ec. apply (combine_loop_mono f2); [lia|exact E2].
Qed.

Lemma removelast_rev {A} (l : list A) : removelast (rev l) = rev (tl l).
Proof. destruct l as [|a l]; [reflexivity|]. cbn. apply removelast_last. Qed.

(** Networks that share no node can be combined exactly if all but the first have no cycle. *)
Lemma combine_ends_iff shuffle h networks : some_order shuffle -> networks <> [] -> apart h (rev networks) ->
  ((exists fuel r, combine_networks fuel shuffle h networks = Ok r) <-> forall net n, In net (tl networks) -> In n net -> finite h n).
Proof.
  intros Hs Hne Hap. unfold combine_networks. assert (Hrl := removelast_rev networks). destruct (rev networks) as [|a [|b rest]] eqn:E.
  - exfalso. apply Hne. rewrite <- (rev_involutive networks), E. reflexivity.
  - assert (networks = [a]) as -> by (rewrite <- (rev_involutive networks), E; reflexivity). cbn. split; [intros _ ? ? []|intros _; exists 0; eauto].
  - change (removelast (a :: b :: rest)) with (a :: removelast (b :: rest)) in Hrl.
    assert (Hin : forall n, In n (a ++ concat (removelast (b :: rest))) <-> exists net, In net (tl networks) /\ In n net).
    { intros n. change (a ++ concat (removelast (b :: rest))) with (concat (a :: removelast (b :: rest))). rewrite Hrl, in_concat.
      split; intros (net & Hn & Hx); exists net; (split; [|exact Hx]); [apply in_rev, Hn|apply in_rev in Hn; exact Hn]. }
    split.
    + intros (fuel & r & H) net n Hn Hx. destruct (combine_loop fuel shuffle h a (b :: rest)) as [r'|] eqn:El; [|discriminate].
      apply (combine_loop_needs fuel shuffle Hs _ _ _ _ El); [discriminate|]. apply Hin. eauto.
    + intros H. destruct (combine_loop_ends_but_last shuffle Hs (b :: rest) h a Hap) as (fuel & r & Hr); [discriminate| |exists fuel; rewrite Hr; eauto].
      intros n Hn. apply Hin in Hn as (net & Hn & Hx). eauto.
Qed.
