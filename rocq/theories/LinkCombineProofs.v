(** When the networks of all links can be combined. *)
From Verif Require Import Base Regex QNameModel ErrBase ErrTable ErrModel CtxModel InlineModel NetModel NetSpec NetProofs NetLinkProofs NetCombineProofs NetProps
  LangModel DtsProofs LinkModel LinkSpec LinkProofs LinkLoopProofs LinkNetProofs LinkDocProofs CombineOpenProofs.
Local Open Scope nat_scope.
Local Opaque insert create.

Section Combine.
Variable shuffle : list nat -> list nat.
Hypothesis Hs : some_order shuffle.

Lemma comb_mono f f' : f <= f' -> forall gs h ws h', comb f shuffle gs h ws h' -> comb f' shuffle gs h ws h'.
Proof. intros Hf. induction 1; econstructor; eauto using combine_mono. Qed.
Lemma comb_split f : forall gs1 gs2 h ws h', comb f shuffle (gs1 ++ gs2) h ws h' -> exists ws1 h1 ws2, comb f shuffle gs1 h ws1 h1 /\ comb f shuffle gs2 h1 ws2 h' /\ ws = ws1 ++ ws2.
Proof.
  induction gs1 as [|g gs1 IH]; intros gs2 h ws h' H; [exists [], h, ws; split; [constructor|auto]|].
  cbn in H. inversion H as [|? ? ? h1 roots w pre ws0 h2 Hc Eg Hr]; subst. destruct (IH _ _ _ _ Hr) as (ws1 & h3 & ws2 & A & B & ->).
  exists (Net (w_kind w) (w_role w) roots :: ws1), h3, ws2. split; [econstructor; eauto|auto].
Qed.
Lemma comb_groups f : forall gs h ws h', comb f shuffle (map snd gs) h ws h' -> combine_groups f shuffle gs h = Ok (ws, h').
Proof.
  induction gs as [|[c g] gs IH]; intros h ws h' H; cbn [map snd] in H; inversion H as [|? ? ? h1 roots w pre ws0 h2 Hc Eg Hr]; subst; [reflexivity|].
  cbn [combine_groups]. rewrite Hc. cbn [bind fst snd]. rewrite rev_app_distr. cbn [rev app]. rewrite (IH _ _ _ Hr). reflexivity.
Qed.
Lemma comb_roles f : forall d h ls h', comb f shuffle (groups_of d) h ls h' -> exists ws, combine_roles f shuffle d h = Ok (ws, h').
Proof.
  induction d as [|[R l] d IH]; intros h ls h' H; [inversion H; subst; cbn; eauto|].
  unfold groups_of in H. cbn [flat_map snd] in H. apply comb_split in H as (ws1 & h1 & ws2 & A & B & _).
  apply comb_groups in A. destruct (IH _ _ _ B) as (ws & E). cbn [combine_roles]. unfold combine_role. change (fun w => negb (physical w)) with logical.
  rewrite A. cbn [bind fst snd]. rewrite E. cbn. eauto.
Qed.

Lemma within_finite (S T : nat -> Prop) h h' i : within S h h' -> (forall n, T n -> ~ S n) -> closed h T -> T i -> (finite h' i <-> finite h i).
Proof.
  intros [_ W] Hd Hc Hi.
  assert (E : forall n, T n -> get_children h' n = get_children h n) by (intros n Hn; apply same_children, W, Hd, Hn).
  split; intros H; induction H as [i H IH]; constructor; intros k Hk.
  - apply IH; [rewrite E by exact Hi; exact Hk|]. apply (Hc i k Hi Hk).
  - rewrite E in Hk by exact Hi. apply IH; [exact Hk|]. apply (Hc i k Hi Hk).
Qed.

Lemma comb_ends_iff (T : list net -> nat -> Prop) : forall gs h, NoDup gs ->
  (forall g, In g gs -> g <> [] /\ closed h (T g) /\ (forall w r, In w g -> In r (w_roots w) -> T g r) /\ apart h (rev (map w_roots g))) ->
  (forall g g' n, In g gs -> In g' gs -> T g n -> T g' n -> g = g') ->
  ((exists f ws h', comb f shuffle gs h ws h') <-> forall g w n, In g gs -> In w (tl g) -> In n (w_roots w) -> finite h n).
Proof.
  induction gs as [|g gs IH]; intros h Hn Hg Hd; [split; [intros _ g w n []|intros _; exists 0, [], h; constructor]|].
  inversion Hn as [|? ? Hnin Hn']; subst. destruct (Hg g (or_introl eq_refl)) as (Hne & Hc & Hroots & Hap).
  assert (Hrt : forall r, In r (concat (map w_roots g)) -> T g r).
  { intros r Hr. apply in_concat in Hr as (l & Hl & Hr). apply in_map_iff in Hl as (w & <- & Hw). eapply Hroots; eauto. }
  assert (Htl : (exists fuel r, combine_networks fuel shuffle h (map w_roots g) = Ok r) <-> forall w n, In w (tl g) -> In n (w_roots w) -> finite h n).
  { rewrite (combine_ends_iff shuffle h (map w_roots g) Hs); [|destruct g; [congruence|discriminate]|exact Hap].
    assert (Et : tl (map w_roots g) = map w_roots (tl g)) by (destruct g; reflexivity). rewrite Et. split.
    - intros H w n Hw. apply (H (w_roots w)), in_map, Hw.
    - intros H net n Hnet. apply in_map_iff in Hnet as (w & <- & Hw). apply H, Hw. }
  assert (Hrest : forall f h1 roots, combine_networks f shuffle h (map w_roots g) = Ok (h1, roots) ->
    ((exists f ws h', comb f shuffle gs h1 ws h') <-> forall g w n, In g gs -> In w (tl g) -> In n (w_roots w) -> finite h n)).
  { intros f h1 roots E. destruct (combine_within (T g) f shuffle h _ h1 roots Hs E Hc Hrt) as (W & _ & _ & _).
    assert (Hdis : forall g', In g' gs -> forall n, T g' n -> ~ T g n).
    { intros g' Hg' n Hn1 Hn2. apply Hnin. rewrite (Hd g g' n (or_introl eq_refl) (or_intror Hg') Hn2 Hn1). exact Hg'. }
    rewrite (IH h1 Hn').
    - split; intros H g' w n Hg' Hw Hr; destruct (Hg g' (or_intror Hg')) as (Hne' & Hc' & Hroots' & _);
        assert (Ht : T g' n) by (apply (Hroots' w); [destruct g'; [destruct Hw|right; exact Hw]|exact Hr]);
        apply (within_finite (T g) (T g') h h1 n W (Hdis g' Hg') Hc' Ht), (H g' w n Hg' Hw Hr).
    - intros g' Hg'. destruct (Hg g' (or_intror Hg')) as (Hne' & Hc' & Hroots' & Hap'). split; [exact Hne'|].
      split; [eapply within_closed; eauto|]. split; [exact Hroots'|].
      assert (Hf : forall l n, In l (rev (map w_roots g')) -> (from h1 l n <-> from h l n)).
      { intros l n Hl. rewrite <- in_rev in Hl. apply in_map_iff in Hl as (w & <- & Hw).
        split; intros (r & Hr & Hrn); exists r; (split; [exact Hr|]);
          apply (within_reach (T g) (T g') h h1 r n W (Hdis g' Hg') Hc' (Hroots' w r Hw Hr)), Hrn. }
      clear -Hap' Hf. induction Hap' as [|a nets H _ IH]; constructor.
      + intros b n Hb Ha Hbn. apply Hf in Ha; [|left; reflexivity]. apply Hf in Hbn; [|right; exact Hb]. apply (H b n Hb Ha Hbn).
      + apply IH. intros l n Hl. apply Hf. right. exact Hl.
    - intros g1 g2 n H1 H2. apply Hd; right; assumption. }
  split.
  - intros (f & ws & h' & H). inversion H as [|? ? ? h1 roots w pre ws0 h2 Hcn Eg Hr]; subst g0 gs0 h0 h2 ws.
    intros g' w' n [<-|Hg'] Hw Hr'; [apply (proj1 Htl (ex_intro _ f (ex_intro _ _ Hcn)) w' n Hw Hr')|].
    apply (proj1 (Hrest f h1 roots Hcn) (ex_intro _ f (ex_intro _ _ (ex_intro _ _ Hr))) g' w' n Hg' Hw Hr').
  - intros H. destruct (proj2 Htl) as (f1 & [h1 roots] & E); [intros w n; apply (H g); left; reflexivity|].
    destruct (proj2 (Hrest f1 h1 roots E)) as (f2 & ws & h' & C); [intros g' w n Hg'; apply H; right; exact Hg'|].
    destruct (exists_last Hne) as (pre & w & Eg). exists (f1 + f2), (Net (w_kind w) (w_role w) roots :: ws), h'.
    econstructor; [eapply combine_mono; [|exact E]; lia|exact Eg|eapply comb_mono; [|exact C]; lia].
Qed.
End Combine.

Section Runs.
Variable element_str : xml -> str.
Variable number : str -> Q.
Variable find_id : str -> option found.
Variable rs : list run.
Hypothesis Hb : based 0 rs.
Hypothesis Hok : forall r, In r rs -> run_ok element_str number find_id r.
Variable d : by_role.
Hypothesis Hkeys : NoDup (dict_keys d).
Hypothesis Hnets : forall R, nets_in d R = flat_map nets_of (filter (fun r => str_eqb (r_role r) R) rs).
Let H0 := heap_of rs.

Lemma filter_nets (P : net -> bool) (Q : run -> bool) : (forall r w, In w (nets_of r) -> P w = Q r) -> forall l, filter P (flat_map nets_of l) = flat_map nets_of (filter Q l).
Proof.
  intros H. induction l as [|r l IH]; [reflexivity|]. cbn [flat_map filter]. rewrite filter_app, IH. specialize (H r).
  assert (E : filter P (nets_of r) = if Q r then nets_of r else []).
  { clear -H. induction (nets_of r) as [|w ws IH]; [destruct (Q r); reflexivity|]. cbn [filter]. rewrite (H w) by (left; reflexivity).
    destruct (Q r); [rewrite IH by (intros x Hx; apply H; right; exact Hx); reflexivity|apply IH; intros x Hx; apply H; right; exact Hx]. }
  rewrite E. destruct (Q r); reflexivity.
Qed.
Lemma filter_filter {A} (P Q : A -> bool) l : filter P (filter Q l) = filter (fun x => Q x && P x) l.
Proof. induction l as [|x l IH]; [reflexivity|]. cbn. destruct (Q x); cbn; [destruct (P x); rewrite IH; reflexivity|exact IH]. Qed.

(** The runs for a kind and role. *)
Definition runs_for (k : kind) (R : str) : list run :=
  filter (fun r => str_eqb (r_role r) R && negb (is_physical (r_kind r)) && wclass_eqb (class_of_kind (r_kind r)) (class_of_kind k)) rs.
Lemma in_runs_for k R r : is_physical k = false -> (In r (runs_for k R) <-> In r rs /\ r_role r = R /\ r_kind r = k).
Proof.
  intros Hk. unfold runs_for. rewrite filter_In, !andb_true_iff, negb_true_iff. split.
  - intros (A & ((B & C) & D)). split; [exact A|]. split; [apply str_eqb_eq, B|]. destruct (wclass_reflect (class_of_kind (r_kind r)) (class_of_kind k)); [|discriminate].
    apply logical_class; assumption.
  - intros (A & <- & <-). rewrite str_eqb_refl, Hk. destruct (wclass_reflect (class_of_kind (r_kind r)) (class_of_kind (r_kind r))); [auto|congruence].
Qed.
Lemma groups_are g : In g (groups_of d) -> exists k R, is_physical k = false /\ g = flat_map nets_of (runs_for k R) /\ g <> [].
Proof.
  intros H. destruct (in_groups d Hkeys (dict_roles rs d Hkeys Hnets) g H) as [Hne Hg]. unfold groups_of in H. apply in_flat_map in H as ([R l] & Hp & H). cbn [snd] in H.
  apply in_map_iff in H as ([c g'] & E & H). cbn in E. subst g'. apply in_group in H as [Eg _]. destruct g as [|w g]; [congruence|].
  destruct (Hg w (or_introl eq_refl)) as [Hl _]. assert (Hw : In w (w :: g)) by (left; reflexivity). rewrite Eg in Hw. apply filter_In in Hw as [_ Hw].
  exists (w_kind w), R. split; [unfold logical, physical in Hl; apply negb_true_iff, Hl|]. split; [|exact Hne]. rewrite Eg.
  rewrite (in_dict rs d Hkeys Hnets R l Hp). rewrite (filter_nets logical (fun r => negb (is_physical (r_kind r)))).
  - rewrite (filter_nets _ (fun r => wclass_eqb (class_of_kind (r_kind r)) c)).
    + unfold runs_for. rewrite !filter_filter. destruct (wclass_reflect (wclass_of w) c) as [<-|]; [|discriminate]. f_equal. apply filter_ext. intros r.
      unfold wclass_of. rewrite andb_assoc. reflexivity.
    + intros r w' Hw'. destruct (nets_of_role r w' Hw') as [_ E]. unfold wclass_of. rewrite E. reflexivity.
  - intros r w' Hw'. destruct (nets_of_role r w' Hw') as [_ E]. unfold logical, physical. rewrite E. reflexivity.
Qed.
Lemma groups_all k R : is_physical k = false -> flat_map nets_of (runs_for k R) <> [] -> In (flat_map nets_of (runs_for k R)) (groups_of d).
Proof.
  intros Hk Hne. destruct (flat_map nets_of (runs_for k R)) as [|w l] eqn:E; [congruence|]. assert (Hw : In w (flat_map nets_of (runs_for k R))) by (rewrite E; left; reflexivity).
  apply in_flat_map in Hw as (r & Hr & Hw). pose proof Hr as Hr0. apply (in_runs_for k R r Hk) in Hr as (Hr & <- & <-). destruct (nets_of_role r w Hw) as [E1 E2].
  destruct (proj2 (dict_nets rs d Hkeys Hnets w) (ex_intro _ r (conj Hr Hw))) as (R' & l' & Hd & Hin).
  destruct (groups_have d R' l' w Hd Hin) as (g & Hg & Hwg).
  { unfold logical, physical. rewrite E2, Hk. reflexivity. }
  destruct (groups_are g Hg) as (k' & R0 & Hk' & Eg & _). rewrite Eg in Hwg. apply in_flat_map in Hwg as (r' & Hr' & Hw'). apply (in_runs_for k' R0 r' Hk') in Hr' as (Hr' & <- & <-).
  destruct (nets_of_role r' w Hw') as [E3 E4]. rewrite <- E. assert (Er : r_role r = r_role r') by congruence. assert (Ek : r_kind r = r_kind r') by congruence.
  rewrite Er, Ek, <- Eg. exact Hg.
Qed.

Lemma logical_one_net r : In r rs -> is_physical (r_kind r) = false -> r_nets r = [] \/ exists net, r_nets r = [net].
Proof.
  intros Hr Hk. destruct (Hok r Hr) as (es & es1 & es2 & eo & ro & dups & _ & Hro & _ & _ & Hp). apply parse_link_inv in Hp as (_ & _ & _ & roots & _ & En). rewrite Hk in En.
  destruct roots; [left; exact En|right; eauto].
Qed.
Lemma net_place r w n : In r rs -> In w (nets_of r) -> from H0 (w_roots w) n -> own r n.
Proof.
  intros Hr Hw (a & Ha & Hn). unfold nets_of in Hw. apply in_map_iff in Hw as (net & <- & Hnet). cbn [w_roots] in Ha. apply in_map_iff in Ha as (m & <- & Hm).
  pose proof (root_inside element_str number find_id rs Hok r net m Hr Hnet Hm) as Hlt.
  apply (reach_at element_str number find_id rs Hb Hok r m n Hr Hlt) in Hn as (m' & -> & Hm' & _). unfold own. lia.
Qed.
Lemma own_apart : forall l b, based b l -> forall r r' pre post n, l = pre ++ r :: post -> In r' post -> own r n -> ~ own r' n.
Proof.
  induction l as [|r0 l IH]; intros b B r r' pre post n E Hr' O O'; [destruct pre; discriminate|]. destruct B as [E0 B]. destruct pre as [|p pre].
  - injection E as -> ->. pose proof (based_in _ _ _ B Hr'). unfold own in *. lia.
  - injection E as -> ->. eapply (IH _ B r r' pre post); eauto.
Qed.
Lemma runs_apart k R : is_physical k = false -> apart H0 (rev (map w_roots (flat_map nets_of (runs_for k R)))).
Proof.
  intros Hk. assert (Hin : forall r, In r (runs_for k R) -> In r rs /\ is_physical (r_kind r) = false).
  { intros r Hr. apply (in_runs_for k R r Hk) in Hr as (A & _ & <-). auto. }
  assert (Hord : forall pre r post r' n, runs_for k R = pre ++ r :: post -> In r' post -> own r n -> ~ own r' n).
  { unfold runs_for. generalize (fun r => str_eqb (r_role r) R && negb (is_physical (r_kind r)) && wclass_eqb (class_of_kind (r_kind r)) (class_of_kind k)). intros P pre r post r' n E Hr'.
    assert (G : exists pre' post', rs = pre' ++ r :: post' /\ In r' post').
    { clear -E Hr'. revert pre E. induction rs as [|r0 l IH]; intros pre E; [destruct pre; discriminate|]. cbn in E. destruct (P r0) eqn:EP.
      - destruct pre as [|p pre]; injection E as -> E.
        + exists [], l. split; [reflexivity|]. rewrite <- E in Hr'. apply filter_In in Hr' as [? _]. assumption.
        + destruct (IH pre E) as (pre' & post' & -> & H). exists (p :: pre'), post'. auto.
      - destruct (IH pre E) as (pre' & post' & -> & H). exists (r0 :: pre'), post'. auto. }
    destruct G as (pre' & post' & E' & H). eapply own_apart; eauto. }
  revert Hin Hord. generalize (runs_for k R). intros l. induction l as [|r l IH] using rev_ind; intros Hin Hord; [constructor|].
  rewrite flat_map_app', map_app, rev_app_distr. cbn [flat_map]. rewrite app_nil_r.
  assert (IH' : apart H0 (rev (map w_roots (flat_map nets_of l)))).
  { apply IH; [intros x Hx; apply Hin, in_or_app; auto|]. intros pre x post x' n -> Hx'. apply (Hord pre x (post ++ [r]) x' n); [rewrite <- app_assoc; reflexivity|apply in_or_app; auto]. }
  destruct (Hin r) as [Hr Hkr]; [apply in_or_app; right; left; reflexivity|]. unfold nets_of at 1. destruct (logical_one_net r Hr Hkr) as [->|(net & Enet)]; [exact IH'|].
  rewrite Enet. cbn [map rev app]. constructor; [|exact IH'].
  intros b n Hb' Hn Hbn. rewrite <- in_rev in Hb'. apply in_map_iff in Hb' as (w & <- & Hw). apply in_flat_map in Hw as (r' & Hr' & Hw).
  assert (O1 : own r n). { apply (net_place r (Net (r_kind r) (r_role r) (map (Nat.add (r_base r)) net)) n Hr); [unfold nets_of; rewrite Enet; left; reflexivity|exact Hn]. }
  assert (O2 : own r' n). { apply (net_place r' w n); [apply Hin, in_or_app; auto|exact Hw|exact Hbn]. }
  apply in_split in Hr' as (pre & post & ->). apply (Hord pre r' (post ++ [r]) r n); [rewrite <- app_assoc; reflexivity|apply in_or_app; right; left; reflexivity|exact O2|exact O1].
Qed.

(** What the runs need: of two for the same kind and role that give a network, the later has no cycle. *)
Lemma finite_at r n : In r rs -> n < length (r_heap r) -> (finite H0 (r_base r + n) <-> finite (r_heap r) n).
Proof.
  intros Hr Hn. split.
  - intros H. remember (r_base r + n) as m eqn:E. revert n Hn E. induction H as [m _ IH]. intros n Hn ->. constructor. intros k Hk.
    apply (IH (r_base r + k)); [|eapply child_inside; eauto|reflexivity]. unfold H0. rewrite (children_at rs Hb r n Hr Hn). apply in_map, Hk.
  - intros H. revert Hn. induction H as [n _ IH]. intros Hn. constructor. intros m Hm. unfold H0 in Hm. rewrite (children_at rs Hb r n Hr Hn) in Hm.
    apply in_map_iff in Hm as (k & <- & Hk). apply IH; [exact Hk|eapply child_inside; eauto].
Qed.
Definition ends (r : run) : Prop := forall net n, In net (r_nets r) -> In n net -> finite (r_heap r) n.

Lemma combine_roles_iff shuffle : some_order shuffle ->
  ((exists f r, combine_roles f shuffle d H0 = Ok r) <->
   forall k R pre r mid r' post, is_physical k = false -> runs_for k R = pre ++ r :: mid ++ r' :: post -> r_nets r <> [] -> ends r').
Proof.
  intros Hs. transitivity (exists f ls h', comb f shuffle (groups_of d) H0 ls h').
  { split.
    - intros (f & [ws h'] & H). apply combine_roles_comb in H as (ls & H & _). eauto.
    - intros (f & ls & h' & H). destruct (comb_roles shuffle f d H0 ls h' H) as (ws & E). eauto. }
  rewrite (comb_ends_iff shuffle Hs (group_place rs)).
  - split.
    + intros H k R pre r mid r' post Hk E Hne net n Hnet Hn.
      assert (Hr' : In r' rs) by (apply (in_runs_for k R r' Hk); rewrite E; apply in_or_app; right; right; apply in_or_app; right; left; reflexivity).
      pose proof (root_inside element_str number find_id rs Hok r' net n Hr' Hnet Hn) as Hlt. apply (finite_at r' n Hr' Hlt).
      set (w := Net (r_kind r') (r_role r') (map (Nat.add (r_base r')) net)).
      assert (Hw : In w (nets_of r')) by (unfold nets_of, w; apply (in_map (fun rs0 => Net (r_kind r') (r_role r') (map (Nat.add (r_base r')) rs0))), Hnet).
      assert (Htl : In w (tl (flat_map nets_of (runs_for k R)))).
      { rewrite E, flat_map_app'. cbn [flat_map]. rewrite flat_map_app'. cbn [flat_map].
        assert (Hne' : nets_of r <> []) by (unfold nets_of; destruct (r_nets r); [congruence|discriminate]).
        destruct (flat_map nets_of pre) as [|w0 l0]; cbn [app tl].
        - destruct (nets_of r) as [|w1 l1]; [congruence|]. cbn [app tl]. apply in_or_app. right. apply in_or_app. right. apply in_or_app. auto.
        - apply in_or_app. right. apply in_or_app. right. apply in_or_app. right. apply in_or_app. auto. }
      apply (H (flat_map nets_of (runs_for k R)) w); [apply groups_all; [exact Hk|]|exact Htl|unfold w; cbn [w_roots]; apply in_map, Hn].
      intros E0. rewrite E0 in Htl. destruct Htl.
    + intros H g w n Hg Hw Hn. destruct (groups_are g Hg) as (k & R & Hk & -> & Hne). 
      assert (Hin : forall r, In r (runs_for k R) -> In r rs /\ is_physical (r_kind r) = false).
      { intros r Hr. apply (in_runs_for k R r Hk) in Hr as (A & _ & <-). auto. }
      assert (G : exists pre r mid r' post, runs_for k R = pre ++ r :: mid ++ r' :: post /\ r_nets r <> [] /\ In w (nets_of r')).
      { revert Hin Hw. clear -Hok. generalize (runs_for k R). intros l. induction l as [|r l IH]; intros Hin Hw; [destruct Hw|]. cbn [flat_map] in Hw.
        destruct (Hin r (or_introl eq_refl)) as [Hr Hkr]. destruct (logical_one_net r Hr Hkr) as [E|(net & E)]; unfold nets_of at 1 in Hw; rewrite E in Hw; cbn [map app tl] in Hw.
        - destruct (IH (fun x Hx => Hin x (or_intror Hx)) Hw) as (pre & r1 & mid & r2 & post & -> & A & B). exists (r :: pre), r1, mid, r2, post. auto.
        - apply in_flat_map in Hw as (r' & Hr' & Hw). apply in_split in Hr' as (mid & post & ->). exists [], r, mid, r', post. split; [reflexivity|]. split; [rewrite E; discriminate|exact Hw]. }
      destruct G as (pre & r & mid & r' & post & E & A & B).
      assert (Hr' : In r' rs) by (apply (in_runs_for k R r' Hk); rewrite E; apply in_or_app; right; right; apply in_or_app; right; left; reflexivity).
      unfold nets_of in B. apply in_map_iff in B as (net & <- & Hnet). cbn [w_roots] in Hn. apply in_map_iff in Hn as (m & <- & Hm).
      apply (finite_at r' m Hr' (root_inside element_str number find_id rs Hok r' net m Hr' Hnet Hm)). exact (H k R pre r mid r' post Hk E A net m Hnet Hm).
  - apply groups_nodup; [exact Hkeys|apply (dict_roles rs d Hkeys Hnets)].
  - intros g Hg. destruct (in_groups d Hkeys (dict_roles rs d Hkeys Hnets) g Hg) as [Hne Hgw]. destruct (groups_are g Hg) as (k & R & Hk & Eg & _). split; [exact Hne|]. split; [|split].
    + intros n c (w & Hw & Hp) Hc. exists w. split; [exact Hw|]. eapply place_closed; eauto.
    + intros w r Hw Hr. exists w. split; [exact Hw|]. rewrite Eg in Hw. apply in_flat_map in Hw as (r0 & Hr0 & Hw). apply (in_runs_for k R r0 Hk) in Hr0 as (Hr0 & _). eapply place_roots; eauto.
    + rewrite Eg. apply runs_apart, Hk.
  - intros g g' n Hg Hg' (w & Hw & Hp) (w' & Hw' & Hp'). destruct (place_unique rs Hb _ _ _ _ n Hp Hp') as [E1 E2].
    destruct (groups_are g Hg) as (k & R & Hk & -> & _). destruct (groups_are g' Hg') as (k' & R' & Hk' & -> & _).
    apply in_flat_map in Hw as (r & Hr & Hw). apply (in_runs_for k R r Hk) in Hr as (_ & <- & <-). destruct (nets_of_role r w Hw) as [A1 A2].
    apply in_flat_map in Hw' as (r' & Hr' & Hw'). apply (in_runs_for k' R' r' Hk') in Hr' as (_ & <- & <-). destruct (nets_of_role r' w' Hw') as [B1 B2].
    assert (r_role r = r_role r') as -> by congruence. assert (r_kind r = r_kind r') as -> by congruence. reflexivity.
Qed.
End Runs.
