(** Soundness and completeness of the backtracking matcher with respect to a relational
    semantics (which says nothing about the order in which alternatives are tried). *)
From Verif Require Import Base Regex.

Definition within (n : nat) (hi : option nat) : Prop :=
  match hi with None => True | Some h => n <= h end.

Fixpoint MT (r : re) (s : str) (c : caps) (s' : str) (c' : caps) : Prop :=
  match r with
  | REps => s' = s /\ c' = c
  | REnd => at_end s = true /\ s' = s /\ c' = c
  | RLit p => s = p ++ s' /\ c' = c
  | RChar cs => exists x, s = x :: s' /\ cset_mem cs x = true /\ c' = c
  | RRep cs lo hi => exists p, s = p ++ s' /\ forallb (cset_mem cs) p = true
                               /\ lo <= length p /\ within (length p) hi /\ c' = c
  | ROpt r => MT r s c s' c' \/ (s' = s /\ c' = c)
  | RSeq r1 r2 => exists s1 c1, MT r1 s c s1 c1 /\ MT r2 s1 c1 s' c'
  | RAlt r1 r2 => MT r1 s c s' c' \/ MT r2 s c s' c'
  | RGrp n r => exists c1 p, MT r s c s' c1 /\ s = p ++ s' /\ c' = (n, p) :: c1
  end.

Lemma strip_prefix_spec p s s' : strip_prefix p s = Some s' <-> s = p ++ s'.
Proof.
  revert s; induction p as [|a p IH]; intros s; cbn.
  - split; congruence.
  - destruct s as [|b s]; [split; discriminate|].
    destruct (N.eqb_spec a b) as [->|Hn].
    + rewrite IH. split; congruence.
    + split; [discriminate|congruence].
Qed.

Lemma MT_prefix r : forall s c s' c', MT r s c s' c' -> exists p, s = p ++ s'.
Proof.
  induction r as [| |p|cs|cs lo hi|r IH|r1 IH1 r2 IH2|r1 IH1 r2 IH2|n r IH]; intros s c s' c'; cbn.
  - intros [-> _]; exists []; reflexivity.
  - intros (_ & -> & _); exists []; reflexivity.
  - intros [-> _]; eauto.
  - intros (x & -> & _); exists [x]; reflexivity.
  - intros (p & -> & _); eauto.
  - intros [H|[-> _]]; [eauto|exists []; reflexivity].
  - intros (s1 & c1 & H1 & H2). apply IH1 in H1 as [p1 ->]. apply IH2 in H2 as [p2 ->].
    exists (p1 ++ p2). apply app_assoc.
  - intros [H|H]; eauto.
  - intros (c1 & p & _ & -> & _); eauto.
Qed.

Lemma rep_sound {R} f lo hi s (k : str -> option R) x :
  rep f lo hi s k = Some x ->
  exists p s', s = p ++ s' /\ forallb f p = true /\ lo <= length p /\ within (length p) hi
               /\ k s' = Some x.
Proof.
  revert lo hi; induction s as [|a s IH]; intros lo hi.
  - intros H. assert (lo = 0 /\ k [] = Some x) as [-> Hk].
    { cbn in H; destruct hi as [[|h]|]; destruct lo; try discriminate; auto. }
    exists [], []; repeat split; auto. destruct hi; cbn; lia.
  - intros H.
    assert (Hstop : match lo with O => k (a :: s) | S _ => None end = Some x ->
      exists p s', a :: s = p ++ s' /\ forallb f p = true /\ lo <= length p /\ within (length p) hi
               /\ k s' = Some x).
    { destruct lo; [|discriminate]. intros Hk. exists [], (a :: s).
      repeat split; auto. destruct hi; cbn; lia. }
    cbn [rep] in H. destruct hi as [[|h]|]; [auto| |].
    + destruct (f a) eqn:Ef; [|auto].
      destruct (rep f (pred lo) (option_map pred (Some (S h))) s k) eqn:E; [|auto].
      inversion H; subst. apply IH in E as (p & s' & -> & Hp & Hl & Hw & Hk).
      exists (a :: p), s'; cbn in *; rewrite Ef. repeat split; auto; lia.
    + destruct (f a) eqn:Ef; [|auto].
      destruct (rep f (pred lo) (option_map pred None) s k) eqn:E; [|auto].
      inversion H; subst. apply IH in E as (p & s' & -> & Hp & Hl & Hw & Hk).
      exists (a :: p), s'; cbn in *; rewrite Ef. repeat split; auto; lia.
Qed.

Lemma rep_complete {R} f lo hi p s' (k : str -> option R) :
  forallb f p = true -> lo <= length p -> within (length p) hi -> k s' <> None ->
  rep f lo hi (p ++ s') k <> None.
Proof.
  revert lo hi; induction p as [|a p IH]; intros lo hi Hp Hl Hw Hk.
  - cbn in *. assert (lo = 0) as -> by lia.
    destruct s' as [|b s']; cbn [rep]; destruct hi as [[|h]|]; auto;
      destruct (f b); auto; destruct (rep _ _ _ _ _); auto; discriminate.
  - cbn in Hp. apply andb_prop in Hp as [Ha Hp]. cbn [app rep].
    destruct hi as [[|h]|]; cbn in Hw, Hl; [lia| |]; rewrite Ha.
    + specialize (IH (pred lo) (Some h)). cbn [option_map pred].
      destruct (rep f (pred lo) (Some h) (p ++ s') k) eqn:E; [discriminate|].
      exfalso; apply IH; auto; cbn; lia.
    + specialize (IH (pred lo) None). cbn [option_map].
      destruct (rep f (pred lo) None (p ++ s') k) eqn:E; [discriminate|].
      exfalso; apply IH; auto; cbn; lia.
Qed.

Lemma firstn_app_exact {A} (p s : list A) : firstn (length (p ++ s) - length s) (p ++ s) = p.
Proof.
  rewrite app_length, Nat.add_sub, firstn_app, firstn_all, Nat.sub_diag. cbn.
  apply app_nil_r.
Qed.

Lemma mt_sound {R} r : forall s c (k : str -> caps -> option R) x,
  mt r s c k = Some x -> exists s' c', MT r s c s' c' /\ k s' c' = Some x.
Proof.
  induction r as [| |p|cs|cs lo hi|r IH|r1 IH1 r2 IH2|r1 IH1 r2 IH2|n r IH]; intros s c k x; cbn.
  - intros H; exists s, c; auto.
  - destruct (at_end s) eqn:E; [|discriminate]. intros H; exists s, c; auto.
  - destruct (strip_prefix p s) as [s'|] eqn:E; [|discriminate].
    apply strip_prefix_spec in E. intros H; exists s', c; auto.
  - destruct s as [|a s]; [discriminate|]. destruct (cset_mem cs a) eqn:E; [|discriminate].
    intros H; exists s, c; eauto 8.
  - intros H. apply rep_sound in H as (p & s' & ? & ? & ? & ? & ?).
    exists s', c; split; [exists p|]; auto.
  - destruct (mt r s c k) eqn:E; intros H.
    + inversion H; subst. apply IH in E as (s' & c' & ? & ?). eauto 6.
    + exists s, c; auto.
  - intros H. apply IH1 in H as (s1 & c1 & H1 & H). apply IH2 in H as (s2 & c2 & H2 & H). eauto 8.
  - destruct (mt r1 s c k) eqn:E; intros H.
    + inversion H; subst. apply IH1 in E as (s' & c' & ? & ?). eauto 6.
    + apply IH2 in H as (s' & c' & ? & ?). eauto 6.
  - intros H. apply IH in H as (s' & c' & H1 & H).
    destruct (MT_prefix _ _ _ _ _ H1) as [p ->].
    rewrite firstn_app_exact in H. eauto 10.
Qed.

Lemma mt_complete {R} r : forall s c s' c' (k : str -> caps -> option R),
  MT r s c s' c' -> k s' c' <> None -> mt r s c k <> None.
Proof.
  induction r as [| |p|cs|cs lo hi|r IH|r1 IH1 r2 IH2|r1 IH1 r2 IH2|n r IH]; intros s c s' c' k; cbn.
  - intros [-> ->]; auto.
  - intros (-> & -> & ->); auto.
  - intros [-> ->] Hk. destruct (strip_prefix p (p ++ s')) eqn:E.
    + apply strip_prefix_spec in E. apply app_inv_head in E. subst; auto.
    + assert (strip_prefix p (p ++ s') = Some s') by (apply strip_prefix_spec; reflexivity).
      congruence.
  - intros (x & -> & Hx & ->) Hk. rewrite Hx. auto.
  - intros (p & -> & Hp & Hl & Hw & ->) Hk. apply rep_complete; auto.
  - intros [H|[-> ->]] Hk.
    + specialize (IH _ _ _ _ k H Hk). destruct (mt r s c k); congruence.
    + destruct (mt r s c k); congruence.
  - intros (s1 & c1 & H1 & H2) Hk. apply (IH1 _ _ _ _ _ H1). apply (IH2 _ _ _ _ _ H2 Hk).
  - intros [H|H] Hk.
    + specialize (IH1 _ _ _ _ k H Hk). destruct (mt r1 s c k); congruence.
    + specialize (IH2 _ _ _ _ k H Hk). destruct (mt r1 s c k); congruence.
  - intros (c1 & p & H & -> & ->) Hk. apply (IH _ _ _ _ _ H).
    rewrite firstn_app_exact. exact Hk.
Qed.

Lemma re_match_sound r s c : re_match r s = Some c -> exists s', MT r s [] s' c.
Proof.
  unfold re_match; intros H. apply mt_sound in H as (s' & c' & H & E).
  inversion E; subst; eauto.
Qed.

Lemma re_match_complete r s s' c : MT r s [] s' c -> re_match r s <> None.
Proof. intros H. apply (mt_complete _ _ _ _ _ _ H). discriminate. Qed.

(** When all relational matches agree on the captures, the matcher returns them. *)
Lemma re_match_unique r s s' c :
  MT r s [] s' c -> (forall s2 c2, MT r s [] s2 c2 -> c2 = c) -> re_match r s = Some c.
Proof.
  intros H Hu. pose proof (re_match_complete _ _ _ _ H) as Hn.
  destruct (re_match r s) as [c2|] eqn:E; [|congruence].
  apply re_match_sound in E as (s2 & E). f_equal; eauto.
Qed.

Lemma re_match_none r s : (forall s' c, ~ MT r s [] s' c) -> re_match r s = None.
Proof.
  intros H. destruct (re_match r s) as [c|] eqn:E; [|reflexivity].
  apply re_match_sound in E as (s' & E). exfalso; eapply H; eauto.
Qed.
