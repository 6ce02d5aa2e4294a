(** Where a reference leads (C35, C37): said apart from the model's own way of computing it. *)
From Verif Require Import Base DtsModel DtsSpec DtsProofs DtsRefs DtsLoad DtsProps OpenProofs.

Definition remote (uri : str) : Prop := exists rest, uri = u "http" ++ rest.
(** The separator of a path: a backslash if it has one. *)
Inductive separator (path : str) : N -> Prop :=
| sep_back : In backslash path -> separator path backslash
| sep_slash : ~ In backslash path -> separator path (ch "/").
(** [dir'] is [dir] with separators of another kind. *)
Inductive respelt (c c' : N) : str -> str -> Prop :=
| rs_nil : respelt c c' [] []
| rs_sep d d' : respelt c c' d d' -> respelt c c' (c :: d) (c' :: d')
| rs_other x d d' : x <> c -> respelt c c' d d' -> respelt c c' (x :: d) (x :: d').
(** The place of [uri] when it is read in the document [from], before any rule applies *)
Inductive place (urljoin : str -> str -> str) (uri from : str) : str -> Prop :=
| pl_remote : remote uri \/ remote from -> place urljoin uri from (urljoin from uri)
| pl_beside c c' dir dir' name : ~ remote uri -> ~ remote from -> separator from c -> separator uri c' ->
    from = dir ++ c :: name -> ~ In c name -> respelt c c' dir dir' -> place urljoin uri from (dir' ++ c' :: uri)
| pl_alone c : ~ remote uri -> ~ remote from -> separator from c -> ~ In c from -> place urljoin uri from uri.

Lemma remote_http uri : is_http uri = true <-> remote uri.
Proof. unfold is_http. rewrite prefix_spec. reflexivity. Qed.
Lemma respelt_map c c' d : respelt c c' d (subst_char c c' d).
Proof.
  induction d as [|x d IH]; cbn [subst_char map]; [constructor|]. destruct (N.eqb_spec x c) as [->|H]; [constructor; exact IH|constructor; [exact H|exact IH]].
Qed.
Lemma mem_char_in c s : mem_char c s = true <-> In c s.
Proof.
  unfold mem_char. rewrite existsb_exists. split.
  - intros (x & Hx & E). apply N.eqb_eq in E as ->. exact Hx.
  - intros H. exists c. split; [exact H|apply N.eqb_refl].
Qed.
Lemma separator_is path : separator path (if mem_char backslash path then backslash else ch "/").
Proof.
  destruct (mem_char backslash path) eqn:E; constructor.
  - apply mem_char_in. exact E.
  - intros K. apply mem_char_in in K. congruence.
Qed.
Lemma last_cut c (s : str) : In c s -> exists dir name, s = dir ++ c :: name /\ ~ In c name.
Proof.
  induction s as [|x s IH]; [intros []|]. intros H. destruct (in_dec N.eq_dec c s) as [K|K].
  - destruct (IH K) as (dir & name & -> & N). exists (x :: dir), name. split; [reflexivity|exact N].
  - destruct H as [->|H]; [|contradiction]. exists [], s. split; [reflexivity|exact K].
Qed.
Lemma split_cut c dir name : ~ In c name -> split_char c (dir ++ c :: name) = split_char c dir ++ [name].
Proof.
  intros N. induction dir as [|x dir IH]; cbn [app split_char].
  - rewrite N.eqb_refl, (split_none c name N). reflexivity.
  - rewrite IH. destruct (N.eqb x c); [reflexivity|]. destruct (split_char c dir) as [|p ps] eqn:E; [destruct (split_nonempty c dir E)|reflexivity].
Qed.
Lemma absolute_place urljoin uri from : place urljoin uri from (absolute urljoin uri from).
Proof.
  unfold absolute. destruct (is_http uri || is_http from) eqn:E; cbn [negb].
  { apply pl_remote. apply Bool.orb_true_iff in E. rewrite !remote_http in E. exact E. }
  apply Bool.orb_false_iff in E as [E1 E2].
  assert (R1 : ~ remote uri) by (rewrite <- remote_http; congruence). assert (R2 : ~ remote from) by (rewrite <- remote_http; congruence).
  pose proof (separator_is from) as S1. pose proof (separator_is uri) as S2.
  set (c := if mem_char backslash from then backslash else ch "/") in *. set (c' := if mem_char backslash uri then backslash else ch "/") in *.
  destruct (in_dec N.eq_dec c from) as [K|K].
  - destruct (last_cut c from K) as (dir & name & Ef & Hn). rewrite Ef, (split_cut c dir name Hn), removelast_last.
    rewrite join_app by apply split_nonempty. rewrite join_split, join_split_other.
    apply (pl_beside _ _ (dir ++ c :: name) c c' dir (subst_char c c' dir) name); rewrite <- ?Ef; auto. apply respelt_map.
  - rewrite (split_none c from K). cbn [removelast app]. rewrite join_split. exact (pl_alone _ _ _ c R1 R2 S1 K).
Qed.
Lemma place_one urljoin uri from p q : place urljoin uri from p -> place urljoin uri from q -> p = q.
Proof.
  assert (SE : forall s a b, separator s a -> separator s b -> a = b) by (intros s a b [H|H] [K|K]; try reflexivity; contradiction).
  assert (RE : forall c c' d a b, respelt c c' d a -> respelt c c' d b -> a = b).
  { intros c c' d a b H. revert b. induction H as [|d d' H IH|x d d' N H IH]; intros b K; inversion K; subst; try contradiction; try reflexivity; f_equal; auto. }
  intros [H|c c' d d' n U F S T E N R|c U F S N]; intros [H0|c0 c0' e e' n0 U0 F0 S0 T0 E0 N0 R0|c0 U0 F0 S0 N0]; try reflexivity; try tauto.
  - assert (c0 = c) as -> by (eapply SE; eauto). assert (c0' = c') as -> by (eapply SE; eauto).
    assert (d = e) as ->.
    { rewrite E in E0. clear - E0 N N0. revert e E0. induction d as [|x d IH]; intros [|y e] E0; cbn [app] in E0.
      - reflexivity.
      - injection E0 as -> ->. destruct N. apply in_or_app. right. left. reflexivity.
      - injection E0 as <- <-. destruct N0. apply in_or_app. right. left. reflexivity.
      - injection E0 as <- E0. f_equal. exact (IH e E0). }
    rewrite (RE _ _ _ _ _ R R0). reflexivity.
  - assert (c0 = c) as -> by (eapply SE; eauto). destruct N0. rewrite E. apply in_or_app. right. left. reflexivity.
  - assert (c0 = c) as -> by (eapply SE; eauto). destruct N. rewrite E0. apply in_or_app. right. left. reflexivity.
Qed.

(** A reference leads to its place, rewritten by the longest rule that applies to that place (not to the reference as it is written). *)
Theorem C37_reference_partial {tree} (w : world tree) rs uri from v : longer_first rs ->
  (resolve w rs uri from = v -> exists p, place (w_urljoin w) uri from p /\ rewritten_by_longest rs p v) /\
  (forall p, place (w_urljoin w) uri from p -> rewritten_by_longest rs p (resolve w rs uri from)).
Proof.
  intros L. pose proof (absolute_place (w_urljoin w) uri from) as A. pose proof (C37_longest_partial rs (absolute (w_urljoin w) uri from) L) as B. split.
  - intros <-. exists (absolute (w_urljoin w) uri from). split; [exact A|exact B].
  - intros p P. rewrite (place_one _ _ _ _ _ P A). exact B.
Qed.
(** Without rules, a reference leads to its place. *)
Theorem C35_reference {tree} (w : world tree) uri from p : resolve w [] uri from = p <-> place (w_urljoin w) uri from p.
Proof.
  pose proof (absolute_place (w_urljoin w) uri from) as A. unfold resolve. cbn [rewrite]. split.
  - intros <-. exact A.
  - intros P. exact (place_one _ _ _ _ _ A P).
Qed.
Example C37_example_reference : place (fun _ r => r) (u "sub/b.xsd") (u "tax/main/a.xsd") (u "tax/main/sub/b.xsd") /\
  rewritten_by_longest [(u "tax/main/", u "disk/")] (u "tax/main/sub/b.xsd") (u "disk/sub/b.xsd").
Proof.
  split.
  - apply (pl_beside _ _ _ (ch "/") (ch "/") (u "tax/main") (u "tax/main") (u "a.xsd")).
    + intros (r & H). discriminate H.
    + intros (r & H). discriminate H.
    + constructor. vm_compute. intuition discriminate.
    + constructor. vm_compute. intuition discriminate.
    + reflexivity.
    + vm_compute. intuition discriminate.
    + apply (respelt_map (ch "/") (ch "/") (u "tax/main")).
  - left. exists (u "tax/main/", u "disk/"). split.
    + split; [left; reflexivity|]. split; [exists (u "sub/b.xsd"); reflexivity|]. intros o [<-|[]] _. lia.
    + exists (u "sub/b.xsd"). split; reflexivity.
Qed.

Print Assumptions C37_reference_partial.
Print Assumptions C35_reference.
