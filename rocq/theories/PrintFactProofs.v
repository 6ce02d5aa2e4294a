(** Lemmas about the texts of nodes, dictionaries of networks and tables of facts. *)
From Coq Require Import QArith.
From Verif Require Import Base QNameModel CtxModel CtxSpec CtxProofs PrintModel PrintSpec PrintProofs.
Local Open Scope nat_scope.

(** ** Texts *)

Lemma split_first {A} (x : A) a b r r' : ~ In x a -> ~ In x b -> a ++ x :: r = b ++ x :: r' -> a = b /\ r = r'.
Proof.
  revert b. induction a as [|c a IH]; intros [|d b] Ha Hb E; cbn in E.
  - injection E as E. auto.
  - exfalso. apply Hb. left. congruence.
  - exfalso. apply Ha. left. congruence.
  - injection E as -> E. apply IH in E; [|intros X; apply Ha; right; exact X|intros X; apply Hb; right; exact X].
    destruct E as [-> ->]. auto.
Qed.

Definition plain (w : str) : Prop := ~ In (ch " ") w /\ ~ In (ch "]") w.

Lemma strip_repeat n w : ~ In (ch " ") w -> drop_while (N.eqb (ch " ")) (repeat (ch " ") n ++ w) = w.
Proof.
  intros H. induction n as [|n IH]; [|exact IH]. cbn [repeat app].
  destruct w as [|a w]; [reflexivity|]. cbn [drop_while].
  destruct (N.eqb_spec (ch " ") a); [|reflexivity]. exfalso. apply H. left. congruence.
Qed.

Lemma pad4_inj w w' : ~ In (ch " ") w -> ~ In (ch " ") w' -> pad4 w = pad4 w' -> w = w'.
Proof.
  unfold pad4. intros H H' E. apply (f_equal (drop_while (N.eqb (ch " ")))) in E.
  rewrite !strip_repeat in E by assumption. exact E.
Qed.

Lemma pad4_plain w : plain w -> ~ In (ch "]") (pad4 w).
Proof.
  intros [_ H] X. unfold pad4 in X. apply in_app_or in X. destruct X as [X|X]; [|exact (H X)].
  apply repeat_spec in X. discriminate.
Qed.

Lemma tag_inj k k' a b : tag_of k ++ u " " ++ a = tag_of k' ++ u " " ++ b -> k = k' /\ a = b.
Proof.
  destruct k, k'; intros E; try (vm_compute in E; discriminate); (split; [reflexivity|]);
    apply app_inv_head in E; apply app_inv_head in E; exact E.
Qed.

Lemma tag_weight k a s : tag_of k ++ u " " ++ a <> u "[W=" ++ s.
Proof. destruct k; intros E; vm_compute in E; discriminate. Qed.

Lemma shown_weight n w : pn_weight n = Some w ->
  shown n = u "[W=" ++ pad4 w ++ ch "]" :: ch " " ::
            repeat (ch " ") (PADDING - length (u "[W=" ++ pad4 w ++ u "] ")) ++ shown_target (pn_target n).
Proof.
  intros E. unfold shown. rewrite E. cbn [weight_text].
  change (u "] ") with [ch "]"; ch " "] at 1.
  destruct (u "[W=" ++ pad4 w ++ u "] ") as [|x l] eqn:El; [vm_compute in El; discriminate|].
  rewrite <- El. rewrite <- !app_assoc. reflexivity.
Qed.

Lemma shown_plain n : pn_weight n = None -> shown n = shown_target (pn_target n).
Proof. intros E. unfold shown. rewrite E. reflexivity. Qed.

Lemma shown_inj n n' k name k' name' :
  pn_target n = TElement k name -> pn_target n' = TElement k' name' ->
  (forall w, pn_weight n = Some w -> plain w) -> (forall w, pn_weight n' = Some w -> plain w) ->
  shown n = shown n' -> pn_weight n = pn_weight n' /\ k = k' /\ name = name'.
Proof.
  intros T T' W W' E.
  destruct (pn_weight n) as [w|] eqn:Ew, (pn_weight n') as [w'|] eqn:Ew'.
  - specialize (W w eq_refl). specialize (W' w' eq_refl).
    rewrite (shown_weight _ _ Ew), (shown_weight _ _ Ew') in E. apply app_inv_head in E.
    apply split_first in E; [|apply pad4_plain; assumption|apply pad4_plain; assumption].
    destruct E as [E1 E2]. apply pad4_inj in E1; [|apply W|apply W']. subst w'.
    injection E2 as E2. apply app_inv_head in E2. rewrite T, T' in E2. apply tag_inj in E2. tauto.
  - rewrite (shown_weight _ _ Ew), (shown_plain _ Ew'), T' in E. symmetry in E. apply tag_weight in E. tauto.
  - rewrite (shown_weight _ _ Ew'), (shown_plain _ Ew), T in E. apply tag_weight in E. tauto.
  - rewrite (shown_plain _ Ew), (shown_plain _ Ew'), T, T' in E. apply tag_inj in E. tauto.
Qed.

Lemma shown_aligned n w : pn_weight n = Some w -> length w <= 7 ->
  exists pre, length pre = 12 /\ shown n = pre ++ shown_target (pn_target n).
Proof.
  intros E L. rewrite (shown_weight _ _ E).
  exists (u "[W=" ++ pad4 w ++ ch "]" :: ch " " :: repeat (ch " ") (PADDING - length (u "[W=" ++ pad4 w ++ u "] "))).
  split.
  - rewrite !app_length. cbn [length]. rewrite repeat_length. unfold pad4. rewrite app_length, repeat_length.
    change (length (u "[W=")) with 3. change (length (u "] ")) with 2. change PADDING with 12. lia.
  - rewrite <- !app_assoc. reflexivity.
Qed.

(** ** Dictionaries *)

Definition part (n : nat) (j : json) : json := match j with JObj l => nth n (map snd l) (JBool false) | _ => j end.

Lemma node_dict_S f g i : node_dict (S f) g i =
  do! children <- map_res (node_dict f g) (pn_kids (g i));
  Ok (JObj [(u "points_to", JStr (points_to (pn_target (g i)))); (u "arc_role", JStr (pn_arc_role (g i)));
            (u "arc_name", JStr (prefix_local_notation (pn_arc_name (g i)))); (u "link_role", JStr (pn_link_role (g i)));
            (u "link_name", JStr (prefix_local_notation (pn_link_name (g i)))); (u "order", JNum (pn_order (g i)));
            (u "children", JList children)]).
Proof. reflexivity. Qed.

Lemma points_class t t' : points_to t = points_to t' <-> same_class t t'.
Proof. destruct t, t'; vm_compute; split; intros E; try exact I; try discriminate; try reflexivity; try tauto. Qed.

Lemma dicts_alike g g' f f' :
  (forall i i' j j', node_dict f g i = Ok j -> node_dict f' g' i' = Ok j' -> (j = j' <-> alike g g' i i')) ->
  forall l l' js js', map_res (node_dict f g) l = Ok js -> map_res (node_dict f' g') l' = Ok js' ->
  (js = js' <-> alikes g g' l l').
Proof.
  intros IH. induction l as [|i l IHl]; intros [|i' l'] js js' E E'; cbn in E, E'.
  - injection E as <-. injection E' as <-. split; [constructor|reflexivity].
  - injection E as <-. destruct (node_dict f' g' i'); [|discriminate]. cbn in E'.
    destruct (map_res _ l'); [|discriminate]. injection E' as <-. split; [discriminate|intros X; inversion X].
  - injection E' as <-. destruct (node_dict f g i); [|discriminate]. cbn in E.
    destruct (map_res _ l); [|discriminate]. injection E as <-. split; [discriminate|intros X; inversion X].
  - destruct (node_dict f g i) as [j|] eqn:Ej; [|discriminate]. cbn in E.
    destruct (map_res _ l) as [r|] eqn:Er; [|discriminate]. injection E as <-.
    destruct (node_dict f' g' i') as [j'|] eqn:Ej'; [|discriminate]. cbn in E'.
    destruct (map_res _ l') as [r'|] eqn:Er'; [|discriminate]. injection E' as <-.
    pose proof (IH _ _ _ _ Ej Ej') as H1. pose proof (IHl _ _ _ eq_refl Er') as H2. split.
    + intros X. injection X as X1 X2. constructor; tauto.
    + intros X. inversion X; subst. f_equal; tauto.
Qed.

Lemma dict_alike g g' : forall f f' i i' j j', node_dict f g i = Ok j -> node_dict f' g' i' = Ok j' ->
  (j = j' <-> alike g g' i i').
Proof.
  induction f as [|f IH]; intros [|f'] i i' j j' E E'; try discriminate. rewrite node_dict_S in E, E'.
  destruct (map_res _ (pn_kids (g i))) as [c|] eqn:Ec in E; [|discriminate]. cbn [bind] in E.
  destruct (map_res _ (pn_kids (g' i'))) as [c'|] eqn:Ec' in E'; [|discriminate]. cbn [bind] in E'.
  assert (K : c = c' <-> alikes g g' (pn_kids (g i)) (pn_kids (g' i'))).
  { apply (dicts_alike g g' f f'); auto. intros; eapply IH; eauto. }
  assert (Ej : j = JObj [(u "points_to", JStr (points_to (pn_target (g i)))); (u "arc_role", JStr (pn_arc_role (g i)));
            (u "arc_name", JStr (prefix_local_notation (pn_arc_name (g i)))); (u "link_role", JStr (pn_link_role (g i)));
            (u "link_name", JStr (prefix_local_notation (pn_link_name (g i)))); (u "order", JNum (pn_order (g i)));
            (u "children", JList c)]) by congruence.
  assert (Ej' : j' = JObj [(u "points_to", JStr (points_to (pn_target (g' i')))); (u "arc_role", JStr (pn_arc_role (g' i')));
            (u "arc_name", JStr (prefix_local_notation (pn_arc_name (g' i')))); (u "link_role", JStr (pn_link_role (g' i')));
            (u "link_name", JStr (prefix_local_notation (pn_link_name (g' i')))); (u "order", JNum (pn_order (g' i')));
            (u "children", JList c')]) by congruence.
  clear E E'. subst j j'. split.
  - intros X.
    pose proof (f_equal (part 0) X) as X0. pose proof (f_equal (part 1) X) as X1. pose proof (f_equal (part 2) X) as X2.
    pose proof (f_equal (part 3) X) as X3. pose proof (f_equal (part 4) X) as X4. pose proof (f_equal (part 5) X) as X5.
    pose proof (f_equal (part 6) X) as X6. clear X.
    cbn [part map nth snd] in *.
    constructor; [apply points_class; congruence|congruence|congruence|congruence|congruence|congruence|].
    apply K. congruence.
  - intros X. inversion X as [? ? H0 H1 H2 H3 H4 H5 H6]; subst. apply points_class in H0.
    apply K in H6. rewrite H0, H1, H2, H3, H4, H5, H6. reflexivity.
Qed.

(** ** Tables of facts *)

Lemma set_add_in s a x : In x (set_add s a) <-> In x s \/ x = a.
Proof.
  unfold set_add. destruct (existsb (str_eqb a) s) eqn:E.
  - apply existsb_str in E. split; [auto|intros [H| ->]; auto].
  - rewrite in_app_iff. cbn. intuition congruence.
Qed.

Lemma set_add_nodup s a : NoDup s -> NoDup (set_add s a).
Proof.
  unfold set_add. intros H. destruct (existsb (str_eqb a) s) eqn:E; [exact H|].
  apply (Permutation_NoDup (l := a :: s)); [apply Permutation_cons_append|]. constructor; [|exact H].
  intros X. apply existsb_str in X. congruence.
Qed.

Lemma fold_add_in l : forall s x, In x (fold_left set_add l s) <-> In x s \/ In x l.
Proof.
  induction l as [|a l IH]; cbn; intros s x; [tauto|]. rewrite IH, set_add_in. intuition congruence.
Qed.

Lemma fold_add_nodup l : forall s, NoDup s -> NoDup (fold_left set_add l s).
Proof. induction l as [|a l IH]; cbn; intros s H; [exact H|]. apply IH, set_add_nodup, H. Qed.

Lemma aspects_in facts a : In a (aspects_of facts) <-> aspect_used facts a.
Proof.
  unfold aspects_of, aspect_used.
  enough (H : forall s, In a (fold_left (fun s f => fold_left set_add (c_aspects (f_context f)) s) facts s) <->
    In a s \/ exists f, In f facts /\ In a (c_aspects (f_context f))).
  { rewrite H. cbn. tauto. }
  induction facts as [|f l IH]; cbn; intros s.
  - split; [auto|intros [H|(f & [] & _)]; exact H].
  - rewrite IH, fold_add_in. split.
    + intros [[H|H]|(f' & H & H')]; [auto|right; exists f; auto|right; exists f'; auto].
    + intros [H|(f' & [<-|H] & H')]; [auto|auto|right; exists f'; auto].
Qed.

Lemma aspects_nodup facts : NoDup (aspects_of facts).
Proof.
  unfold aspects_of. enough (H : forall s, NoDup s -> NoDup (fold_left (fun s f => fold_left set_add (c_aspects (f_context f)) s) facts s)).
  { apply H. constructor. }
  induction facts as [|f l IH]; cbn; intros s H; [exact H|]. apply IH, fold_add_nodup, H.
Qed.

Lemma core_ranks : NoDup core_aspects.
Proof.
  unfold core_aspects. repeat constructor; intros X; repeat (destruct X as [X|X]; [vm_compute in X; discriminate|]); exact X.
Qed.

Lemma rank_unique a m n : core_rank a m -> core_rank a n -> m = n.
Proof.
  unfold core_rank. intros H H'. apply (proj1 (NoDup_nth_error core_aspects) core_ranks); [|congruence].
  apply nth_error_Some. congruence.
Qed.

Lemma rank_core a m : core_rank a m -> is_core a.
Proof. apply nth_error_In. Qed.

(** The key of an aspect is that of its rank, or contains its name. *)
Lemma key_cases a :
  (exists n, core_rank a n /\ sort_key a = [N.of_nat (49 + n)]) \/ (~ is_core a /\ sort_key a = 53%N :: a).
Proof.
  unfold sort_key.
  destruct (str_eqb a a_concept) eqn:E1; [left; exists 0; split; [apply str_eqb_eq in E1; rewrite E1; reflexivity|reflexivity]|].
  destruct (str_eqb a a_period) eqn:E2; [left; exists 1; split; [apply str_eqb_eq in E2; rewrite E2; reflexivity|reflexivity]|].
  destruct (str_eqb a a_entity) eqn:E3; [left; exists 2; split; [apply str_eqb_eq in E3; rewrite E3; reflexivity|reflexivity]|].
  destruct (str_eqb a a_unit) eqn:E4; [left; exists 3; split; [apply str_eqb_eq in E4; rewrite E4; reflexivity|reflexivity]|].
  right. split; [|reflexivity].
  intros [H|[H|[H|[H|[]]]]]; subst a.
  - vm_compute in E1. discriminate.
  - vm_compute in E2. discriminate.
  - vm_compute in E3. discriminate.
  - vm_compute in E4. discriminate.
Qed.

Lemma rank_small a n : core_rank a n -> n < 4.
Proof. intros H. assert (X : n < length core_aspects) by (apply nth_error_Some; unfold core_rank in H; congruence). exact X. Qed.

Lemma key_before a b : key_leb sort_key a b = true -> a <> b -> column_before a b.
Proof.
  unfold key_leb. intros H Hn.
  destruct (key_cases a) as [(m & Hm & ->)|[Ha ->]] in H; destruct (key_cases b) as [(n & Hn' & ->)|[Hb ->]] in H.
  - apply (before_core a b m n); auto. cbn [str_leb] in H. rewrite orb_true_iff, andb_true_iff, N.ltb_lt, N.eqb_eq in H.
    assert (m <> n); [|lia]. intros ->. apply Hn. unfold core_rank in *. congruence.
  - apply before_other; [eapply rank_core; eauto|exact Hb].
  - exfalso. apply rank_small in Hn'. cbn [str_leb] in H. rewrite orb_true_iff, andb_true_iff, N.ltb_lt, N.eqb_eq in H. lia.
  - apply before_name; auto. apply str_leb_lex; [|exact Hn]. cbn [str_leb] in H.
    rewrite orb_true_iff, andb_true_iff, N.ltb_lt in H. destruct H as [H|[_ H]]; [lia|exact H].
Qed.

Lemma lex_lt_asym a b : lex_lt a b -> lex_lt b a -> False.
Proof. induction 1; intros X; inversion X; subst; try lia; auto. Qed.

Lemma before_asym a b : column_before a b -> column_before b a -> False.
Proof.
  intros [a' b' m n Ha Hb L|a' b' Ha Hb|a' b' Ha Hb L] X; inversion X as [? ? m' n' Ha' Hb' L'|? ? Ha' Hb'|? ? Ha' Hb' L']; subst.
  - pose proof (rank_unique _ _ _ Ha Hb'). pose proof (rank_unique _ _ _ Hb Ha'). lia.
  - apply Hb', (rank_core _ _ Ha).
  - apply Hb', (rank_core _ _ Ha).
  - apply Hb, (rank_core _ _ Ha').
  - tauto.
  - tauto.
  - apply Ha, (rank_core _ _ Hb').
  - tauto.
  - eapply lex_lt_asym; eauto.
Qed.

Lemma sorted_unique {A} (R : A -> A -> Prop) : (forall x y, R x y -> R y x -> False) ->
  forall l l', StronglySorted R l -> StronglySorted R l' -> (forall x, In x l <-> In x l') -> l = l'.
Proof.
  intros HR. induction l as [|a l IH]; intros [|b l'] S S' H.
  - reflexivity.
  - destruct (proj2 (H b) (or_introl eq_refl)).
  - destruct (proj1 (H a) (or_introl eq_refl)).
  - inversion S as [|? ? S1 F1]; subst. inversion S' as [|? ? S2 F2]; subst.
    rewrite Forall_forall in F1, F2.
    assert (a = b) as <-.
    { destruct (proj1 (H a) (or_introl eq_refl)) as [E|E]; [congruence|].
      destruct (proj2 (H b) (or_introl eq_refl)) as [E'|E']; [congruence|].
      exfalso. eapply HR; [apply F1; exact E'|apply F2; exact E]. }
    f_equal. apply IH; auto. intros x. split; intros Hx.
    + destruct (proj1 (H x) (or_intror Hx)) as [<-|E]; [|exact E]. exfalso. eapply HR; apply F1; exact Hx.
    + destruct (proj2 (H x) (or_intror Hx)) as [<-|E]; [|exact E]. exfalso. eapply HR; apply F2; exact Hx.
Qed.

Definition dims (ord : list str -> list str) (facts : list fact) : list str :=
  stable_sort (key_leb sort_key) (ord (aspects_of facts)).

Lemma key_total key a b : key_leb key a b = true \/ key_leb key b a = true.
Proof. apply str_leb_total. Qed.
Lemma key_trans key a b c : key_leb key a b = true -> key_leb key b c = true -> key_leb key a c = true.
Proof. apply str_leb_trans. Qed.

Lemma dims_in ord facts a : (forall l, Permutation (ord l) l) -> In a (dims ord facts) <-> aspect_used facts a.
Proof.
  intros H. unfold dims. rewrite stable_sort_in, <- aspects_in. split; apply Permutation_in; [|symmetry]; apply H.
Qed.

Lemma sorted_strict {A} (R Q : A -> A -> Prop) l : (forall x y, R x y -> x <> y -> Q x y) ->
  NoDup l -> StronglySorted R l -> StronglySorted Q l.
Proof.
  intros H Hn0 Hs. induction Hs as [|a l S IH F]; [constructor|]. inversion Hn0 as [|? ? Hn Hd]; subst.
  constructor; [auto|]. rewrite Forall_forall in *. intros x Hx. apply H; [auto|]. intros ->. tauto.
Qed.

Lemma dims_nodup ord facts : (forall l, Permutation (ord l) l) -> NoDup (dims ord facts).
Proof.
  intros H. unfold dims. eapply Permutation_NoDup; [apply stable_sort_perm|].
  eapply Permutation_NoDup; [symmetry; apply H|]. apply aspects_nodup.
Qed.

Lemma dims_sorted ord facts : (forall l, Permutation (ord l) l) -> StronglySorted column_before (dims ord facts).
Proof.
  intros H. eapply sorted_strict; [|apply dims_nodup; exact H|].
  - intros x y. apply key_before.
  - apply stable_sort_sorted; [apply key_total|apply key_trans].
Qed.

Lemma distinct_spec l : distinct l = true <-> NoDup l.
Proof.
  induction l as [|a l IH]; cbn; [split; [constructor|reflexivity]|].
  rewrite andb_true_iff, negb_true_iff, IH. split.
  - intros [H Hd]. constructor; [|exact Hd]. intros X. apply existsb_str in X. congruence.
  - intros H. inversion H as [|? ? Hn Hd]; subst. split; [|exact Hd].
    destruct (existsb (str_eqb a) l) eqn:E; [|reflexivity]. apply existsb_str in E. tauto.
Qed.

Lemma columns_distinct a z l : NoDup l -> a <> z -> distinct ([a] ++ l ++ [z]) = true <-> (~ In a l /\ ~ In z l).
Proof.
  intros Hd Haz. rewrite distinct_spec. cbn [app]. split.
  - intros H. inversion H as [|? ? Hn Hd']; subst. rewrite in_app_iff in Hn. split; [tauto|].
    apply (Permutation_NoDup (Permutation_app_comm l [z])) in Hd'. inversion Hd'; subst. tauto.
  - intros [Ha Hz]. constructor.
    + rewrite in_app_iff. cbn. intuition congruence.
    + apply (Permutation_NoDup (Permutation_app_comm [z] l)). constructor; assumption.
Qed.

Lemma insert_sorted_map {A B} (h : A -> B) (ra : A -> A -> bool) (rb : B -> B -> bool) x l :
  (forall x y, rb (h x) (h y) = ra x y) -> insert_sorted rb (h x) (map h l) = map h (insert_sorted ra x l).
Proof.
  intros H. induction l as [|y l IH]; cbn; [reflexivity|]. rewrite H. destruct (ra x y); cbn; [reflexivity|].
  rewrite IH. reflexivity.
Qed.

Lemma stable_sort_map {A B} (h : A -> B) (ra : A -> A -> bool) (rb : B -> B -> bool) l :
  (forall x y, rb (h x) (h y) = ra x y) -> stable_sort rb (map h l) = map h (stable_sort ra l).
Proof.
  intros H. induction l as [|x l IH]; [reflexivity|]. unfold stable_sort in *. cbn [map fold_right]. rewrite IH.
  apply insert_sorted_map. exact H.
Qed.

Definition by_id (a b : fact) : bool := str_leb (order_id a) (order_id b).

Lemma str_leb_antisym a b : str_leb a b = true -> str_leb b a = true -> a = b.
Proof.
  intros H H'. destruct (str_eqb a b) eqn:E; [apply str_eqb_eq; exact E|].
  assert (a <> b) by (intros ->; rewrite str_eqb_refl in E; discriminate).
  exfalso. eapply lex_lt_asym; apply str_leb_lex; eauto.
Qed.

Lemma by_id_order facts : in_id_order facts (stable_sort by_id facts).
Proof.
  assert (Ht : forall x y, by_id x y = true \/ by_id y x = true) by (intros; apply str_leb_total).
  assert (Htr : forall x y z, by_id x y = true -> by_id y z = true -> by_id x z = true)
    by (intros x y z; apply str_leb_trans).
  split; [|split].
  - apply stable_sort_perm.
  - pose proof (stable_sort_sorted by_id Ht Htr facts) as S.
    induction S as [|a l S IH F]; constructor; [exact IH|]. eapply Forall_impl; [|exact F]. intros b Hb.
    destruct (str_eqb (order_id a) (order_id b)) eqn:E; [left; apply str_eqb_eq; exact E|].
    right. apply str_leb_lex; [exact Hb|]. intros X. rewrite X, str_eqb_refl in E. discriminate.
  - intros i. destruct (existsb (fun f => str_eqb i (order_id f)) facts) eqn:E.
    + apply existsb_exists in E. destruct E as (k & _ & Ek). apply str_eqb_eq in Ek.
      assert (Hf : forall f, str_eqb i (order_id f) = same_key by_id k f).
      { intros f. unfold same_key, by_id. rewrite <- Ek. destruct (str_eqb i (order_id f)) eqn:E.
        - apply str_eqb_eq in E. rewrite <- E, str_leb_refl. reflexivity.
        - destruct (str_leb i (order_id f)) eqn:E1; [|reflexivity]. destruct (str_leb (order_id f) i) eqn:E2; [|reflexivity].
          rewrite (str_leb_antisym _ _ E1 E2), str_eqb_refl in E. discriminate. }
      rewrite !(filter_ext _ _ Hf). apply stable_sort_stable; assumption.
    + assert (Hno : forall f, In f facts -> str_eqb i (order_id f) = false).
      { intros f Hf. destruct (str_eqb i (order_id f)) eqn:Ef; [|reflexivity].
        rewrite <- E. symmetry. apply existsb_exists. eauto. }
      assert (Hnil : forall l, (forall f, In f l -> In f facts) -> filter (fun f => str_eqb i (order_id f)) l = []).
      { induction l as [|f l IH]; intros Hl; [reflexivity|]. cbn. rewrite Hno by (apply Hl; left; reflexivity).
        apply IH. intros x Hx. apply Hl. right. exact Hx. }
      rewrite !Hnil; auto. intros f. apply stable_sort_in.
Qed.

Lemma fact_row_shows ds f : row_shows ds f (snd (fact_row ds f)).
Proof.
  exists (map (fun d => CChar (get_characteristic (f_context f) d)) ds). split; [reflexivity|].
  induction ds as [|d ds IH]; cbn [map]; constructor; [|exact IH]. f_equal. unfold get_characteristic. clear.
  induction (c_chars (f_context f)) as [|[k v] l IHl]; [reflexivity|]. cbn [find dict_get fst].
  destruct (str_eqb k d); [reflexivity|exact IHl].
Qed.

Lemma facts_rows ds facts :
  map snd (stable_sort row_leb (map (fact_row ds) facts)) = map (fun f => snd (fact_row ds f)) (stable_sort by_id facts).
Proof. rewrite (stable_sort_map (fact_row ds) by_id row_leb) by reflexivity. rewrite map_map. reflexivity. Qed.

(** ** When a dictionary is made *)

Lemma map_res_ok {A B} (h : A -> res B) l : (forall a, In a l -> exists b, h a = Ok b) <-> exists bs, map_res h l = Ok bs.
Proof.
  induction l as [|a l IH]; cbn; split.
  - eauto.
  - intros _ a [].
  - intros H. destruct (H a (or_introl eq_refl)) as [b ->]. destruct (proj1 IH) as [bs ->]; [auto|]. cbn. eauto.
  - intros [bs E]. destruct (h a) as [b|] eqn:Ea; [|discriminate]. cbn in E. destruct (map_res h l) as [r|] eqn:Er; [|discriminate].
    intros x [<-|Hx]; [eauto|apply (proj2 IH); eauto].
Qed.

Definition has_dict (g : net) (f i : nat) : Prop := exists j, node_dict f g i = Ok j.

Lemma has_dict_S g f i : has_dict g (S f) i <-> forall k, In k (pn_kids (g i)) -> has_dict g f k.
Proof.
  unfold has_dict at 1. rewrite node_dict_S. split.
  - intros [j E]. destruct (map_res _ (pn_kids (g i))) as [l|] eqn:El; [|discriminate].
    intros k Hk. apply (proj2 (map_res_ok (node_dict f g) (pn_kids (g i)))); eauto.
  - intros H. destruct (proj1 (map_res_ok (node_dict f g) (pn_kids (g i)))) as [l ->]; [exact H|]. cbn [bind]. eauto.
Qed.

Lemma has_dict_le g f f' i : f <= f' -> has_dict g f i -> has_dict g f' i.
Proof.
  intros L. induction L as [|f' L IH]; [auto|]. intros H. specialize (IH H). clear H L. revert i IH.
  induction f' as [|n IHn]; intros i H; [destruct H; discriminate|].
  apply has_dict_S. intros k Hk. apply IHn. apply (proj1 (has_dict_S g n i)); assumption.
Qed.

Lemma dict_acc g i : (exists f, has_dict g f i) <-> Acc (child g) i.
Proof.
  split.
  - intros [f H]. revert i H. induction f as [|f IH]; intros i H; [destruct H; discriminate|].
    constructor. intros k Hk. apply IH. apply (proj1 (has_dict_S g f i)); assumption.
  - induction 1 as [i _ IH].
    destruct (fuel_all (has_dict g) (pn_kids (g i))) as [f Hf]; [intros; eapply has_dict_le; eauto|exact IH|].
    exists (S f). apply has_dict_S. exact Hf.
Qed.

Lemma network_dict_ends g lr ln p roots :
  (exists f j, network_dict f g lr ln p roots = Ok j) <-> (forall i, In i roots -> Acc (child g) i).
Proof.
  unfold network_dict. split.
  - intros (f & j & E) i Hi. apply dict_acc. exists f. destruct (map_res _ roots) as [l|] eqn:El; [|discriminate].
    apply (proj2 (map_res_ok (node_dict f g) roots)); eauto.
  - intros H. destruct (fuel_all (has_dict g) roots) as [f Hf]; [intros; eapply has_dict_le; eauto| |].
    { intros i Hi. apply dict_acc. auto. }
    destruct (proj1 (map_res_ok (node_dict f g) roots) Hf) as [l El]. exists f. rewrite El. cbn [bind]. eauto.
Qed.
