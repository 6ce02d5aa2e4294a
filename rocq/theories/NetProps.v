(** C17-C22: networks. *)
From Verif Require Import Base NetModel NetSpec NetProofs NetLinkProofs NetCombineProofs.
Local Open Scope nat_scope.

(** ** C17 *)

(** Whatever is added in whatever order, the children of a node are what was added to it, by
    order, equal orders as added. *)
Theorem C17_children_sorted : forall h adds p n, nth_error h p = Some n -> n_kids n = [] ->
  sorted_by (get_order (add_all h adds)) (map snd (filter (fun a => Nat.eqb (fst a) p) adds)) (get_children (add_all h adds) p).
Proof.
  intros h adds p n Hp Hk. rewrite (children_add_all adds h p n Hp Hk).
  destruct (sort_sorted_by h (added adds p)) as (H1 & H2 & H3). split; [exact H1|split].
  - eapply StronglySorted_ind with (P := fun l => StronglySorted (fun x y => (get_order (add_all h adds) x <= get_order (add_all h adds) y)%Q) l); [constructor| |exact H2].
    intros a l _ IH Hf. constructor; [exact IH|]. eapply Forall_impl; [|exact Hf]. cbn. intros b Hb. rewrite !add_all_order. exact Hb.
  - intros q. erewrite filter_ext; [rewrite H3; apply filter_ext|]; intros x; rewrite add_all_order; reflexivity.
Qed.
(** Nodes to which nothing is added keep their children. *)
Theorem C17_others_unchanged : forall h adds p, ~ In p (map fst adds) -> get_children (add_all h adds) p = get_children h p.
Proof.
  intros h adds p H. unfold get_children. rewrite nth_add_all. destruct (nth_error h p) as [n|]; [|reflexivity]. cbn [option_map].
  replace (added adds p) with (@nil nat); [reflexivity|]. symmetry.
  induction adds as [|a adds IH]; [reflexivity|]. unfold added in *. cbn in *. destruct (Nat.eqb_spec (fst a) p) as [E|_]; [tauto|]. apply IH. tauto.
Qed.
Definition bare (q : Q) : node := Node 0 (Obj 0 OConcept) [] q 0 None [].
Example ex_C17 : get_children (add_all [bare 1; bare 2; bare (1#2); bare 2; bare 0] [(0,1); (0,2); (0,3); (4,0); (0,1); (0,4)]) 0 = [4; 2; 1; 3; 1].
Proof. reflexivity. Qed.

(** ** C18 *)

Theorem C18_descendants : forall h fuel i r, get_all_descendants fuel h i = Some r -> NoDup r /\ forall j, In j r <-> reach h i j.
Proof.
  intros h fuel i r H. destruct (descendants_loop_spec _ _ _ _ _ H) as (Hin & Hn & _). split; [apply Hn; constructor|].
  intros j. rewrite Hin. split; [intros [[]|(w & [<-|[]] & Hr)]; exact Hr|intros Hr; right; exists i; cbn; auto].
Qed.
Theorem C18_descendants_ends_iff : forall h i, (exists fuel r, get_all_descendants fuel h i = Some r) <-> acyclic h i.
Proof. intros h i. rewrite descendants_ends_iff. apply finite_iff_acyclic. Qed.
Theorem C18_all_nodes : forall h fuel roots r, get_all_nodes fuel h roots = Some r ->
  NoDup r /\ forall j, In j r <-> exists i, In i roots /\ reach h i j.
Proof.
  intros h fuel roots r H. destruct (fold_add_spec fuel h (add_children_spec h fuel) _ _ _ H) as (Hin & Hn & _).
  split; [apply Hn; constructor|]. intros j. rewrite Hin. split; [intros [[]|H']; exact H'|auto].
Qed.
Theorem C18_all_nodes_ends_iff : forall h roots, (exists fuel r, get_all_nodes fuel h roots = Some r) <-> forall i, In i roots -> acyclic h i.
Proof.
  intros h roots. split.
  - intros (fuel & r & H) i Hi. apply finite_iff_acyclic. apply (fold_add_spec fuel h (add_children_spec h fuel) _ _ _ H). exact Hi.
  - intros H. destruct (fold_add_ends h roots) with (nodes := @nil nat) as (f & r & E).
    + intros c Hc. apply add_children_ends, finite_iff_acyclic, H, Hc.
    + exists f, r. apply E. lia.
Qed.
(** More fuel, same answer: the fuel is only a device. *)
Theorem C18_fuel : forall h fuel fuel' i r, fuel <= fuel' -> get_all_descendants fuel h i = Some r -> get_all_descendants fuel' h i = Some r.
Proof. intros h fuel fuel' i r Hle H. eapply descendants_mono; eauto. Qed.

Definition kids (k : list nat) : node := Node 0 (Obj 0 OConcept) [] 0 0 None k.
Definition diamond : heap := [kids [1; 2]; kids [3]; kids [3; 4]; kids []; kids []; kids [0]].
Example ex_C18 : get_all_descendants 10 diamond 0 = Some [0; 2; 4; 3; 1] /\ get_all_nodes 10 diamond [2; 1] = Some [2; 3; 4; 1].
Proof. split; reflexivity. Qed.
Example ex_C18_cycle : ~ acyclic [kids [1]; kids [0]] 0.
Proof.
  intros H. apply (H 0); [constructor|]. exists 1. split; [cbn; auto|]. apply (reach_step _ _ 1); [constructor|cbn; auto].
Qed.

(** ** C19 *)

(** Every link element that stands for an object gets a node, one per arc role around it in
    physical networks; nothing else is there. *)
Theorem C19_nodes_logical : forall k eo ro arcs locs h nets dups, parse_link k eo ro arcs locs = Ok (h, nets, dups) -> is_physical k = false ->
  (forall i l o, nth_error locs i = Some l -> l_obj l = Some o -> exists n x, made_for h locs n x l /\ n_loc x = i /\ n_obj x = o /\
     forall m y, nth_error h m = Some y -> n_loc y = i -> m = n) /\
  (forall n x, nth_error h n = Some x -> exists l, nth_error locs (n_loc x) = Some l /\ l_obj l = Some (n_obj x)).
Proof.
  intros k eo ro arcs locs h nets dups H Hp. split.
  - intros i l o Hl Ho. pose proof (link_has_node _ _ _ _ _ _ _ _ _ _ _ H Hl Ho) as G. rewrite Hp in G. destruct G as (n & x & Hm & Hi).
    exists n, x. split; [exact Hm|split; [exact Hi|split]].
    + destruct (link_obj _ _ _ _ _ _ _ _ _ _ H (proj1 Hm)) as (l' & Hm' & Ho'). destruct Hm as [_ E], Hm' as [_ E']. congruence.
    + intros m y Hy Hiy. eapply (link_node_unique _ _ _ _ _ _ _ _ _ _ _ _ H Hy (proj1 Hm)); congruence.
  - intros n x Hx. destruct (link_obj _ _ _ _ _ _ _ _ _ _ H Hx) as (l & [_ E] & Ho). eauto.
Qed.
Theorem C19_nodes_physical : forall k eo ro arcs locs h nets dups, parse_link k eo ro arcs locs = Ok (h, nets, dups) -> is_physical k = true ->
  (forall i l o role, nth_error locs i = Some l -> l_obj l = Some o -> touches arcs (l_label l) role ->
     exists n x, made_for h locs n x l /\ n_loc x = i /\ n_obj x = o /\ n_role x = role /\
       forall m y, nth_error h m = Some y -> n_loc y = i -> n_role y = role -> m = n) /\
  (forall n x l, made_for h locs n x l -> touches arcs (l_label l) (n_role x) \/ forall r, ~ touches arcs (l_label l) r) /\
  (forall n x, nth_error h n = Some x -> exists l, nth_error locs (n_loc x) = Some l /\ l_obj l = Some (n_obj x)).
Proof.
  intros k eo ro arcs locs h nets dups H Hp. split; [|split].
  - intros i l o role Hl Ho Ht. pose proof (link_has_node _ _ _ _ _ _ _ _ _ _ _ H Hl Ho) as G. rewrite Hp in G.
    destruct (proj1 (G role) (or_introl Ht)) as (n & x & Hm & Hi & Hr). exists n, x. repeat split; try assumption; try apply Hm.
    + destruct (link_obj _ _ _ _ _ _ _ _ _ _ H (proj1 Hm)) as (l' & Hm' & Ho'). destruct Hm as [_ E], Hm' as [_ E']. congruence.
    + intros m y Hy Hiy Hry. eapply (link_node_unique _ _ _ _ _ _ _ _ _ _ _ _ H Hy (proj1 Hm)); congruence.
  - intros n x l Hm. destruct (link_obj _ _ _ _ _ _ _ _ _ _ H (proj1 Hm)) as (l' & Hm' & Ho). assert (l' = l) as -> by (destruct Hm, Hm'; congruence).
    pose proof (link_has_node _ _ _ _ _ _ _ _ _ _ _ H (proj2 Hm) Ho) as G. rewrite Hp in G.
    destruct (proj2 (G (n_role x))) as [Ht|[_ Ht]]; [exists n, x; auto|auto|auto].
  - intros n x Hx. destruct (link_obj _ _ _ _ _ _ _ _ _ _ H Hx) as (l & [_ E] & Ho). eauto.
Qed.

Lemma roles_between arcs s t (R : str -> bool) :
  let es := filter (fun e => str_eqb (fst (fst e)) s && str_eqb (snd (fst e)) t && R (snd e)) (map edge_of (fst (arc_pass arcs))) in
  NoDup (map snd es) /\ forall r, In r (map snd es) <-> has_arc arcs s t r /\ R r = true.
Proof.
  destruct (arc_pass_kept arcs) as (Hn & Hi & _). cbv zeta. split.
  - apply (NoDup_filter (fun e => str_eqb (fst (fst e)) s && str_eqb (snd (fst e)) t && R (snd e))) in Hn.
    remember (filter _ _) as es eqn:Ees.
    assert (Hes : forall e, In e es -> fst e = (s, t)).
    { intros [[a b] r] He. rewrite Ees in He. apply filter_In in He as [_ He]. cbn in He. apply andb_prop in He as [He _]. apply andb_prop in He as [H1 H2].
      apply str_eqb_eq in H1, H2. cbn. congruence. }
    clear Ees Hi. induction Hn as [|e es He Hn IH]; [constructor|]. cbn. constructor; [|apply IH; intros e' He'; apply Hes; right; exact He'].
    intros Hin. apply in_map_iff in Hin as (e' & E & He'). apply He. replace e with e'; [exact He'|].
    pose proof (Hes e (or_introl eq_refl)). pose proof (Hes e' (or_intror He')). destruct e, e'; cbn in *; congruence.
  - intros r. rewrite in_map_iff. split.
    + intros ([[a b] r'] & <- & He). apply filter_In in He as [He Hc]. cbn in Hc |- *. apply andb_prop in Hc as [Hc HR]. apply andb_prop in Hc as [H1 H2].
      apply str_eqb_eq in H1, H2. subst. split; [|exact HR]. apply Hi in He. apply in_map_iff in He as (x & E & Hx). injection E as <- <- <-. exists x. auto.
    + intros [(x & Hx & <- & <- & <-) HR]. exists (edge_of x). split; [reflexivity|]. apply filter_In. split; [apply Hi, in_map, Hx|].
      cbn. rewrite !str_eqb_refl. exact HR.
Qed.

(** Logical networks: a child appears as often as there are arc roles leading to it. *)
Theorem C19_logical_count : forall k eo ro arcs locs h nets dups p x l c y l', parse_link k eo ro arcs locs = Ok (h, nets, dups) ->
  some_order eo -> is_physical k = false -> made_for h locs p x l -> made_for h locs c y l' ->
  exists roles, NoDup roles /\ (forall r, In r roles <-> has_arc arcs (l_label l) (l_label l') r) /\
    count_occ Nat.eq_dec (n_kids x) c = length roles.
Proof.
  intros k eo ro arcs locs h nets dups p x l c y l' H Ho Hp Mp Mc.
  destruct (roles_between arcs (l_label l) (l_label l') (fun _ => true)) as [Hn Hi].
  eexists. split; [exact Hn|]. split; [intros r; rewrite Hi; tauto|].
  rewrite (link_count _ _ _ _ _ _ _ _ _ _ _ _ _ _ H Ho Mp Mc), map_length. f_equal. apply filter_ext. intros e. unfold edge_ok. rewrite Hp. reflexivity.
Qed.
Theorem C19_logical_child_iff_arc : forall k eo ro arcs locs h nets dups p x l c y l', parse_link k eo ro arcs locs = Ok (h, nets, dups) ->
  some_order eo -> is_physical k = false -> made_for h locs p x l -> made_for h locs c y l' ->
  (In c (n_kids x) <-> exists role, has_arc arcs (l_label l) (l_label l') role).
Proof.
  intros k eo ro arcs locs h nets dups p x l c y l' H Ho Hp Mp Mc.
  destruct (C19_logical_count _ _ _ _ _ _ _ _ _ _ _ _ _ _ H Ho Hp Mp Mc) as (roles & _ & Hr & E).
  rewrite (count_occ_In Nat.eq_dec), E. split.
  - destruct roles as [|r roles]; cbn; [lia|]. intros _. exists r. apply Hr. left. reflexivity.
  - intros [r Hrr]. apply Hr in Hrr. destruct roles; [destruct Hrr|cbn; lia].
Qed.
Theorem C19_logical_once : forall k eo ro arcs locs h nets dups p x l c y l' role, parse_link k eo ro arcs locs = Ok (h, nets, dups) ->
  some_order eo -> is_physical k = false -> made_for h locs p x l -> made_for h locs c y l' ->
  has_arc arcs (l_label l) (l_label l') role -> (forall r, has_arc arcs (l_label l) (l_label l') r -> r = role) ->
  count_occ Nat.eq_dec (n_kids x) c = 1.
Proof.
  intros k eo ro arcs locs h nets dups p x l c y l' role H Ho Hp Mp Mc Ha Hu.
  destruct (C19_logical_count _ _ _ _ _ _ _ _ _ _ _ _ _ _ H Ho Hp Mp Mc) as (roles & Hn & Hr & ->).
  apply Hr in Ha. destruct roles as [|a [|b roles]]; [destruct Ha|reflexivity|]. exfalso. inversion Hn as [|? ? Hab _]; subst. apply Hab. left.
  rewrite (Hu a), (Hu b); [reflexivity|apply Hr; cbn; auto|apply Hr; cbn; auto].
Qed.
(** Physical networks: never twice. *)
Theorem C19_physical_child_iff_arc : forall k eo ro arcs locs h nets dups p x l, parse_link k eo ro arcs locs = Ok (h, nets, dups) ->
  some_order eo -> is_physical k = true -> made_for h locs p x l ->
  NoDup (n_kids x) /\
  forall c y l', made_for h locs c y l' -> (In c (n_kids x) <-> n_role y = n_role x /\ has_arc arcs (l_label l) (l_label l') (n_role x)).
Proof.
  intros k eo ro arcs locs h nets dups p x l H Ho Hp Mp.
  assert (G : forall c y l', made_for h locs c y l' -> exists roles, NoDup roles /\
     (forall r, In r roles <-> has_arc arcs (l_label l) (l_label l') r /\ r = n_role x /\ r = n_role y) /\ count_occ Nat.eq_dec (n_kids x) c = length roles).
  { intros c y l' Mc. destruct (roles_between arcs (l_label l) (l_label l') (fun r => str_eqb r (n_role x) && str_eqb r (n_role y))) as [Hn Hi].
    eexists. split; [exact Hn|]. split; [intros r; rewrite Hi, andb_true_iff, !str_eqb_eq; tauto|].
    rewrite (link_count _ _ _ _ _ _ _ _ _ _ _ _ _ _ H Ho Mp Mc), map_length. f_equal. apply filter_ext. intros e. unfold edge_ok. rewrite Hp. reflexivity. }
  split.
  - apply (NoDup_count_occ Nat.eq_dec). intros c. destruct (in_dec Nat.eq_dec c (n_kids x)) as [Hc|Hc]; [|apply (count_occ_not_In Nat.eq_dec) in Hc; lia].
    destruct (link_kids _ _ _ _ _ _ _ _ _ _ _ H (proj1 Mp) Hc) as (y & l' & Mc). destruct (G _ _ _ Mc) as (roles & Hn & Hr & ->).
    destruct roles as [|a [|b roles]]; cbn; [lia|lia|]. exfalso. inversion Hn as [|? ? Hab _]; subst. apply Hab. left.
    destruct (proj1 (Hr a) (or_introl eq_refl)) as (_ & -> & _). destruct (proj1 (Hr b)) as (_ & -> & _); cbn; auto.
  - intros c y l' Mc. destruct (G _ _ _ Mc) as (roles & _ & Hr & E). rewrite (count_occ_In Nat.eq_dec), E. split.
    + destruct roles as [|r roles]; cbn; [lia|]. intros _. destruct (proj1 (Hr r) (or_introl eq_refl)) as (Ha & -> & E'). auto.
    + intros [E' Ha]. assert (Hin : In (n_role x) roles) by (apply Hr; auto). destruct roles; [destruct Hin|cbn; lia].
Qed.
(** Children are nodes of the link, in ascending order. *)
Theorem C19_children_inside : forall k eo ro arcs locs h nets dups p c, parse_link k eo ro arcs locs = Ok (h, nets, dups) ->
  In c (get_children h p) -> exists y l', made_for h locs c y l'.
Proof.
  intros k eo ro arcs locs h nets dups p c H Hc. unfold get_children in Hc. destruct (nth_error h p) as [x|] eqn:E; [|destruct Hc].
  eapply link_kids; eauto.
Qed.
Theorem C19_children_ascend : forall k eo ro arcs locs h nets dups p, parse_link k eo ro arcs locs = Ok (h, nets, dups) ->
  StronglySorted (fun a b => get_order h a <= get_order h b)%Q (get_children h p).
Proof.
  intros k eo ro arcs locs h nets dups p H. apply parse_link_inv in H as (_ & _ & -> & _). set (adds := concat _).
  destruct (nth_error (map fst (nodes_from k arcs 0 locs)) p) as [n|] eqn:E.
  - assert (Hk : n_kids n = []).
    { apply nth_error_In in E. apply in_map_iff in E as ([n' b] & En & Hin). cbn in En. subst n'.
      apply nodes_from_in in Hin as (j & l & _ & Hin). apply nodes_for_in in Hin. tauto. }
    apply (C17_children_sorted _ adds _ _ E Hk).
  - unfold get_children. rewrite nth_add_all, E. constructor.
Qed.
(** The arcs that repeat another are reported; they change nothing. *)
Theorem C19_duplicates_reported : forall k eo ro arcs locs h nets dups, parse_link k eo ro arcs locs = Ok (h, nets, dups) -> dups = repeats [] arcs.
Proof. intros. apply parse_link_inv in H. tauto. Qed.

Definition con (n : nat) : option obj := Some (Obj n OConcept).
Definition arc' (f t r : string) (o w : Q) : arc := Arc (u f) (u t) (u r) (Some o) (Some w) None.
Definition locs_abc : list loc := [Loc (u "a") (con 1); Loc (u "b") (con 2); Loc (u "c") (con 3)].
Example ex_C19_logical : exists h, parse_link KCalculation (fun l => l) (fun l => l)
    [arc' "a" "c" "sum" 2 (-1); arc' "a" "b" "sum" 1 1; arc' "a" "b" "sum" 7 7] locs_abc = Ok (h, [[0]], [arc' "a" "b" "sum" 7 7]) /\
  get_children h 0 = [1; 2] /\ map n_weight h = [0%Q; 1%Q; (-1)%Q].
Proof. eexists. split; [reflexivity|split; reflexivity]. Qed.
Example ex_C19_physical : exists h, parse_link KPhysicalDefinition (fun l => l) (fun l => l)
    [arc' "a" "b" "r" 1 1; arc' "a" "b" "s" 1 1; arc' "b" "c" "s" 1 1] locs_abc = Ok (h, [[0]; [1]], []) /\
  map n_role h = map u ["r"; "s"; "r"; "s"; "s"]%string /\ map n_kids h = [[2]; [3]; []; [4]; []].
Proof. eexists. split; [reflexivity|split; reflexivity]. Qed.
(** Two arc roles between two locators make the child appear twice in a logical network. *)
Theorem C19_once_refuted : exists h, parse_link KPresentation (fun l => l) (fun l => l)
    [arc' "a" "b" "r" 1 1; arc' "a" "b" "s" 1 1] locs_abc = Ok (h, [[0; 2]], []) /\ get_children h 0 = [1; 1].
Proof. eexists. split; reflexivity. Qed.

(** ** C20 *)

Lemma find_first_arc P arcs a : find P arcs = Some a <-> first_arc arcs (fun b => P b = true) a.
Proof.
  split.
  - induction arcs as [|b arcs IH]; [discriminate|]. cbn. destruct (P b) eqn:E.
    + intros [= ->]. exists [], arcs. repeat split; auto; intros b [].
    + intros H. destruct (IH H) as (pre & post & -> & Ha & Hpre). exists (b :: pre), post. repeat split; [exact Ha|].
      intros c [<-|Hc]; [congruence|auto].
  - intros (pre & post & -> & Ha & Hpre). induction pre as [|b pre IH]; cbn; [rewrite Ha; reflexivity|].
    destruct (P b) eqn:E; [destruct (Hpre b); cbn; auto|]. apply IH. intros c Hc. apply Hpre. right. exact Hc.
Qed.
Lemma round_integer z : round_half_even (inject_Z z) = z.
Proof.
  unfold round_half_even. rewrite Qfloor_Z. replace (Qcompare (inject_Z z - inject_Z z) (1#2)) with Lt; [reflexivity|].
  symmetry. apply Qlt_alt. setoid_replace (inject_Z z - inject_Z z)%Q with 0%Q by ring. reflexivity.
Qed.

(** The attributes of a node are those of the first arc that leads to it (of its role, in
    physical networks), provided this arc is no loop. *)
Theorem C20_first_arc_wins : forall k eo ro arcs locs h nets dups n x l a, parse_link k eo ro arcs locs = Ok (h, nets, dups) ->
  made_for h locs n x l -> first_arc (relevant k arcs x) (fun b => a_to b = l_label l) a -> a_from a <> l_label l ->
  (k <> KLabel -> k <> KLogicalDefinition -> forall o, a_order a = Some o -> n_order x = o) /\
  (k = KLogicalDefinition -> forall o, a_order a = Some o -> n_order x = inject_Z (round_half_even o)) /\
  (k = KCalculation -> forall w, a_weight a = Some w -> n_weight x = w) /\
  (k = KPresentation -> forall r, a_pref a = Some r -> n_pref x = Some r) /\
  (k = KPresentation -> a_pref a = None -> n_pref x = Some (u "http://www.xbrl.org/2003/role/label")).
Proof.
  intros k eo ro arcs locs h nets dups n x l a H Hm Hf Hloop.
  destruct (link_attrs _ _ _ _ _ _ _ _ _ _ _ H Hm) as (ks & x0 & Ex & E0).
  assert (Hfind : find (into (l_label l)) (relevant k arcs x) = Some a).
  { apply find_first_arc. destruct Hf as (pre & post & E & Ha & Hpre). exists pre, post. split; [exact E|]. split; [apply str_eqb_eq, Ha|].
    intros b Hb Hib. apply (Hpre b Hb). apply str_eqb_eq, Hib. }
  rewrite Hfind in E0. unfold from_arc in E0. replace (out_of (l_label l) a) with false in E0 by (symmetry; apply str_eqb_neq, Hloop).
  assert (Eo : n_order x = arc_order k a) by (rewrite Ex, E0; reflexivity). assert (Ew : n_weight x = arc_weight k a) by (rewrite Ex, E0; reflexivity).
  assert (Ep : n_pref x = arc_pref k a) by (rewrite Ex, E0; reflexivity). rewrite Eo, Ew, Ep.
  repeat split.
  - intros H1 H2 o Ho. unfold arc_order. rewrite Ho. destruct k; congruence.
  - intros -> o Ho. cbn. rewrite Ho. reflexivity.
  - intros -> w Hw. cbn. rewrite Hw. reflexivity.
  - intros -> r Hr. cbn. rewrite Hr. reflexivity.
  - intros -> Hr. cbn. rewrite Hr. reflexivity.
Qed.
(** So the attributes written on an arc are seen when the element is the target of this arc only. *)
Theorem C20_only_arc_honoured : forall k eo ro arcs locs h nets dups n x l a, parse_link k eo ro arcs locs = Ok (h, nets, dups) ->
  made_for h locs n x l -> In a (relevant k arcs x) -> a_to a = l_label l -> a_from a <> l_label l ->
  (forall b, In b (relevant k arcs x) -> a_to b = l_label l -> b = a) ->
  (k <> KLabel -> forall o, a_order a = Some o -> (k = KLogicalDefinition -> exists z, o = inject_Z z) -> n_order x = o) /\
  (k = KCalculation -> forall w, a_weight a = Some w -> n_weight x = w) /\
  (k = KPresentation -> forall r, a_pref a = Some r -> n_pref x = Some r).
Proof.
  intros k eo ro arcs locs h nets dups n x l a H Hm Ha Hto Hloop Hu.
  assert (Hf : first_arc (relevant k arcs x) (fun b => a_to b = l_label l) a).
  { destruct (find (into (l_label l)) (relevant k arcs x)) as [b|] eqn:E.
    - pose proof (find_some _ _ E) as [Hb Hib]. apply str_eqb_eq in Hib. rewrite (Hu b Hb Hib) in E.
      apply find_first_arc in E as (pre & post & E & _ & Hpre). exists pre, post. split; [exact E|]. split; [exact Hto|].
      intros c Hc Hct. apply (Hpre c Hc). apply str_eqb_eq, Hct.
    - apply (find_none _ _ E) in Ha. unfold into in Ha. rewrite Hto, str_eqb_refl in Ha. discriminate. }
  destruct (C20_first_arc_wins _ _ _ _ _ _ _ _ _ _ _ _ H Hm Hf Hloop) as (H1 & H2 & H3 & H4 & _).
  split; [|split; assumption]. intros Hl o Ho Hz.
  destruct k; try (apply H1; congruence). destruct (Hz eq_refl) as [z ->]. rewrite (H2 eq_refl _ Ho), round_integer. reflexivity.
Qed.
Example ex_C20 : exists h, parse_link KCalculation (fun l => l) (fun l => l)
    [arc' "a" "b" "sum" 2 (-1); arc' "a" "c" "sum" 1 1] locs_abc = Ok (h, [[0]], []) /\
  map n_order h = [1%Q; 2%Q; 1%Q] /\ map n_weight h = [0%Q; (-1)%Q; 1%Q].
Proof. eexists. split; [reflexivity|split; reflexivity]. Qed.
(** An element under two parents is one node: the weight and order of the second arc are lost. *)
Theorem C20_two_parents_refuted : exists h, parse_link KCalculation (fun l => l) (fun l => l)
    [arc' "a" "c" "sum" 1 1; arc' "b" "c" "sum" 5 (-1)] locs_abc = Ok (h, [[0; 1]], []) /\
  get_children h 1 = [2] /\ map n_weight h = [0%Q; 0%Q; 1%Q] /\ map n_order h = [1%Q; 1%Q; 1%Q].
Proof. eexists. split; [reflexivity|repeat split; reflexivity]. Qed.
(** The order of a logical definition node is rounded, ties to even: 1.5 and 2.5 become 2. *)
Theorem C20_rounding_refuted : exists h, parse_link KLogicalDefinition (fun l => l) (fun l => l)
    [arc' "a" "b" "r" (5#2) 1; arc' "a" "c" "r" (3#2) 1] locs_abc = Ok (h, [[0]], []) /\
  map n_order h = [0%Q; 2%Q; 2%Q] /\ get_children h 0 = [1; 2].
Proof. eexists. split; [reflexivity|split; reflexivity]. Qed.

(** ** C21 *)

(** The roots are the nodes no (relevant) arc leads to. *)
Theorem C21_roots : forall k eo ro arcs locs h nets dups n x l, parse_link k eo ro arcs locs = Ok (h, nets, dups) -> some_order ro ->
  made_for h locs n x l -> ((exists net, In net nets /\ In n net) <-> forall a, In a (relevant k arcs x) -> a_to a <> l_label l).
Proof. intros. rewrite <- (link_roots _ _ _ _ _ _ _ _ _ _ _ H H0 H1), in_concat. split; intros (net & A & B); eauto. Qed.
(** There is at most one logical network; physical networks are told apart by the role of their
    roots; no network is without root. *)
Theorem C21_networks : forall k eo ro arcs locs h nets dups, parse_link k eo ro arcs locs = Ok (h, nets, dups) ->
  (forall net, In net nets -> net <> []) /\
  (is_physical k = false -> length nets <= 1) /\
  (is_physical k = true -> forall i j neti netj n m x y, nth_error nets i = Some neti -> nth_error nets j = Some netj ->
     In n neti -> In m netj -> nth_error h n = Some x -> nth_error h m = Some y -> (n_role x = n_role y <-> i = j)).
Proof.
  intros k eo ro arcs locs h nets dups H. apply parse_link_inv in H as (_ & _ & _ & roots & _ & ->).
  cbv zeta. set (role_of := fun n : nat => _). destruct (is_physical k).
  - split; [|split; [discriminate|]].
    + intros net Hnet. apply in_map_iff in Hnet as (role & <- & Hr). apply dedup_spec, in_map_iff in Hr as (n & E & Hn).
      assert (Hin : In n (filter (fun n => str_eqb (role_of n) role) roots)) by (apply filter_In; split; [exact Hn|apply str_eqb_eq, E]).
      intros E'. rewrite E' in Hin. destruct Hin.
    + intros _ i j neti netj n m x y Hi Hj Hn Hm Hx Hy. rewrite nth_error_map in Hi, Hj.
      destruct (nth_error (dedup (map role_of roots)) i) as [ri|] eqn:Ei; [|discriminate].
      destruct (nth_error (dedup (map role_of roots)) j) as [rj|] eqn:Ej; [|discriminate]. injection Hi as <-. injection Hj as <-.
      apply filter_In in Hn as [_ Hn]. apply filter_In in Hm as [_ Hm]. apply str_eqb_eq in Hn, Hm. unfold role_of in Hn, Hm. rewrite Hx in Hn. rewrite Hy in Hm.
      split; [|congruence]. intros E. pose proof (proj1 (dedup_spec (map role_of roots))) as Hd. rewrite NoDup_nth_error in Hd. apply Hd; [apply nth_error_Some; congruence|congruence].
  - destruct roots as [|r roots]; cbn; (split; [|split; [lia|discriminate]]); [intros net []|intros net [<-|[]]; discriminate].
Qed.

Lemma arc_path_app arcs s t a : arc_path arcs t a -> forall b, In b arcs -> a_from b = s -> a_to b = t -> arc_path arcs s a.
Proof.
  intros H b Hb E1 E2. induction H as [a' Ha Ea|t' a' H IH Ha Ea].
  - apply (ap_more arcs s t); [|exact Ha|exact Ea]. rewrite <- E2. constructor; assumption.
  - eapply ap_more; eassumption.
Qed.
Lemma no_cycle_acc arcs : (forall s, ~ arc_path arcs s s) -> forall t, Acc (fun s t => exists a, In a arcs /\ a_from a = s /\ a_to a = t) t.
Proof.
  intros Hc t0. set (S0 := t0 :: map a_from arcs).
  assert (G : forall m vis t, length S0 - length vis <= m -> NoDup vis -> incl vis S0 -> In t vis -> (forall v, In v vis -> v = t \/ arc_path arcs t v) ->
    Acc (fun s t => exists a, In a arcs /\ a_from a = s /\ a_to a = t) t).
  { induction m as [|m IH]; intros vis t Hm Hn Hi Ht Hv; constructor; intros s (a & Ha & Es & Et).
    - exfalso. assert (Hin : In s vis).
      { assert (Hincl : incl S0 vis) by (apply (NoDup_length_incl Hn); [lia|exact Hi]). apply Hincl. right. rewrite <- Es. apply in_map, Ha. }
      destruct (Hv s Hin) as [E|Hp]; [apply (Hc s); rewrite E at 2; rewrite <- Et; constructor; congruence|apply (Hc s); eapply arc_path_app; eauto].
    - assert (Hs : ~ In s vis).
      { intros Hin. destruct (Hv s Hin) as [E|Hp]; [apply (Hc s); rewrite E at 2; rewrite <- Et; constructor; congruence|apply (Hc s); eapply arc_path_app; eauto]. }
      apply (IH (s :: vis)).
      + pose proof (@NoDup_incl_length _ _ S0 (NoDup_cons _ Hs Hn)) as Hl. cbn [length] in *. 
        assert (incl (s :: vis) S0) by (intros v [<-|Hvv]; [right; rewrite <- Es; apply in_map, Ha|auto]). specialize (Hl H). lia.
      + constructor; assumption.
      + intros v [<-|Hvv]; [right; rewrite <- Es; apply in_map, Ha|auto].
      + left. reflexivity.
      + intros v [<-|Hvv]; [auto|]. right. destruct (Hv v Hvv) as [->|Hp]; [rewrite <- Et; constructor; assumption|eapply arc_path_app; eauto]. }
  apply (G (length S0) [t0] t0); [lia|constructor; [intros []|constructor]|intros v [<-|[]]; left; reflexivity|left; reflexivity|intros v [<-|[]]; auto].
Qed.

(** Nothing is lost when the arcs have no cycle and every arc starts at a link element that
    stands for something. *)
Theorem C21_all_reachable : forall k eo ro arcs locs h nets dups n x, parse_link k eo ro arcs locs = Ok (h, nets, dups) ->
  some_order eo -> some_order ro -> nth_error h n = Some x ->
  (forall s, ~ arc_path (relevant k arcs x) s s) ->
  (forall a, In a (relevant k arcs x) -> exists l o, In l locs /\ l_label l = a_from a /\ l_obj l = Some o) ->
  exists net r, In net nets /\ In r net /\ reach h r n.
Proof.
  intros k eo ro arcs locs h nets dups n x H Heo Hro Hn Hc Hs.
  destruct (link_obj _ _ _ _ _ _ _ _ _ _ H Hn) as (l & Hm & _).
  assert (G : forall t, Acc (fun s t => exists a, In a (relevant k arcs x) /\ a_from a = s /\ a_to a = t) t ->
     forall m y l, made_for h locs m y l -> l_label l = t -> (is_physical k = true -> n_role y = n_role x) -> exists net r, In net nets /\ In r net /\ reach h r m).
  { induction 1 as [t _ IH]. intros m y l1 Hy Hl1 Hr.
    assert (Er : relevant k arcs y = relevant k arcs x) by (unfold relevant; destruct (is_physical k); [rewrite Hr|]; reflexivity).
    destruct (find (into t) (relevant k arcs x)) as [a|] eqn:E.
    - apply find_some in E as [Ha Hi]. apply str_eqb_eq in Hi. destruct (Hs a Ha) as (l0 & o & Hl0 & El0 & Eo).
      apply In_nth_error in Hl0 as (i & Hi0). pose proof (link_has_node _ _ _ _ _ _ _ _ _ _ _ H Hi0 Eo) as G.
      assert (Hpar : exists p z, made_for h locs p z l0 /\ (is_physical k = true -> n_role z = n_role x) /\ In m (n_kids z)).
      { destruct (is_physical k) eqn:Ep.
        - assert (Ha' : In a arcs /\ a_role a = n_role x) by (unfold relevant in Ha; rewrite Ep in Ha; apply filter_In in Ha as [Ha Hw]; apply str_eqb_eq in Hw; auto).
          destruct Ha' as [Ha1 Ha2]. destruct (proj1 (G (n_role x))) as (p & z & Hz & _ & Hzr); [left; exists a; auto|].
          exists p, z. split; [exact Hz|split; [auto|]]. apply (proj2 (C19_physical_child_iff_arc _ _ _ _ _ _ _ _ _ _ _ H Heo Ep Hz) m y l1 Hy).
          rewrite Hzr. split; [auto|]. exists a. subst t. auto.
        - destruct G as (p & z & Hz & _). exists p, z. split; [exact Hz|split; [discriminate|]].
          apply (C19_logical_child_iff_arc _ _ _ _ _ _ _ _ _ _ _ _ _ _ H Heo Ep Hz Hy). exists (a_role a), a. unfold relevant in Ha. rewrite Ep in Ha. subst t. auto. }
      destruct Hpar as (p & z & Hz & Hzr & Hk). destruct (IH (a_from a)) with (m := p) (y := z) (l := l0) as (net & r & H1 & H2 & H3); auto; [eauto|].
      exists net, r. split; [exact H1|split; [exact H2|]]. eapply reach_step; [exact H3|]. unfold get_children. rewrite (proj1 Hz). exact Hk.
    - destruct (proj2 (C21_roots _ _ _ _ _ _ _ _ _ _ _ H Hro Hy)) as (net & H1 & H2); [|exists net, m; repeat split; auto; constructor].
      rewrite Er. intros a Ha Hto. apply (find_none _ _ E) in Ha. unfold into in Ha. rewrite Hto, Hl1, str_eqb_refl in Ha. discriminate. }
  apply (G (l_label l) (no_cycle_acc _ Hc _) n x l Hm eq_refl). auto.
Qed.
(** In general, the nodes one gets to from the roots are those whose label one comes to. *)
Theorem C21_reached : forall k eo ro arcs locs h nets dups n x l, parse_link k eo ro arcs locs = Ok (h, nets, dups) ->
  some_order eo -> some_order ro -> made_for h locs n x l ->
  ((exists net r, In net nets /\ In r net /\ reach h r n) <-> comes (relevant k arcs x) locs (l_label l)).
Proof.
  intros k eo ro arcs locs h nets dups n x l H Heo Hro Hm.
  assert (F : forall m y l1, made_for h locs m y l1 -> found_label locs (l_label l1)).
  { intros m y l1 My. destruct (link_obj _ _ _ _ _ _ _ _ _ _ H (proj1 My)) as (l2 & My' & Ho). assert (l2 = l1) as -> by (destruct My, My'; congruence).
    exists l1, (n_obj y). split; [eapply nth_error_In, My|]. split; [reflexivity|exact Ho]. }
  assert (Hrel : forall y, (is_physical k = true -> n_role y = n_role x) -> relevant k arcs y = relevant k arcs x).
  { intros y Hy. unfold relevant. destruct (is_physical k); [rewrite Hy by reflexivity|]; reflexivity. }
  assert (Hkid : forall p z lp c y lc, made_for h locs p z lp -> made_for h locs c y lc ->
    (In c (n_kids z) <-> (is_physical k = true -> n_role y = n_role z) /\ exists a, In a (relevant k arcs z) /\ a_from a = l_label lp /\ a_to a = l_label lc)).
  { intros p z lp c y lc Mp Mc. unfold relevant. destruct (is_physical k) eqn:Ep.
    - rewrite (proj2 (C19_physical_child_iff_arc _ _ _ _ _ _ _ _ _ _ _ H Heo Ep Mp) c y lc Mc). split.
      + intros [E (a & Ha & A & B & C)]. split; [auto|]. exists a. split; [apply filter_In; split; [exact Ha|unfold with_role; rewrite C; apply str_eqb_refl]|auto].
      + intros [E (a & Ha & A & B)]. apply filter_In in Ha as [Ha C]. apply str_eqb_eq in C. split; [auto|]. exists a. auto.
    - rewrite (C19_logical_child_iff_arc _ _ _ _ _ _ _ _ _ _ _ _ _ _ H Heo Ep Mp Mc). split.
      + intros (role & a & Ha & A & B & C). split; [discriminate|]. exists a. auto.
      + intros [_ (a & Ha & A & B)]. exists (a_role a), a. auto. }
  split.
  - intros (net & r & Hnet & Hr & Hn).
    assert (G : forall m, reach h r m -> forall y l1, made_for h locs m y l1 -> comes (relevant k arcs y) locs (l_label l1)).
    { induction 1 as [|j c Hj IH Hc]; intros y l1 My.
      - apply comes_first; [eapply F, My|]. apply (C21_roots _ _ _ _ _ _ _ _ _ _ _ H Hro My). eauto.
      - unfold get_children in Hc. destruct (nth_error h j) as [z|] eqn:Ez; [|destruct Hc]. destruct (link_obj _ _ _ _ _ _ _ _ _ _ H Ez) as (lz & Mz & _).
        apply (Hkid _ _ _ _ _ _ Mz My) in Hc as [Hrole (a & Ha & A & B)]. assert (E : relevant k arcs y = relevant k arcs z).
        { unfold relevant. destruct (is_physical k); [rewrite Hrole by reflexivity|]; reflexivity. }
        rewrite E, <- B. apply comes_next; [rewrite A; apply (IH z lz Mz)|exact Ha|rewrite B; eapply F, My]. }
    apply (G n Hn x l Hm).
  - intros Hc. assert (G : forall s, comes (relevant k arcs x) locs s -> forall m y l1, made_for h locs m y l1 -> l_label l1 = s ->
      (is_physical k = true -> n_role y = n_role x) -> exists net r, In net nets /\ In r net /\ reach h r m).
    { induction 1 as [s _ Hno|a Hs IH Ha _]; intros m y l1 My El Hy.
      - destruct (proj2 (C21_roots _ _ _ _ _ _ _ _ _ _ _ H Hro My)) as (net & A & B); [rewrite (Hrel y Hy), El; exact Hno|].
        exists net, m. split; [exact A|]. split; [exact B|constructor].
      - assert (Hf : found_label locs (a_from a)) by (inversion Hs; subst; assumption). destruct Hf as (l0 & o & Hl0 & El0 & Ho0).
        apply In_nth_error in Hl0 as (i & Hi). pose proof (link_has_node _ _ _ _ _ _ _ _ _ _ _ H Hi Ho0) as P.
        assert (Q : exists p z, made_for h locs p z l0 /\ (is_physical k = true -> n_role z = n_role x)).
        { destruct (is_physical k) eqn:Ep.
          - destruct (proj1 (P (n_role x))) as (p & z & Mz & _ & Ez); [|exists p, z; auto].
            left. unfold relevant in Ha. rewrite Ep in Ha. apply filter_In in Ha as [Ha C]. apply str_eqb_eq in C. exists a. auto.
          - destruct P as (p & z & Mz & _). exists p, z. split; [exact Mz|discriminate]. }
        destruct Q as (p & z & Mz & Ez). destruct (IH p z l0 Mz El0 Ez) as (net & r & A & B & C). exists net, r. split; [exact A|]. split; [exact B|].
        eapply reach_step; [exact C|]. unfold get_children. rewrite (proj1 Mz). apply (Hkid _ _ _ _ _ _ Mz My). split.
        + intros Ep. rewrite Hy, Ez by exact Ep. reflexivity.
        + exists a. rewrite (Hrel z Ez). split; [exact Ha|]. split; congruence. }
    apply (G _ Hc n x l Hm eq_refl). auto.
Qed.
(** So this is what the (only) logical network of a link shows. *)
Theorem C21_shows : forall k eo ro arcs locs h nets dups o, parse_link k eo ro arcs locs = Ok (h, nets, dups) ->
  some_order eo -> some_order ro -> is_physical k = false -> ((exists net, In net nets /\ shows h net o) <-> comes_to arcs locs o).
Proof.
  intros k eo ro arcs locs h nets dups o H Heo Hro Hk. split.
  - intros (net & Hnet & r & n & Hr & Hn & Ho). unfold object in Ho. destruct (nth_error h n) as [x|] eqn:Ex; [|discriminate]. injection Ho as Ho.
    destruct (link_obj _ _ _ _ _ _ _ _ _ _ H Ex) as (l & Mx & Hl). exists l, (n_obj x). split; [eapply nth_error_In, Mx|]. split; [exact Hl|]. split; [exact Ho|].
    assert (C : comes (relevant k arcs x) locs (l_label l)) by (apply (C21_reached _ _ _ _ _ _ _ _ _ _ _ H Heo Hro Mx); eauto).
    unfold relevant in C. rewrite Hk in C. exact C.
  - intros (l & ob & Hl & Ho & Ek & C). apply In_nth_error in Hl as (i & Hi). destruct (C19_nodes_logical _ _ _ _ _ _ _ _ H Hk) as [G _].
    destruct (G i l ob Hi Ho) as (n & x & Mx & _ & Eo & _).
    assert (C' : comes (relevant k arcs x) locs (l_label l)) by (unfold relevant; rewrite Hk; exact C).
    apply (C21_reached _ _ _ _ _ _ _ _ _ _ _ H Heo Hro Mx) in C' as (net & r & Hnet & Hr & Hn).
    exists net. split; [exact Hnet|]. exists r, n. split; [exact Hr|]. split; [exact Hn|]. unfold object. rewrite (proj1 Mx). cbn. congruence.
Qed.
Theorem C21_relates : forall k eo ro arcs locs h nets dups o o', parse_link k eo ro arcs locs = Ok (h, nets, dups) ->
  some_order eo -> some_order ro -> is_physical k = false -> ((exists net, In net nets /\ relates h net o o') <-> leads arcs locs o o').
Proof.
  intros k eo ro arcs locs h nets dups o o' H Heo Hro Hk. split.
  - intros (net & Hnet & r & n & m & Hr & Hn & Hm & Ho & Ho'). unfold object in Ho, Ho'. destruct (nth_error h n) as [x|] eqn:Ex; [|discriminate]. injection Ho as Ho.
    destruct (nth_error h m) as [y|] eqn:Ey; [|discriminate]. injection Ho' as Ho'.
    destruct (link_obj _ _ _ _ _ _ _ _ _ _ H Ex) as (l & Mx & Hl). destruct (link_obj _ _ _ _ _ _ _ _ _ _ H Ey) as (l' & My & Hl').
    unfold get_children in Hm. rewrite Ex in Hm. apply (C19_logical_child_iff_arc _ _ _ _ _ _ _ _ _ _ _ _ _ _ H Heo Hk Mx My) in Hm as (role & a & Ha & F & T & _).
    assert (C : comes (relevant k arcs x) locs (l_label l)) by (apply (C21_reached _ _ _ _ _ _ _ _ _ _ _ H Heo Hro Mx); eauto).
    unfold relevant in C. rewrite Hk in C. exists a, l, (n_obj x), l', (n_obj y). split; [exact Ha|]. split; [eapply nth_error_In, Mx|]. split; [exact Hl|]. split; [exact Ho|].
    split; [exact F|]. split; [exact C|]. split; [eapply nth_error_In, My|]. auto.
  - intros (a & l & ob & l' & ob' & Ha & Hl & Ho & Ek & F & C & Hl' & Ho' & Ek' & T). apply In_nth_error in Hl as (i & Hi). apply In_nth_error in Hl' as (j & Hj).
    destruct (C19_nodes_logical _ _ _ _ _ _ _ _ H Hk) as [G _]. destruct (G i l ob Hi Ho) as (n & x & Mx & _ & Eo & _). destruct (G j l' ob' Hj Ho') as (m & y & My & _ & Eo' & _).
    assert (C' : comes (relevant k arcs x) locs (l_label l)) by (unfold relevant; rewrite Hk; exact C).
    apply (C21_reached _ _ _ _ _ _ _ _ _ _ _ H Heo Hro Mx) in C' as (net & r & Hnet & Hr & Hn).
    exists net. split; [exact Hnet|]. exists r, n, m. split; [exact Hr|]. split; [exact Hn|]. unfold object, get_children. rewrite (proj1 Mx), (proj1 My).
    split; [|cbn; split; congruence]. apply (C19_logical_child_iff_arc _ _ _ _ _ _ _ _ _ _ _ _ _ _ H Heo Hk Mx My). exists (a_role a), a. auto.
Qed.
(** With the link of [C21_orphan_refuted]: only the label of the first is come to. *)
Example C21_reached_example : let arcs := [arc' "a" "b" "r" 1 1; arc' "b" "c" "r" 1 1] in
  let locs := [Loc (u "a") (con 1); Loc (u "b") None; Loc (u "c") (con 3)] in
  comes arcs locs (u "a") /\ ~ comes arcs locs (u "c").
Proof.
  cbv zeta. split.
  - apply comes_first; [exists (Loc (u "a") (con 1)), (Obj 1 OConcept); repeat split; left; reflexivity|]. intros a [<-|[<-|[]]] E; vm_compute in E; discriminate.
  - enough (G : forall s, comes [arc' "a" "b" "r" 1 1; arc' "b" "c" "r" 1 1] [Loc (u "a") (con 1); Loc (u "b") None; Loc (u "c") (con 3)] s -> s <> u "c")
      by (intros H; apply (G _ H); reflexivity).
    induction 1 as [s _ H|a Ha IH Hin _].
    + intros E. apply (H (arc' "b" "c" "r" 1 1)); [right; left; reflexivity|symmetry; exact E].
    + destruct Hin as [<-|[<-|[]]]; [vm_compute; discriminate|]. intros _.
      assert (Hf : found_label [Loc (u "a") (con 1); Loc (u "b") None; Loc (u "c") (con 3)] (u "b")) by (clear -Ha; inversion Ha; subst; assumption).
      destruct Hf as (l & o & Hl & E & Ho). destruct Hl as [<-|[<-|[<-|[]]]]; [vm_compute in E; discriminate|vm_compute in Ho; discriminate|vm_compute in E; discriminate].
Qed.
Example ex_C21 : exists h, parse_link KPresentation (fun l => rev l) (fun l => rev l)
    [arc' "a" "b" "r" 1 1; arc' "b" "c" "r" 1 1] (locs_abc ++ [Loc (u "d") (con 4)]) = Ok (h, [[3; 0]], []) /\ map n_kids h = [[1]; [2]; []; []].
Proof. eexists. split; reflexivity. Qed.
(** A cycle without entry is dropped: a link with elements but no network. *)
Theorem C21_cycle_refuted : exists h, parse_link KPresentation (fun l => l) (fun l => l)
    [arc' "a" "b" "r" 1 1; arc' "b" "a" "r" 1 1] [Loc (u "a") (con 1); Loc (u "b") (con 2)] = Ok (h, [], []) /\ length h = 2.
Proof. eexists. split; reflexivity. Qed.
(** Where the object of a parent is missing, its children are neither roots nor anyone's
    children. *)
Theorem C21_orphan_refuted : exists h, parse_link KPresentation (fun l => l) (fun l => l)
    [arc' "a" "b" "r" 1 1; arc' "b" "c" "r" 1 1] [Loc (u "a") (con 1); Loc (u "b") None; Loc (u "c") (con 3)] = Ok (h, [[0]], []) /\
  map n_kids h = [[]; []].
Proof. eexists. split; reflexivity. Qed.

(** ** C22 *)

(** What the combined network shows, and which element is right under which, is what the networks
    showed together; children stay in order. *)
Theorem C22_nothing_lost_or_invented : forall fuel shuffle h networks h' roots, some_order shuffle ->
  combine_networks fuel shuffle h networks = Ok (h', roots) ->
  (forall o, shows h' roots o <-> exists net, In net networks /\ shows h net o) /\
  (forall o o', relates h' roots o o' <-> exists net, In net networks /\ relates h net o o') /\
  (ascending h -> ascending h').
Proof.
  intros fuel shuffle h networks h' roots Hs H.
  assert (G : same_shown h (concat (rev networks)) h' roots /\ (ascending h -> ascending h')).
  { unfold combine_networks in H. destruct (rev networks) as [|a [|b rest]]; [discriminate| |].
    - injection H as <- <-. cbn. rewrite app_nil_r. repeat split; auto.
    - destruct (combine_loop fuel shuffle h a (b :: rest)) as [[h1 r1]|] eqn:E; [|discriminate]. injection H as <- <-.
      destruct (combine_loop_spec fuel shuffle Hs _ _ _ _ _ E) as (S & _ & Asc & _). split; [exact S|exact Asc]. }
  destruct G as [[G1 G2] G3]. split; [|split; [|exact G3]].
  - intros o. rewrite G1. split.
    + intros (r & n & Hr & X). apply in_concat in Hr as (net & Hn & Hr). exists net. split; [apply in_rev, Hn|]. exists r, n. auto.
    + intros (net & Hn & r & n & Hr & X). exists r, n. split; [apply in_concat; exists net; split; [apply in_rev in Hn; exact Hn|exact Hr]|exact X].
  - intros o o'. rewrite G2. split.
    + intros (r & n & m & Hr & X). apply in_concat in Hr as (net & Hn & Hr). exists net. split; [apply in_rev, Hn|]. exists r, n, m. auto.
    + intros (net & Hn & r & n & m & Hr & X). exists r, n, m. split; [apply in_concat; exists net; split; [apply in_rev in Hn; exact Hn|exact Hr]|exact X].
Qed.
(** The roots of the last network stay roots; the other roots were roots of their network. *)
Theorem C22_roots : forall fuel shuffle h networks last h' roots, some_order shuffle ->
  combine_networks fuel shuffle h (networks ++ [last]) = Ok (h', roots) ->
  exists more, roots = last ++ more /\ forall r, In r more -> exists net, In net networks /\ In r net.
Proof.
  intros fuel shuffle h networks last h' roots Hs H. unfold combine_networks in H. rewrite rev_app_distr in H. cbn [rev app] in H.
  destruct (rev networks) as [|b rest] eqn:E.
  - injection H as <- <-. exists []. rewrite app_nil_r. split; [reflexivity|intros r []].
  - destruct (combine_loop fuel shuffle h last (b :: rest)) as [[h1 r1]|] eqn:El; [|discriminate]. injection H as <- <-.
    destruct (combine_loop_spec fuel shuffle Hs _ _ _ _ _ El) as (_ & _ & _ & more & -> & Hm). exists more. split; [reflexivity|].
    intros r Hr. apply Hm, in_concat in Hr as (net & Hn & Hr). exists net. split; [|exact Hr]. apply in_rev. rewrite E. exact Hn.
Qed.
(** Combining networks that share no node and have no cycle always works. *)
Theorem C22_succeeds : forall shuffle h networks, some_order shuffle -> networks <> [] -> disjoint h networks ->
  (forall net r, In net networks -> In r net -> acyclic h r) -> exists fuel r, combine_networks fuel shuffle h networks = Ok r.
Proof.
  intros shuffle h networks Hs Hne Hd Hac.
  assert (Hap : apart h (rev networks)).
  { assert (Hd' : forall i j a b r s n, nth_error (rev networks) i = Some a -> nth_error (rev networks) j = Some b -> In r a -> In s b -> reach h r n -> reach h s n -> i = j).
    { intros i j a b r s n Hi Hj. assert (Li : i < length networks) by (rewrite <- rev_length; apply nth_error_Some; congruence).
      assert (Lj : j < length networks) by (rewrite <- rev_length; apply nth_error_Some; congruence). intros Hr Hs0 Rr Rs.
      assert (forall i x, i < length networks -> nth_error (rev networks) i = Some x -> nth_error networks (length networks - S i) = Some x) as Hrev.
      { intros i0 x L E. rewrite nth_error_nth' with (d := []) in E by (rewrite rev_length; exact L). rewrite rev_nth in E by exact L.
        rewrite nth_error_nth' with (d := []) by lia. exact E. }
      pose proof (Hd _ _ _ _ _ _ _ (Hrev _ _ Li Hi) (Hrev _ _ Lj Hj) Hr Hs0 Rr Rs). lia. }
    clear -Hd'. induction (rev networks) as [|a nets IH]; constructor.
    - intros b n Hb (r & Hr & R1) (s & Hs & R2). apply In_nth_error in Hb as (j & Hj). discriminate (Hd' 0 (S j) a b r s n eq_refl Hj Hr Hs R1 R2).
    - apply IH. intros i j x y r s n Hi Hj A B C D. assert (S i = S j) by (eapply (Hd' (S i) (S j)); eassumption). lia. }
  assert (Hfin : forall net r, In net (rev networks) -> In r net -> finite h r) by (intros net r Hn Hr; apply finite_iff_acyclic; apply in_rev in Hn; eauto).
  unfold combine_networks. destruct (rev networks) as [|a [|b rest]] eqn:E.
  - exfalso. apply Hne. rewrite <- (rev_involutive networks), E. reflexivity.
  - exists 0. eauto.
  - destruct (combine_loop_ends shuffle Hs (b :: rest) h a Hap) as (fuel & Hf).
    + intros r Hr. apply in_app_or in Hr as [Hr|Hr]; [apply (Hfin a); cbn; auto|]. apply in_concat in Hr as (net & Hn & Hr). apply (Hfin net); [right; exact Hn|exact Hr].
    + exists fuel. destruct (Hf fuel (le_n _)) as (r & ->). eauto.
Qed.

Definition nd (o : nat) (q : Q) (k : list nat) : node := Node 0 (Obj o OConcept) [] q 0 None k.
(** Elements 1 to 4; networks 1 -> 2 and (2 -> 3, 4 -> 3). *)
Definition h_C22 : heap := [nd 1 1 [1]; nd 2 1 []; nd 2 1 [3]; nd 3 5 []; nd 4 1 [5]; nd 3 2 []].
Example ex_C22 : exists h', combine_networks 10 (fun l => rev l) h_C22 [[2; 4]; [0]] = Ok (h', [0; 4]) /\
  map n_kids h' = [[1]; [3]; [3]; []; [5]; []].
Proof. eexists. split; reflexivity. Qed.
Example ex_C22_disjoint : disjoint h_C22 [[2; 4]; [0]].
Proof.
  assert (G : forall r n, reach h_C22 r n -> (r = 2 \/ r = 4 -> In n [2; 3; 4; 5]) /\ (r = 0 -> In n [0; 1])).
  { induction 1 as [|j k H [IH1 IH2] Hk]; [split; [intros [-> | ->]; cbn; auto|intros ->; cbn; auto]|].
    split; intros Hr.
    - specialize (IH1 Hr). cbn in IH1. repeat destruct IH1 as [<-|IH1]; cbn in Hk; intuition (subst; cbn; auto).
    - specialize (IH2 Hr). cbn in IH2. repeat destruct IH2 as [<-|IH2]; cbn in Hk; intuition (subst; cbn; auto). }
  intros i j a b r s n Hi Hj Hr Hs Rr Rs.
  destruct i as [|[|i]], j as [|[|j]]; cbn in Hi, Hj; try (destruct i; discriminate); try (destruct j; discriminate); try reflexivity; injection Hi as <-; injection Hj as <-; cbn in Hr, Hs;
    destruct (G _ _ Rr) as [A1 A2], (G _ _ Rs) as [B1 B2]; exfalso.
  - assert (In n [2; 3; 4; 5]) by (apply A1; intuition). assert (In n [0; 1]) by (apply B2; intuition). cbn in *. lia.
  - assert (In n [2; 3; 4; 5]) by (apply B1; intuition). assert (In n [0; 1]) by (apply A2; intuition). cbn in *. lia.
Qed.
(** Equal children are not merged: 1 -> 2 twice leaves element 2 twice under element 1. *)
Theorem C22_merge_refuted : exists h', combine_networks 10 (fun l => l) [nd 1 1 [1]; nd 2 1 []; nd 1 1 [3]; nd 2 1 []] [[0]; [2]] = Ok (h', [2]) /\
  get_children h' 2 = [3; 1].
Proof. eexists. split; reflexivity. Qed.
(** The result depends on the order of the networks: with 2 -> 3 after 1 -> 2, element 2 is a root
    with a child and again a childless child. *)
Theorem C22_order_refuted :
  let h := [nd 1 1 [1]; nd 2 1 []; nd 2 1 [3]; nd 3 1 []] in
  (exists h', combine_networks 10 (fun l => l) h [[2]; [0]] = Ok (h', [0]) /\ map n_kids h' = [[1]; [3]; [3]; []]) /\
  (exists h', combine_networks 10 (fun l => l) h [[0]; [2]] = Ok (h', [2; 0]) /\ map n_kids h' = [[1]; []; [3]; []]).
Proof. split; eexists; split; reflexivity. Qed.

Print Assumptions C17_children_sorted.
Print Assumptions C17_others_unchanged.
Print Assumptions C18_descendants.
Print Assumptions C18_descendants_ends_iff.
Print Assumptions C18_all_nodes.
Print Assumptions C18_all_nodes_ends_iff.
Print Assumptions C18_fuel.
Print Assumptions C19_nodes_logical.
Print Assumptions C19_nodes_physical.
Print Assumptions C19_logical_count.
Print Assumptions C19_logical_child_iff_arc.
Print Assumptions C19_logical_once.
Print Assumptions C19_physical_child_iff_arc.
Print Assumptions C19_children_inside.
Print Assumptions C19_children_ascend.
Print Assumptions C19_duplicates_reported.
Print Assumptions C19_once_refuted.
Print Assumptions C20_first_arc_wins.
Print Assumptions C20_only_arc_honoured.
Print Assumptions C20_two_parents_refuted.
Print Assumptions C20_rounding_refuted.
Print Assumptions C21_roots.
Print Assumptions C21_networks.
Print Assumptions C21_all_reachable.
Print Assumptions C21_reached.
Print Assumptions C21_shows.
Print Assumptions C21_relates.
Print Assumptions C21_cycle_refuted.
Print Assumptions C21_orphan_refuted.
Print Assumptions C22_nothing_lost_or_invented.
Print Assumptions C22_roots.
Print Assumptions C22_succeeds.
Print Assumptions C22_merge_refuted.
Print Assumptions C22_order_refuted.
