(** Proofs about extended links. *)
From Verif Require Import Base NetModel NetSpec NetProofs.
Local Open Scope nat_scope.

Lemma str_reflect a b : reflect (a = b) (str_eqb a b). Proof. apply str_eqb_spec. Qed.
Lemma edge_eqb_eq x y : edge_eqb x y = true <-> x = y.
Proof.
  destruct x as [[a b] c], y as [[a' b'] c']. unfold edge_eqb. cbn. rewrite !andb_true_iff, !str_eqb_eq.
  split; [intros [[-> ->] ->]; reflexivity|intros E; injection E; auto].
Qed.
Lemma same_edge_edge a b : same_edge a b = edge_eqb (edge_of a) (edge_of b).
Proof. reflexivity. Qed.

Definition pass_step := fun '(kept, dups) (a : arc) =>
  if existsb (fun b => edge_eqb (edge_of a) (edge_of b)) kept then (kept, dups ++ [a]) else (kept ++ [a], dups).
Lemma arc_pass_snoc arcs a : arc_pass (arcs ++ [a]) = pass_step (arc_pass arcs) a.
Proof. unfold arc_pass. rewrite fold_left_app. reflexivity. Qed.

Lemma existsb_edge_in a l : existsb (fun b => edge_eqb (edge_of a) (edge_of b)) l = true <-> In (edge_of a) (map edge_of l).
Proof.
  rewrite existsb_exists, in_map_iff. split; intros (b & H1 & H2).
  - apply edge_eqb_eq in H2. exists b. auto.
  - exists b. rewrite edge_eqb_eq. auto.
Qed.
Lemma arc_pass_kept arcs : let kept := fst (arc_pass arcs) in
  NoDup (map edge_of kept) /\ (forall e, In e (map edge_of kept) <-> In e (map edge_of arcs)) /\ incl kept arcs /\
  (forall P : arc -> bool, (forall a b, edge_of a = edge_of b -> P a = P b) -> find P kept = find P arcs).
Proof.
  induction arcs as [|a arcs IH] using rev_ind; [repeat split; auto using incl_refl; constructor|].
  rewrite arc_pass_snoc. destruct (arc_pass arcs) as [kept dups]. cbn [fst] in *. destruct IH as (Hn & Hi & Hc & Hf).
  unfold pass_step. destruct (existsb _ kept) eqn:E; cbn [fst].
  - apply existsb_edge_in in E. split; [exact Hn|]. split; [|split].
    + intros e. rewrite map_app, in_app_iff, Hi. cbn. split; [auto|]. intros [H|[<-|[]]]; [exact H|]. apply Hi, E.
    + intros x Hx. apply in_or_app. auto.
    + intros P HP. rewrite (Hf P HP). apply in_map_iff in E as (b & Eb & Hb).
      destruct (find P arcs) as [c|] eqn:Ef.
      * symmetry. clear -Ef. induction arcs as [|x arcs IH]; [discriminate|]. cbn in *. destruct (P x); auto.
      * assert (Hp : P a = false).
        { rewrite <- (HP b a Eb). eapply find_none; [exact Ef|]. apply Hc, Hb. }
        symmetry. clear -Ef Hp. induction arcs as [|x arcs IH]; cbn in *; [rewrite Hp; reflexivity|]. destruct (P x); [discriminate|auto].
  - split; [|split; [|split]].
    + rewrite map_app. apply NoDup_snoc; [exact Hn|]. intros H. apply existsb_edge_in in H. congruence.
    + intros e. rewrite !map_app, !in_app_iff, Hi. tauto.
    + intros x Hx. apply in_app_or in Hx as [Hx|Hx]; apply in_or_app; auto.
    + intros P HP. specialize (Hf P HP). clear -Hf. 
      assert (G : forall l, find P (l ++ [a]) = match find P l with Some x => Some x | None => find P [a] end).
      { induction l as [|x l IH]; [reflexivity|]. cbn. destruct (P x); auto. }
      rewrite !G, Hf. reflexivity.
Qed.
Lemma arc_pass_dups arcs : snd (arc_pass arcs) = repeats [] arcs.
Proof.
  assert (G : forall l2 l1, snd (arc_pass (l1 ++ l2)) = snd (arc_pass l1) ++ repeats l1 l2).
  { induction l2 as [|a l2 IH]; intros l1; [rewrite app_nil_r; cbn; rewrite app_nil_r; reflexivity|].
    change (a :: l2) with ([a] ++ l2). rewrite app_assoc, IH, arc_pass_snoc. cbn [repeats app].
    pose proof (arc_pass_kept l1) as (_ & Hi & _). destruct (arc_pass l1) as [kept dups]. cbn [fst snd] in *.
    assert (E : existsb (same_edge a) l1 = existsb (fun b => edge_eqb (edge_of a) (edge_of b)) kept).
    { apply eq_true_iff_eq. change (existsb (same_edge a) l1) with (existsb (fun b => edge_eqb (edge_of a) (edge_of b)) l1).
      rewrite !existsb_edge_in, Hi. tauto. }
    rewrite E. unfold pass_step. destruct (existsb _ kept); cbn [snd]; [rewrite <- app_assoc; reflexivity|reflexivity]. }
  exact (G arcs []).
Qed.

(** *** The arcs around a label *)

Lemma into_edge label a b : edge_of a = edge_of b -> into label a = into label b.
Proof. unfold into, edge_of. intros H. injection H as H1 H2 H3. congruence. Qed.
Lemma out_edge label a b : edge_of a = edge_of b -> out_of label a = out_of label b.
Proof. unfold out_of, edge_of. intros H. injection H as H1 H2 H3. congruence. Qed.
Lemma role_edge role a b : edge_of a = edge_of b -> with_role role a = with_role role b.
Proof. unfold with_role, edge_of. intros H. injection H as H1 H2 H3. congruence. Qed.

Lemma node_to_arcs_in kept label a : In a (node_to_arcs kept label) <-> In a kept /\ (a_from a = label \/ a_to a = label).
Proof.
  unfold node_to_arcs. rewrite in_concat. split.
  - intros (l & Hl & Ha). apply in_map_iff in Hl as (b & <- & Hb). apply in_app_or in Ha as [Ha|Ha].
    + destruct (str_reflect (a_from b) label); [|destruct Ha]. destruct Ha as [<-|[]]. auto.
    + destruct (str_reflect (a_to b) label); [|destruct Ha]. destruct Ha as [<-|[]]. auto.
  - intros [Ha Hor]. eexists. split; [apply in_map, Ha|]. cbn beta. apply in_or_app.
    destruct Hor as [E|E]; rewrite E, str_eqb_refl; [left|right]; left; reflexivity.
Qed.
Lemma find_filter_arcs kept label (P : arc -> bool) :
  (forall a, P a = true -> a_from a = label \/ a_to a = label) -> find P (node_to_arcs kept label) = find P kept.
Proof.
  intros HP. unfold node_to_arcs. induction kept as [|a kept IH]; [reflexivity|]. cbn [map concat find].
  destruct (P a) eqn:E.
  - destruct (HP a E) as [Ha|Ha].
    + rewrite Ha, str_eqb_refl. cbn. rewrite E. reflexivity.
    + destruct (str_eqb (a_from a) label); cbn; [rewrite E; reflexivity|]. rewrite Ha, str_eqb_refl. cbn. rewrite E. reflexivity.
  - rewrite <- IH. destruct (str_eqb (a_from a) label), (str_eqb (a_to a) label); cbn; rewrite ?E; reflexivity.
Qed.
Lemma find_filter {A} (P Q : A -> bool) l : find P (filter Q l) = find (fun a => P a && Q a) l.
Proof.
  induction l as [|a l IH]; [reflexivity|]. cbn. destruct (Q a) eqn:E; cbn; [|rewrite andb_false_r; exact IH].
  rewrite andb_true_r. destruct (P a); auto.
Qed.
Lemma hd_filter {A} (Q : A -> bool) l : hd_error (filter Q l) = find Q l.
Proof. induction l as [|a l IH]; [reflexivity|]. cbn. destruct (Q a); auto. Qed.
Lemma find_ext {A} (P Q : A -> bool) l : (forall a, P a = Q a) -> find P l = find Q l.
Proof. intros H. induction l as [|a l IH]; [reflexivity|]. cbn. rewrite H, IH. reflexivity. Qed.

Lemma hd_to arcs label : hd_error (filter (fun a => str_eqb (a_to a) label) (node_to_arcs (fst (arc_pass arcs)) label)) = find (into label) arcs.
Proof.
  rewrite hd_filter. change (fun a => str_eqb (a_to a) label) with (into label).
  rewrite find_filter_arcs by (unfold into; intros a H; apply str_eqb_eq in H; auto).
  apply (arc_pass_kept arcs). apply into_edge.
Qed.
Lemma hd_from arcs label : hd_error (filter (fun a => str_eqb (a_from a) label) (node_to_arcs (fst (arc_pass arcs)) label)) = find (out_of label) arcs.
Proof.
  rewrite hd_filter. change (fun a => str_eqb (a_from a) label) with (out_of label).
  rewrite find_filter_arcs by (unfold out_of; intros a H; apply str_eqb_eq in H; auto).
  apply (arc_pass_kept arcs). apply out_edge.
Qed.

(** *** Attributes of nodes *)

Definition plain (k : kind) (i : nat) (o : obj) (role : str) : node := Node i o role (default_order k) 0%Q None [].
Definition of_arc (k : kind) (i : nat) (o : obj) (a : arc) : node :=
  Node i o (a_role a) (arc_order k a) (arc_weight k a) (arc_pref k a) [].
(** The node given by an arc around the label. *)
Definition from_arc (k : kind) (i : nat) (o : obj) (label : str) (a : arc) : node :=
  if out_of label a then plain k i o (a_role a) else of_arc k i o a.

Lemma create_some k i label a o : a_from a = label \/ a_to a = label ->
  create_node k i label (Some a) o = match accepts k (o_type o) with Some e => Raise e | None => Ok (from_arc k i o label a) end.
Proof.
  intros H. unfold create_node, from_arc, out_of. destruct (str_reflect (a_from a) label) as [E|E].
  - cbn [bind]. destruct (accepts k (o_type o)); reflexivity.
  - destruct H as [H|H]; [contradiction|]. rewrite H, str_eqb_refl. cbn [bind]. destruct (accepts k (o_type o)); reflexivity.
Qed.
Lemma create_none k i label o :
  create_node k i label None o = match accepts k (o_type o) with Some e => Raise e | None => Ok (plain k i o (u "unknown")) end.
Proof. unfold create_node. cbn [bind]. destruct (accepts k (o_type o)); reflexivity. Qed.

(** What the logical pass makes of a link element. *)
Definition logical_node (k : kind) (arcs : list arc) (i : nat) (label : str) (o : obj) : node :=
  match find (into label) arcs with
  | Some a => from_arc k i o label a
  | None => match find (out_of label) arcs with Some a => from_arc k i o label a | None => plain k i o (u "unknown") end
  end.
Definition is_target (arcs : list arc) (label : str) : bool := existsb (into label) arcs.
Lemma find_existsb {A} (P : A -> bool) l : existsb P l = match find P l with Some _ => true | None => false end.
Proof. induction l as [|a l IH]; [reflexivity|]. cbn. destruct (P a); [reflexivity|exact IH]. Qed.

Lemma logical_nodes_eq k arcs i label o :
  logical_nodes k (fst (arc_pass arcs)) i label o =
  match accepts k (o_type o) with
  | Some e => Raise e
  | None => Ok [(logical_node k arcs i label o, negb (is_target arcs label))]
  end.
Proof.
  unfold logical_nodes, logical_node, is_target. rewrite find_existsb, <- hd_to, <- hd_from.
  set (to := filter _ _). set (from := filter _ (node_to_arcs _ label)).
  assert (Ht : forall a, hd_error to = Some a -> a_to a = label).
  { unfold to. intros a Ha. rewrite hd_filter in Ha. apply find_some in Ha as [_ Ha]. apply str_eqb_eq, Ha. }
  assert (Hf : forall a, hd_error from = Some a -> a_from a = label).
  { unfold from. intros a Ha. rewrite hd_filter in Ha. apply find_some in Ha as [_ Ha]. apply str_eqb_eq, Ha. }
  destruct to as [|a to]; cbn [hd_error] in *; [destruct from as [|a from]; cbn [hd_error] in *|].
  - rewrite create_none. destruct (accepts k (o_type o)); reflexivity.
  - rewrite create_some by auto. destruct (accepts k (o_type o)); reflexivity.
  - rewrite create_some by auto. destruct (accepts k (o_type o)); reflexivity.
Qed.

Lemma dedup_spec l : NoDup (dedup l) /\ forall s, In s (dedup l) <-> In s l.
Proof.
  unfold dedup. assert (G : forall l acc, NoDup acc ->
    let r := fold_left (fun acc s => if existsb (str_eqb s) acc then acc else acc ++ [s]) l acc in
    NoDup r /\ forall s, In s r <-> In s acc \/ In s l).
  { clear. induction l as [|x l IH]; intros acc Ha; cbn [fold_left]; [cbn; tauto|].
    assert (Hm : existsb (str_eqb x) acc = true <-> In x acc).
    { rewrite existsb_exists. split; [intros (y & Hy & E); apply str_eqb_eq in E; subst; exact Hy|intros H; exists x; rewrite str_eqb_refl; auto]. }
    destruct (existsb (str_eqb x) acc).
    - destruct (IH acc Ha) as [H1 H2]. split; [exact H1|]. intros s. rewrite H2. cbn. intuition (subst; auto).
    - destruct (IH (acc ++ [x])) as [H1 H2]; [apply NoDup_snoc; [exact Ha|intros Hx; apply Hm in Hx; discriminate]|].
      split; [exact H1|]. intros s. rewrite H2, in_app_iff. cbn. tauto. }
  destruct (G l [] (NoDup_nil _)) as [H1 H2]. split; [exact H1|]. intros s. rewrite H2. cbn. tauto.
Qed.

(** What the physical pass makes of a link element for one role. *)
Definition physical_node (k : kind) (arcs : list arc) (i : nat) (label : str) (o : obj) (role : str) : node :=
  match find (fun a => with_role role a && into label a) arcs with
  | Some a => from_arc k i o label a
  | None => match find (fun a => with_role role a && out_of label a) arcs with
            | Some a => from_arc k i o label a
            | None => plain k i o role
            end
  end.
Definition is_target_of (arcs : list arc) (label role : str) : bool :=
  existsb (fun a => with_role role a && into label a) arcs.
Lemma physical_node_loc k arcs i label o role : n_loc (physical_node k arcs i label o role) = i /\
  n_obj (physical_node k arcs i label o role) = o /\ n_kids (physical_node k arcs i label o role) = [] /\
  n_role (physical_node k arcs i label o role) = role.
Proof.
  unfold physical_node, from_arc. destruct (find _ arcs) as [a|] eqn:E; [|destruct (find (fun a => _ && out_of label a) arcs) as [a|] eqn:E'];
    [apply find_some in E as [_ E]; apply andb_prop in E as [E _]; apply str_eqb_eq in E
    |apply find_some in E' as [_ E']; apply andb_prop in E' as [E' _]; apply str_eqb_eq in E'|].
  - destruct (out_of label a); cbn; auto.
  - destruct (out_of label a); cbn; auto.
  - cbn; auto.
Qed.
Lemma logical_node_loc k arcs i label o : n_loc (logical_node k arcs i label o) = i /\
  n_obj (logical_node k arcs i label o) = o /\ n_kids (logical_node k arcs i label o) = [].
Proof.
  unfold logical_node, from_arc. destruct (find (into label) arcs) as [a|]; [|destruct (find (out_of label) arcs) as [a|]];
    try destruct (out_of label a); cbn; auto.
Qed.

Lemma map_res_ok {A B} (f : A -> res B) (g : A -> B) l : (forall x, In x l -> f x = Ok (g x)) -> map_res f l = Ok (map g l).
Proof.
  induction l as [|x l IH]; intros H; [reflexivity|]. cbn. rewrite H by (left; reflexivity). cbn. rewrite IH by (intros; apply H; right; assumption). reflexivity.
Qed.
Lemma map_res_raise {A B} (f : A -> res B) e l : l <> [] -> (forall x, In x l -> f x = Raise e) -> map_res f l = Raise e.
Proof. destruct l as [|x l]; [congruence|]. intros _ H. cbn. rewrite H by (left; reflexivity). reflexivity. Qed.

Definition touching_roles (arcs : list arc) (label : str) : list str :=
  let kept := node_to_arcs (fst (arc_pass arcs)) label in
  dedup (map a_role (filter (into label) kept) ++ map a_role (filter (out_of label) kept)).
Lemma touching_roles_in arcs label role : In role (touching_roles arcs label) <-> touches arcs label role.
Proof.
  unfold touching_roles, touches. destruct (dedup_spec (map a_role (filter (into label) (node_to_arcs (fst (arc_pass arcs)) label)) ++
    map a_role (filter (out_of label) (node_to_arcs (fst (arc_pass arcs)) label)))) as [_ ->].
  destruct (arc_pass_kept arcs) as (_ & Hi & Hc & _). rewrite in_app_iff, !in_map_iff. split.
  - intros [(a & <- & Ha)|(a & <- & Ha)]; apply filter_In in Ha as [Ha _]; apply node_to_arcs_in in Ha as [Ha Hor]; exists a; auto.
  - intros (a & Ha & Hor & <-). assert (He : In (edge_of a) (map edge_of arcs)) by (apply in_map, Ha).
    apply Hi in He. apply in_map_iff in He as (b & Eb & Hb). assert (E3 : a_role b = a_role a /\ a_from b = a_from a /\ a_to b = a_to a) by (unfold edge_of in Eb; injection Eb; auto).
    destruct E3 as (Er & Ef & Et).
    destruct Hor as [Hl|Hl]; [right|left]; exists b; (split; [exact Er|]); apply filter_In; rewrite node_to_arcs_in; unfold into, out_of; rewrite ?Ef, ?Et, Hl, str_eqb_refl; auto.
Qed.
Lemma touching_roles_nodup arcs label : NoDup (touching_roles arcs label).
Proof. apply dedup_spec. Qed.

Lemma physical_nodes_eq k arcs i label o :
  physical_nodes k (fst (arc_pass arcs)) i label o =
  match accepts k (o_type o) with
  | Some e => Raise e
  | None => match touching_roles arcs label with
            | [] => Ok [(plain k i o (u "unknown"), true)]
            | roles => Ok (map (fun role => (physical_node k arcs i label o role, negb (is_target_of arcs label role))) roles)
            end
  end.
Proof.
  unfold physical_nodes. set (na := node_to_arcs (fst (arc_pass arcs)) label).
  change (fun a => str_eqb (a_to a) label) with (into label). change (fun a => str_eqb (a_from a) label) with (out_of label).
  assert (Hr : touching_roles arcs label = dedup (map a_role (filter (into label) na) ++ map a_role (filter (out_of label) na))) by reflexivity.
  pose (F := fun role =>
        do! n <- create_node k i label (find (fun a => str_eqb (a_role a) role)
          (filter (into label) na ++ filter (fun a => negb (str_eqb (a_to a) label)) na)) o ;
        Ok (n, negb (existsb (str_eqb role) (map a_role (filter (into label) na))))).
  assert (HF : map_res F (touching_roles arcs label) = match accepts k (o_type o) with
    | Some e => match touching_roles arcs label with [] => Ok [] | _ => Raise e end
    | None => Ok (map (fun role => (physical_node k arcs i label o role, negb (is_target_of arcs label role))) (touching_roles arcs label)) end).
  { assert (H1 : forall role, In role (touching_roles arcs label) -> F role = match accepts k (o_type o) with
      | Some e => Raise e | None => Ok (physical_node k arcs i label o role, negb (is_target_of arcs label role)) end).
    { intros role Hrole. apply touching_roles_in in Hrole. unfold F.
      assert (Ef : find (fun a => str_eqb (a_role a) role) (filter (into label) na ++ filter (fun a => negb (into label a)) na) =
        match find (fun a => with_role role a && into label a) arcs with
        | Some a => Some a | None => find (fun a => with_role role a && out_of label a) arcs end).
      { assert (G : forall l1 l2, find (with_role role) (l1 ++ l2) = match find (with_role role) l1 with Some a => Some a | None => find (with_role role) l2 end).
        { induction l1 as [|x l1 IH]; intros l2; [reflexivity|]. cbn. destruct (with_role role x); auto. }
        change (fun a => str_eqb (a_role a) role) with (with_role role). rewrite G, !find_filter.
        unfold na. rewrite find_filter_arcs.
        2: { intros a Ha. apply andb_prop in Ha as [_ Ha]. right. apply str_eqb_eq, Ha. }
        rewrite (proj2 (proj2 (proj2 (arc_pass_kept arcs)))).
        2: { intros a b Hab. rewrite (role_edge _ _ _ Hab), (into_edge _ _ _ Hab). reflexivity. }
        destruct (find (fun a => with_role role a && into label a) arcs) as [a|] eqn:E1; [reflexivity|].
        transitivity (find (fun a => with_role role a && out_of label a) (node_to_arcs (fst (arc_pass arcs)) label)).
        - assert (Hsub : forall a, In a (node_to_arcs (fst (arc_pass arcs)) label) ->
            with_role role a && negb (into label a) = with_role role a && out_of label a).
          { intros a Ha. apply node_to_arcs_in in Ha as [Ha Hor].
            destruct (with_role role a) eqn:Er; [|reflexivity]. cbn. destruct (into label a) eqn:Ei.
            - exfalso. apply (proj1 (proj2 (proj2 (arc_pass_kept arcs)))) in Ha. apply (find_none _ _ E1) in Ha. cbn in Ha. rewrite Er, Ei in Ha. discriminate.
            - cbn. unfold into, out_of in *. destruct Hor as [H|H]; rewrite H, str_eqb_refl in *; [reflexivity|discriminate]. }
          revert Hsub. generalize (node_to_arcs (fst (arc_pass arcs)) label). induction l as [|x l IH]; intros Hs; [reflexivity|].
          cbn [find]. rewrite Hs by (left; reflexivity). rewrite IH by (intros; apply Hs; right; assumption). reflexivity.
        - rewrite find_filter_arcs by (intros a Ha; apply andb_prop in Ha as [_ Ha]; left; apply str_eqb_eq, Ha).
          apply (arc_pass_kept arcs). intros a b Hab. rewrite (role_edge _ _ _ Hab), (out_edge _ _ _ Hab). reflexivity. }
      change (fun a => negb (str_eqb (a_to a) label)) with (fun a => negb (into label a)). rewrite Ef.
      assert (Hroot : existsb (str_eqb role) (map a_role (filter (into label) na)) = is_target_of arcs label role).
      { unfold is_target_of. rewrite (find_existsb (fun a => with_role role a && into label a)). 
        rewrite <- (proj2 (proj2 (proj2 (arc_pass_kept arcs))) (fun a => with_role role a && into label a)).
        2: { intros a b Hab. rewrite (role_edge _ _ _ Hab), (into_edge _ _ _ Hab). reflexivity. }
        rewrite <- (find_filter_arcs _ label (fun a => with_role role a && into label a)).
        2: { intros a Ha. apply andb_prop in Ha as [_ Ha]. right. apply str_eqb_eq, Ha. }
        fold na. rewrite <- find_filter, <- find_existsb. generalize (filter (into label) na); clear; intros l0; induction l0 as [|x l IH]; [reflexivity|].
        cbn. unfold with_role at 1. rewrite str_eqb_sym, IH. reflexivity. }
      rewrite Hroot. unfold physical_node.
      destruct (find (fun a => with_role role a && into label a) arcs) as [a|] eqn:E1.
      - apply find_some in E1 as [_ E1]. apply andb_prop in E1 as [_ E1]. apply str_eqb_eq in E1.
        rewrite create_some by auto. destruct (accepts k (o_type o)); reflexivity.
      - destruct (find (fun a => with_role role a && out_of label a) arcs) as [a|] eqn:E2.
        + apply find_some in E2 as [_ E2]. apply andb_prop in E2 as [_ E2]. apply str_eqb_eq in E2.
          rewrite create_some by auto. destruct (accepts k (o_type o)); reflexivity.
        + exfalso. destruct Hrole as (a & Ha & Hor & Er). assert (Ew : with_role role a = true) by (apply str_eqb_eq, Er).
          apply (find_none _ _ E1) in Ha as H1. apply (find_none _ _ E2) in Ha as H2. cbn in H1, H2. rewrite Ew in H1, H2. cbn in H1, H2.
          unfold into, out_of in *. destruct Hor as [H|H]; rewrite H, str_eqb_refl in *; discriminate. }
    destruct (accepts k (o_type o)) as [e|].
    - destruct (touching_roles arcs label) as [|r rs] eqn:E; [reflexivity|]. rewrite <- E in *. apply map_res_raise; [rewrite E; discriminate|exact H1].
    - apply map_res_ok, H1. }
  cbv zeta. fold F. rewrite <- Hr.
  assert (Hcase : (filter (into label) na = [] /\ filter (out_of label) na = []) \/ touching_roles arcs label <> []).
  { destruct (filter (into label) na) as [|a l] eqn:E1; [destruct (filter (out_of label) na) as [|a l] eqn:E2; [auto|]|]; right; rewrite Hr.
    - intros Hn. assert (In (a_role a) []) as []. rewrite <- Hn. apply dedup_spec. left. reflexivity.
    - intros Hn. assert (In (a_role a) []) as []. rewrite <- Hn. apply dedup_spec. left. reflexivity. }
  destruct Hcase as [[E1 E2]|Hne].
  - rewrite E1, E2 in *. rewrite Hr. cbn [map app dedup fold_left]. rewrite create_none. destruct (accepts k (o_type o)); reflexivity.
  - assert (Hx : forall (X Y : res (list (node * bool))), match filter (into label) na, filter (out_of label) na with [], [] => X | _, _ => Y end = Y \/
       (filter (into label) na = [] /\ filter (out_of label) na = [])).
    { intros X Y. destruct (filter (into label) na), (filter (out_of label) na); auto. }
    destruct (Hx (do! n <- create_node k i label None o ; Ok [(n, true)]) (map_res F (touching_roles arcs label))) as [E|[E1 E2]].
    + rewrite E, HF. destruct (accepts k (o_type o)), (touching_roles arcs label); congruence.
    + exfalso. apply Hne. rewrite Hr, E1, E2. reflexivity.
Qed.

(** *** All nodes of a link *)

Definition nodes_for (k : kind) (arcs : list arc) (i : nat) (l : loc) : list (node * bool) :=
  match l_obj l with
  | None => []
  | Some o =>
      if is_physical k
      then match touching_roles arcs (l_label l) with
           | [] => [(plain k i o (u "unknown"), true)]
           | roles => map (fun role => (physical_node k arcs i (l_label l) o role, negb (is_target_of arcs (l_label l) role))) roles
           end
      else [(logical_node k arcs i (l_label l) o, negb (is_target arcs (l_label l)))]
  end.
Fixpoint nodes_from (k : kind) (arcs : list arc) (i : nat) (locs : list loc) : list (node * bool) :=
  match locs with [] => [] | l :: locs' => nodes_for k arcs i l ++ nodes_from k arcs (S i) locs' end.
Definition acceptable (k : kind) (locs : list loc) : Prop :=
  forall l o, In l locs -> l_obj l = Some o -> accepts k (o_type o) = None.

Lemma node_pass_ok k arcs : forall locs i, acceptable k locs ->
  node_pass k (fst (arc_pass arcs)) i locs = Ok (nodes_from k arcs i locs).
Proof.
  induction locs as [|l locs IH]; intros i Ha; [reflexivity|]. cbn [node_pass nodes_from].
  assert (Ha' : acceptable k locs) by (intros l' o Hl; apply Ha; right; exact Hl).
  rewrite (IH _ Ha'). unfold nodes_for. destruct (l_obj l) as [o|] eqn:E; [|reflexivity].
  assert (Hx := Ha l o (or_introl eq_refl) E). destruct (is_physical k).
  - rewrite physical_nodes_eq, Hx. destruct (touching_roles arcs (l_label l)); reflexivity.
  - rewrite logical_nodes_eq, Hx. reflexivity.
Qed.
Lemma node_pass_raise k arcs : forall locs i ns, node_pass k (fst (arc_pass arcs)) i locs = Ok ns -> acceptable k locs.
Proof.
  induction locs as [|l locs IH]; intros i ns H; [intros l o []|]. cbn [node_pass] in H.
  intros l' o [->|Hl] Ho.
  - rewrite Ho in H. destruct (accepts k (o_type o)) as [e|] eqn:E; [|reflexivity]. exfalso.
    destruct (is_physical k); [rewrite physical_nodes_eq, E in H|rewrite logical_nodes_eq, E in H]; discriminate.
  - destruct (match l_obj l with None => _ | Some _ => _ end); [|discriminate]. cbn [bind] in H.
    destruct (node_pass k _ (S i) locs) as [rest|] eqn:E; [|discriminate]. exact (IH _ _ E l' o Hl Ho).
Qed.

Definition key (n : node) : nat * str := (n_loc n, n_role n).
Lemma nodes_for_in k arcs i l n b : In (n, b) (nodes_for k arcs i l) ->
  n_loc n = i /\ l_obj l = Some (n_obj n) /\ n_kids n = [].
Proof.
  unfold nodes_for. destruct (l_obj l) as [o|]; [|intros []]. destruct (is_physical k).
  - destruct (touching_roles arcs (l_label l)) as [|r rs]; intros H.
    + destruct H as [H|[]]. injection H as <- <-. cbn. auto.
    + apply in_map_iff in H as (role & E & _). injection E as <- <-.
      destruct (physical_node_loc k arcs i (l_label l) o role) as (-> & -> & -> & _). auto.
  - intros [H|[]]. injection H as <- <-. destruct (logical_node_loc k arcs i (l_label l) o) as (-> & -> & ->). auto.
Qed.
Lemma nodes_for_nodup k arcs i l : NoDup (map (fun p => key (fst p)) (nodes_for k arcs i l)).
Proof.
  unfold nodes_for. destruct (l_obj l) as [o|]; [|constructor]. destruct (is_physical k); [|repeat constructor; intros []].
  destruct (touching_roles arcs (l_label l)) as [|r rs] eqn:E; [repeat constructor; intros []|]. rewrite <- E.
  rewrite map_map. cbn [fst]. unfold key. pose proof (touching_roles_nodup arcs (l_label l)) as Hn.
  clear E r rs. induction (touching_roles arcs (l_label l)) as [|x t IH]; [constructor|]. inversion Hn as [|? ? H1 H2]; subst.
  cbn. constructor; [|apply IH; exact H2]. rewrite in_map_iff. intros (y & Ey & Hy).
  destruct (physical_node_loc k arcs i (l_label l) o x) as (_ & _ & _ & E1). destruct (physical_node_loc k arcs i (l_label l) o y) as (_ & _ & _ & E2).
  apply H1. assert (x = y) as -> by congruence. exact Hy.
Qed.
Lemma nodes_from_in k arcs : forall locs i n b, In (n, b) (nodes_from k arcs i locs) <->
  exists j l, nth_error locs j = Some l /\ In (n, b) (nodes_for k arcs (i + j) l).
Proof.
  induction locs as [|l locs IH]; intros i n b; cbn [nodes_from].
  - split; [intros []|intros (j & l & H & _); destruct j; discriminate].
  - rewrite in_app_iff, IH. split.
    + intros [H|(j & l' & Hj & H)]; [exists 0, l; rewrite Nat.add_0_r; auto|]. exists (S j), l'. rewrite Nat.add_succ_r. auto.
    + intros (j & l' & Hj & H). destruct j as [|j]; [injection Hj as <-; rewrite Nat.add_0_r in H; auto|].
      right. exists j, l'. rewrite Nat.add_succ_r in H. auto.
Qed.
Lemma NoDup_app_intro {A} (l1 l2 : list A) : NoDup l1 -> NoDup l2 -> (forall x, In x l1 -> ~ In x l2) -> NoDup (l1 ++ l2).
Proof.
  induction l1 as [|x l1 IH]; intros H1 H2 H; [exact H2|]. inversion H1 as [|? ? Ha Hb]; subst. cbn. constructor.
  - rewrite in_app_iff. intros [Hx|Hx]; [exact (Ha Hx)|exact (H x (or_introl eq_refl) Hx)].
  - apply IH; [exact Hb|exact H2|]. intros y Hy. apply H. right. exact Hy.
Qed.
Lemma nodes_from_nodup k arcs : forall locs i, NoDup (map (fun p => key (fst p)) (nodes_from k arcs i locs)).
Proof.
  induction locs as [|l locs IH]; intros i; [constructor|]. cbn [nodes_from]. rewrite map_app. apply NoDup_app_intro.
  - apply nodes_for_nodup.
  - apply IH.
  - intros q Hq Hq'. apply in_map_iff in Hq as ((n & b) & <- & Hn). apply in_map_iff in Hq' as ((n' & b') & E & Hn').
    apply nodes_for_in in Hn as (Hl & _). apply nodes_from_in in Hn' as (j & l' & Hj & Hn'). apply nodes_for_in in Hn' as (Hl' & _).
    cbn [fst] in E. unfold key in E. assert (n_loc n' = n_loc n) by congruence. lia.
Qed.

(** *** Pairs added *)

Definition pair_dec (x y : nat * nat) : {x = y} + {x <> y}.
Proof. decide equality; apply Nat.eq_dec. Defined.
Lemma count_added adds p c : count_occ Nat.eq_dec (added adds p) c = count_occ pair_dec adds (p, c).
Proof.
  unfold added. induction adds as [|[a b] adds IH]; [reflexivity|]. cbn [filter fst].
  destruct (Nat.eqb_spec a p) as [->|Hn]; cbn [map snd].
  - destruct (Nat.eq_dec b c) as [->|Hb].
    + rewrite !count_occ_cons_eq by reflexivity. f_equal. exact IH.
    + rewrite !count_occ_cons_neq by congruence. exact IH.
  - rewrite IH, count_occ_cons_neq by congruence. reflexivity.
Qed.
Lemma NoDup_list_prod {A B} (l1 : list A) (l2 : list B) : NoDup l1 -> NoDup l2 -> NoDup (list_prod l1 l2).
Proof.
  intros H1 H2. induction H1 as [|x l1 Hx H1 IH]; [constructor|]. cbn. apply NoDup_app_intro.
  - apply FinFun.Injective_map_NoDup; [intros a b E; congruence|exact H2].
  - exact IH.
  - intros [a b] Ha Hb. apply in_map_iff in Ha as (y & E & _). injection E as <- <-. apply in_prod_iff in Hb as [Hb _]. contradiction.
Qed.
Lemma count_nodup l x : NoDup l -> count_occ pair_dec l x = if in_dec pair_dec x l then 1 else 0.
Proof.
  intros H. destruct (in_dec pair_dec x l) as [Hi|Hn].
  - exact (proj1 (NoDup_count_occ' pair_dec l) H x Hi).
  - apply count_occ_not_In, Hn.
Qed.
Lemma count_concat {A} (f : A -> list (nat * nat)) x l :
  (forall e, NoDup (f e)) -> count_occ pair_dec (concat (map f l)) x = length (filter (fun e => if in_dec pair_dec x (f e) then true else false) l).
Proof.
  intros Hn. induction l as [|e l IH]; [reflexivity|]. cbn [map concat filter]. rewrite count_occ_app, IH, count_nodup by apply Hn.
  destruct (in_dec pair_dec x (f e)); reflexivity.
Qed.

Lemma lookup_in locs h label n : In n (nodes_lookup locs h label) <-> exists x l, made_for h locs n x l /\ l_label l = label.
Proof.
  unfold nodes_lookup, made_for. rewrite filter_In, in_seq. split.
  - intros [_ H]. destruct (nth_error h n) as [x|] eqn:E; [|discriminate]. destruct (nth_error locs (n_loc x)) as [l|] eqn:El; [|discriminate].
    apply str_eqb_eq in H. exists x, l. auto.
  - intros (x & l & (E & El) & H). rewrite E, El, H, str_eqb_refl. split; [|reflexivity]. assert (n < length h) by (apply nth_error_Some; congruence). lia.
Qed.
Lemma lookup_nodup locs h label : NoDup (nodes_lookup locs h label).
Proof. apply NoDup_filter, seq_NoDup. Qed.

Lemma edge_adds_nodup k locs h e : NoDup (edge_adds k locs h e).
Proof.
  destruct e as [[from to] role]. unfold edge_adds. apply NoDup_list_prod; destruct (is_physical k); try apply lookup_nodup; apply NoDup_filter, lookup_nodup.
Qed.
Lemma edge_adds_in k locs h from to role p c x l y l' : made_for h locs p x l -> made_for h locs c y l' ->
  (In (p, c) (edge_adds k locs h (from, to, role)) <->
   l_label l = from /\ l_label l' = to /\ (is_physical k = true -> n_role x = role /\ n_role y = role)).
Proof.
  intros Hp Hc. unfold edge_adds. rewrite in_prod_iff.
  assert (HP : In p (nodes_lookup locs h from) <-> l_label l = from).
  { rewrite lookup_in. split; [intros (x' & l0 & (H1 & H2) & <-)|intros <-; exists x, l; auto]. destruct Hp. congruence. }
  assert (HC : In c (nodes_lookup locs h to) <-> l_label l' = to).
  { rewrite lookup_in. split; [intros (x' & l0 & (H1 & H2) & <-)|intros <-; exists y, l'; auto]. destruct Hc. congruence. }
  destruct Hp as [Ep _], Hc as [Ec _]. destruct (is_physical k).
  - rewrite !filter_In, HP, HC, Ep, Ec, !str_eqb_eq. intuition.
  - rewrite HP, HC. intuition discriminate.
Qed.

(** The result of the whole: heap, children counts, roots. *)
Lemma parse_link_inv k eo ro arcs locs h nets dups : parse_link k eo ro arcs locs = Ok (h, nets, dups) ->
  let ns := nodes_from k arcs 0 locs in
  let h0 := map fst ns in
  acceptable k locs /\ dups = repeats [] arcs /\
  h = add_all h0 (concat (map (edge_adds k locs h0) (eo (map edge_of (fst (arc_pass arcs)))))) /\
  exists roots, roots = ro (map fst (filter (fun p => snd (snd p)) (combine (seq 0 (length ns)) ns))) /\
    nets = (let role_of n := match nth_error h n with Some x => n_role x | None => [] end in
      if is_physical k then map (fun role => filter (fun n => str_eqb (role_of n) role) roots) (dedup (map role_of roots))
      else match roots with [] => [] | _ => [roots] end).
Proof.
  unfold parse_link. pose proof (arc_pass_dups arcs) as Hd. destruct (arc_pass arcs) as [kept dups0] eqn:Ea. cbn [snd] in Hd.
  assert (Hk : kept = fst (arc_pass arcs)) by (rewrite Ea; reflexivity). rewrite Hk.
  destruct (node_pass k (fst (arc_pass arcs)) 0 locs) as [ns|] eqn:En; [|discriminate]. cbn [bind]. intros H.
  pose proof (node_pass_raise _ _ _ _ _ En) as Ha. rewrite (node_pass_ok k arcs locs 0 Ha) in En. injection En as <-.
  assert (E1 : dups = dups0) by congruence. assert (E2 : h = add_all (map fst (nodes_from k arcs 0 locs))
    (concat (map (edge_adds k locs (map fst (nodes_from k arcs 0 locs))) (eo (map edge_of (fst (arc_pass arcs))))))) by congruence.
  cbv zeta. split; [exact Ha|]. split; [congruence|]. split; [rewrite Ea; rewrite Ea in E2; exact E2|]. eexists. split; [reflexivity|].
  rewrite E2. congruence.
Qed.

Lemma parse_link_ok_iff k eo ro arcs locs : (exists r, parse_link k eo ro arcs locs = Ok r) <-> acceptable k locs.
Proof.
  split.
  - intros [[[h nets] dups] H]. apply parse_link_inv in H. tauto.
  - intros H. unfold parse_link. destruct (arc_pass arcs) as [kept dups] eqn:Ea.
    assert (Hk : kept = fst (arc_pass arcs)) by (rewrite Ea; reflexivity). rewrite Hk, (node_pass_ok k arcs locs 0 H). cbn [bind]. eauto.
Qed.

(** A node of the finished heap. *)
Lemma link_node k arcs locs adds n x :
  let ns := nodes_from k arcs 0 locs in
  nth_error (add_all (map fst ns) adds) n = Some x ->
  exists x0 b l, nth_error ns n = Some (x0, b) /\ nth_error locs (n_loc x0) = Some l /\ In (x0, b) (nodes_for k arcs (n_loc x0) l) /\
    x = set_children x0 (stable_sort (order_leb (map fst ns)) (added adds n)).
Proof.
  cbv zeta. intros H. rewrite nth_add_all, nth_error_map in H.
  destruct (nth_error (nodes_from k arcs 0 locs) n) as [[x0 b]|] eqn:E; [|discriminate]. cbn [option_map fst] in H.
  pose proof (nth_error_In _ _ E) as Hin. apply nodes_from_in in Hin as (j & l & Hj & Hin). cbn [Nat.add] in Hin.
  pose proof (nodes_for_in _ _ _ _ _ _ Hin) as (Hl & _ & Hk). exists x0, b, l. rewrite Hl. repeat split; try assumption.
  rewrite Hk in H. cbn [app] in H. destruct (added adds n); [|congruence]. cbn. destruct x0; cbn in Hk |- *. unfold set_children. cbn. congruence.
Qed.

Lemma Permutation_filter_length {A} (f : A -> bool) l l' : Permutation l l' -> length (filter f l) = length (filter f l').
Proof. induction 1; cbn; repeat match goal with |- context [f ?x] => destruct (f x) end; cbn; congruence. Qed.
Lemma perm_count (l l' : list nat) c : Permutation l l' -> count_occ Nat.eq_dec l c = count_occ Nat.eq_dec l' c.
Proof. intros H. apply (Permutation_count_occ Nat.eq_dec), H. Qed.

Definition edge_ok (k : kind) (x : node) (l : loc) (y : node) (l' : loc) (e : edge) : bool :=
  str_eqb (fst (fst e)) (l_label l) && str_eqb (snd (fst e)) (l_label l') &&
  (negb (is_physical k) || (str_eqb (snd e) (n_role x) && str_eqb (snd e) (n_role y))).

(** A node of the heap before children are added. *)
Lemma made_for_start k arcs locs adds n x l :
  made_for (add_all (map fst (nodes_from k arcs 0 locs)) adds) locs n x l ->
  exists x0 b, nth_error (nodes_from k arcs 0 locs) n = Some (x0, b) /\ In (x0, b) (nodes_for k arcs (n_loc x) l) /\
    x = set_children x0 (stable_sort (order_leb (map fst (nodes_from k arcs 0 locs))) (added adds n)) /\
    made_for (map fst (nodes_from k arcs 0 locs)) locs n x0 l.
Proof.
  intros [Hn Hl]. apply link_node in Hn as (x0 & b & l0 & E & El & Hin & ->). cbn [n_loc set_children] in Hl.
  assert (l0 = l) as -> by congruence. exists x0, b. repeat split; try assumption. rewrite nth_error_map, E. reflexivity.
Qed.

Lemma link_count k eo ro arcs locs h nets dups p x l c y l' : parse_link k eo ro arcs locs = Ok (h, nets, dups) -> some_order eo ->
  made_for h locs p x l -> made_for h locs c y l' ->
  count_occ Nat.eq_dec (n_kids x) c = length (filter (edge_ok k x l y l') (map edge_of (fst (arc_pass arcs)))).
Proof.
  intros H Ho Hp Hc. apply parse_link_inv in H as (_ & _ & -> & _).
  apply made_for_start in Hp as (x0 & b & Ex & _ & -> & Mp). apply made_for_start in Hc as (y0 & b' & Ey & _ & -> & Mc).
  cbn [n_kids set_children]. rewrite <- (perm_count _ _ c (stable_sort_perm _ _)), count_added, count_concat by apply edge_adds_nodup.
  rewrite <- (Permutation_filter_length _ _ _ (Ho _)). f_equal. apply filter_ext. intros [[from to] role].
  destruct (in_dec _ _ _) as [Hi|Hi]; rewrite (edge_adds_in k locs _ from to role p c _ _ _ _ Mp Mc) in Hi; symmetry; unfold edge_ok; cbn [fst snd n_role set_children].
  - destruct Hi as (<- & <- & Hr). rewrite !str_eqb_refl. destruct (is_physical k); [|reflexivity]. destruct (Hr eq_refl) as [-> ->]. rewrite str_eqb_refl. reflexivity.
  - apply not_true_iff_false. rewrite andb_true_iff, andb_true_iff, orb_true_iff, andb_true_iff, !str_eqb_eq, negb_true_iff. intros [[-> ->] Hor].
    apply Hi. repeat split; destruct Hor as [E|[-> E]]; congruence.
Qed.

(** All children are nodes of the heap. *)
Lemma link_kids k eo ro arcs locs h nets dups p x c : parse_link k eo ro arcs locs = Ok (h, nets, dups) ->
  nth_error h p = Some x -> In c (n_kids x) -> exists y l', made_for h locs c y l'.
Proof.
  intros H Hp Hc. apply parse_link_inv in H as (_ & _ & -> & _).
  apply link_node in Hp as (x0 & b & l & E & El & Hin & ->). cbn [n_kids set_children] in Hc. apply stable_sort_in in Hc.
  unfold added in Hc. apply in_map_iff in Hc as ([p' c'] & <- & Hc). apply filter_In in Hc as [Hc _].
  apply in_concat in Hc as (ad & Had & Hc). apply in_map_iff in Had as ([[from to] role] & <- & _).
  unfold edge_adds in Hc. apply in_prod_iff in Hc as [_ Hc]. cbn [snd].
  assert (Hc' : In c' (nodes_lookup locs (map fst (nodes_from k arcs 0 locs)) to)).
  { destruct (is_physical k); [apply filter_In in Hc; tauto|exact Hc]. }
  apply lookup_in in Hc' as (y & l' & [Hy Hl'] & _). unfold made_for. rewrite nth_add_all, Hy. cbn [option_map].
  eexists _, l'. split; [reflexivity|]. destruct (added _ c'); exact Hl'.
Qed.

(** Every link element with an object has its nodes. *)
Lemma link_has_node k eo ro arcs locs h nets dups i l o : parse_link k eo ro arcs locs = Ok (h, nets, dups) ->
  nth_error locs i = Some l -> l_obj l = Some o ->
  (if is_physical k
   then forall role, (touches arcs (l_label l) role \/ (role = u "unknown" /\ forall r, ~ touches arcs (l_label l) r)) <->
          exists n x, made_for h locs n x l /\ n_loc x = i /\ n_role x = role
   else exists n x, made_for h locs n x l /\ n_loc x = i).
Proof.
  intros H Hl Ho. apply parse_link_inv in H as (_ & _ & -> & _).
  set (adds := concat _).
  assert (G : forall x0 b, In (x0, b) (nodes_for k arcs i l) -> exists n x, made_for (add_all (map fst (nodes_from k arcs 0 locs)) adds) locs n x l /\
     n_loc x = i /\ n_role x = n_role x0).
  { intros x0 b Hx. pose proof (nodes_for_in _ _ _ _ _ _ Hx) as (Hi & _ & _).
    assert (Hin : In (x0, b) (nodes_from k arcs 0 locs)) by (apply nodes_from_in; exists i, l; auto).
    apply In_nth_error in Hin as (n & En). exists n. unfold made_for. rewrite nth_add_all, nth_error_map, En. cbn [option_map fst].
    eexists. split; [split; [reflexivity|destruct (added adds n); cbn; congruence]|]. destruct (added adds n); cbn; auto. }
  assert (G' : forall n x, made_for (add_all (map fst (nodes_from k arcs 0 locs)) adds) locs n x l -> n_loc x = i ->
     exists b x0, In (x0, b) (nodes_for k arcs i l) /\ n_role x = n_role x0).
  { intros n x Hm Hi. apply made_for_start in Hm as (x0 & b & _ & Hin & -> & _). rewrite Hi in Hin. exists b, x0. auto. }
  unfold nodes_for in G, G'. rewrite Ho in G, G'. destruct (is_physical k).
  - intros role. destruct (touching_roles arcs (l_label l)) as [|r rs] eqn:E.
    + assert (Hno : forall r, ~ touches arcs (l_label l) r) by (intros r Hr; apply touching_roles_in in Hr; rewrite E in Hr; destruct Hr).
      split.
      * intros [Ht|[-> _]]; [destruct (Hno _ Ht)|]. apply (G _ _ (or_introl eq_refl)).
      * intros (n & x & Hm & Hi & <-). right. split; [|exact Hno]. destruct (G' _ _ Hm Hi) as (b & x0 & [Hx|[]] & ->). injection Hx as <- <-. reflexivity.
    + rewrite <- E in G, G'. split.
      * intros [Ht|[_ Hno]]; [|exfalso; apply (Hno r), touching_roles_in; rewrite E; left; reflexivity].
        apply touching_roles_in in Ht. destruct (G _ _ (in_map (fun role => (physical_node k arcs i (l_label l) o role, negb (is_target_of arcs (l_label l) role))) _ _ Ht)) as (n & x & Hm & Hi & Hr).
        exists n, x. destruct (physical_node_loc k arcs i (l_label l) o role) as (_ & _ & _ & Er). rewrite Hr, Er. auto.
      * intros (n & x & Hm & Hi & <-). left. destruct (G' _ _ Hm Hi) as (b & x0 & Hx & ->). apply in_map_iff in Hx as (role & Ex & Hrole).
        injection Ex as <- <-. destruct (physical_node_loc k arcs i (l_label l) o role) as (_ & _ & _ & ->). apply touching_roles_in, Hrole.
  - destruct (G _ _ (or_introl eq_refl)) as (n & x & Hm & Hi & _). eauto.
Qed.
(** Link element and role determine the node. *)
Lemma link_node_unique k eo ro arcs locs h nets dups n x m y : parse_link k eo ro arcs locs = Ok (h, nets, dups) ->
  nth_error h n = Some x -> nth_error h m = Some y -> n_loc x = n_loc y -> (is_physical k = true -> n_role x = n_role y) -> n = m.
Proof.
  intros H Hx Hy Hl Hr. apply parse_link_inv in H as (_ & _ & -> & _).
  apply link_node in Hx as (x0 & b & l & E & El & Hin & ->). apply link_node in Hy as (y0 & b' & l' & E' & El' & Hin' & ->).
  cbn [n_loc n_role set_children] in *.
  assert (Hkey : key x0 = key y0).
  { unfold key. f_equal; [exact Hl|]. destruct (is_physical k) eqn:Ep; [auto|].
    assert (l' = l) as -> by congruence. rewrite <- Hl in Hin'. unfold nodes_for in Hin, Hin'. rewrite Ep in Hin, Hin'.
    destruct (l_obj l); [|destruct Hin]. destruct Hin as [Hin|[]], Hin' as [Hin'|[]]. congruence. }
  pose proof (nodes_from_nodup k arcs locs 0) as Hn. rewrite NoDup_nth_error in Hn. apply Hn.
  - rewrite map_length. apply nth_error_Some. congruence.
  - rewrite !nth_error_map, E, E'. cbn. congruence.
Qed.
Lemma link_obj k eo ro arcs locs h nets dups n x : parse_link k eo ro arcs locs = Ok (h, nets, dups) ->
  nth_error h n = Some x -> exists l, made_for h locs n x l /\ l_obj l = Some (n_obj x).
Proof.
  intros H Hx. apply parse_link_inv in H as (_ & _ & -> & _). pose proof Hx as Hx'.
  apply link_node in Hx as (x0 & b & l & E & El & Hin & ->). exists l. split; [split; [exact Hx'|exact El]|].
  apply nodes_for_in in Hin. cbn. tauto.
Qed.

(** *** Attributes *)

Lemma find_with_role arcs role P : find (fun a => with_role role a && P a) arcs = find P (filter (with_role role) arcs).
Proof. rewrite find_filter. apply find_ext. intros a. apply andb_comm. Qed.

(** Where the attributes of a node come from. *)
Lemma link_attrs k eo ro arcs locs h nets dups n x l : parse_link k eo ro arcs locs = Ok (h, nets, dups) ->
  made_for h locs n x l ->
  exists kids x0, x = set_children x0 kids /\
    x0 = match find (into (l_label l)) (relevant k arcs x) with
         | Some a => from_arc k (n_loc x) (n_obj x) (l_label l) a
         | None => plain k (n_loc x) (n_obj x) (n_role x)
         end.
Proof.
  intros H Hm. apply parse_link_inv in H as (_ & _ & -> & _). apply made_for_start in Hm as (x0 & b & _ & Hin & -> & _).
  cbn [n_loc set_children] in Hin. eexists _, x0. split; [reflexivity|]. cbn [n_loc n_obj n_role set_children]. unfold relevant. cbn [n_role set_children].
  pose proof (nodes_for_in _ _ _ _ _ _ Hin) as (Hi & Ho & _).
  unfold nodes_for in Hin. rewrite Ho in Hin. destruct (is_physical k).
  - destruct (touching_roles arcs (l_label l)) as [|r rs] eqn:E.
    + destruct Hin as [Hin|[]]. injection Hin as Hx _.
      destruct (find (into (l_label l)) (filter (with_role (n_role x0)) arcs)) as [a|] eqn:Ef.
      * exfalso. apply find_some in Ef as [Ha Hia]. apply filter_In in Ha as [Ha _]. apply str_eqb_eq in Hia.
        assert (Ht : touches arcs (l_label l) (a_role a)) by (exists a; auto). apply touching_roles_in in Ht. rewrite E in Ht. destruct Ht.
      * rewrite <- Hx. reflexivity.
    + rewrite <- E in Hin. apply in_map_iff in Hin as (role & Ex & Hrole). injection Ex as Hx _.
      assert (Er : n_role x0 = role) by (rewrite <- Hx; apply physical_node_loc). rewrite Er, <- find_with_role.
      rewrite <- Hx at 1. unfold physical_node. destruct (find (fun a => with_role role a && into (l_label l) a) arcs) as [a|]; [reflexivity|].
      destruct (find (fun a => with_role role a && out_of (l_label l) a) arcs) as [a|] eqn:Ef; [|reflexivity].
      apply find_some in Ef as [_ Ef]. apply andb_prop in Ef as [Ew Eo]. unfold from_arc. rewrite Eo. apply str_eqb_eq in Ew. rewrite Ew. reflexivity.
  - destruct Hin as [Hin|[]]. injection Hin as Hx _. rewrite <- Hx at 1. unfold logical_node.
    destruct (find (into (l_label l)) arcs) as [a|] eqn:E1; [reflexivity|].
    destruct (find (out_of (l_label l)) arcs) as [a|] eqn:E2.
    + rewrite <- Hx. unfold logical_node. rewrite E1, E2. apply find_some in E2 as [_ Eo]. unfold from_arc. rewrite Eo. reflexivity.
    + rewrite <- Hx. unfold logical_node. rewrite E1, E2. reflexivity.
Qed.

(** *** Roots *)

Lemma flagged_in {A} (ns : list (A * bool)) n : forall i,
  (In n (map fst (filter (fun p => snd (snd p)) (combine (seq i (length ns)) ns))) <-> i <= n /\ exists x, nth_error ns (n - i) = Some (x, true)).
Proof.
  induction ns as [|[x b] ns IH]; intros i.
  - cbn. split; [intros []|intros (_ & x & E); destruct (n - i); discriminate].
  - cbn [length seq combine filter snd]. assert (G : In n (map fst (filter (fun p => snd (snd p)) (combine (seq (S i) (length ns)) ns))) <-> S i <= n /\ exists x0, nth_error ((x, b) :: ns) (n - i) = Some (x0, true)).
    { rewrite IH. split; intros (Hle & y & E); (split; [lia|]); exists y.
      - replace (n - i) with (S (n - S i)) by lia. exact E.
      - replace (n - i) with (S (n - S i)) in E by lia. exact E. }
    destruct b; cbn [map In fst].
    + rewrite G. split.
      * intros [->|(Hle & H)]; [rewrite Nat.sub_diag; split; [lia|]; cbn; eauto|split; [lia|exact H]].
      * intros (Hle & y & E). destruct (Nat.eq_dec i n) as [->|Hn]; [auto|]. right. split; [lia|eauto].
    + rewrite G. split; intros (Hle & y & E); (split; [|eauto]); [lia|].
      destruct (Nat.eq_dec i n) as [->|Hn]; [|lia]. rewrite Nat.sub_diag in E. discriminate.
Qed.
Lemma link_roots k eo ro arcs locs h nets dups n x l : parse_link k eo ro arcs locs = Ok (h, nets, dups) -> some_order ro ->
  made_for h locs n x l ->
  (In n (concat nets) <-> forall a, In a (relevant k arcs x) -> a_to a <> l_label l).
Proof.
  intros H Hro Hm. apply parse_link_inv in H as (_ & _ & -> & roots & Hroots & ->).
  assert (Hc : forall n, In n (concat (let role_of n := match nth_error (add_all (map fst (nodes_from k arcs 0 locs)) (concat (map (edge_adds k locs (map fst (nodes_from k arcs 0 locs))) (eo (map edge_of (fst (arc_pass arcs))))))) n with Some x => n_role x | None => [] end in
      if is_physical k then map (fun role => filter (fun n => str_eqb (role_of n) role) roots) (dedup (map role_of roots))
      else match roots with [] => [] | _ => [roots] end)) <-> In n roots).
  { clear. intros n. cbv zeta. set (role_of := fun n : nat => _). destruct (is_physical k).
    - rewrite in_concat. split.
      + intros (r & Hr & Hn). apply in_map_iff in Hr as (role & <- & _). apply filter_In in Hn. tauto.
      + intros Hn. exists (filter (fun m => str_eqb (role_of m) (role_of n)) roots). split.
        * apply in_map_iff. exists (role_of n). split; [reflexivity|]. apply dedup_spec, in_map, Hn.
        * apply filter_In. split; [exact Hn|apply str_eqb_refl].
    - destruct roots; cbn; [tauto|rewrite app_nil_r; tauto]. }
  rewrite Hc, Hroots. clear Hc. 
  assert (Hp := Hro (map fst (filter (fun p => snd (snd p)) (combine (seq 0 (length (nodes_from k arcs 0 locs))) (nodes_from k arcs 0 locs))))).
  assert (Hiff : In n (ro (map fst (filter (fun p => snd (snd p)) (combine (seq 0 (length (nodes_from k arcs 0 locs))) (nodes_from k arcs 0 locs))))) <->
    exists x, nth_error (nodes_from k arcs 0 locs) n = Some (x, true)).
  { split; intros Hi.
    - apply (Permutation_in _ (Permutation_sym Hp)) in Hi. apply flagged_in in Hi as (_ & y & E). rewrite Nat.sub_0_r in E. eauto.
    - apply (Permutation_in _ Hp). apply flagged_in. rewrite Nat.sub_0_r. split; [lia|exact Hi]. }
  rewrite Hiff. apply made_for_start in Hm as (x0 & b & E & Hin & -> & _). unfold relevant. cbn [n_role set_children n_loc] in *.
  rewrite E. transitivity (b = true); [split; [intros [y Hy]; congruence|intros ->; eauto]|]. clear -Hin.
  pose proof (nodes_for_in _ _ _ _ _ _ Hin) as (_ & Ho & _). unfold nodes_for in Hin. rewrite Ho in Hin.
  assert (Hex : forall P : arc -> bool, negb (existsb P arcs) = true <-> forall a, In a arcs -> P a = false).
  { intros P. rewrite negb_true_iff. split.
    - intros Hf a Ha. destruct (P a) eqn:Ep; [|reflexivity]. assert (existsb P arcs = true) by (apply existsb_exists; eauto). congruence.
    - intros Hf. apply not_true_iff_false. rewrite existsb_exists. intros (a & Ha & Ep). rewrite Hf in Ep by exact Ha. discriminate. }
  destruct (is_physical k).
  - destruct (touching_roles arcs (l_label l)) as [|r rs] eqn:Et.
    + destruct Hin as [Hin|[]]. injection Hin as _ <-. split; [|reflexivity]. intros _ a Ha Hto. apply filter_In in Ha as [Ha _].
      assert (Ht : touches arcs (l_label l) (a_role a)) by (exists a; auto). apply touching_roles_in in Ht. rewrite Et in Ht. destruct Ht.
    + rewrite <- Et in Hin. apply in_map_iff in Hin as (role & Ex & _). injection Ex as Hx <-.
      assert (Er : n_role x0 = role) by (rewrite <- Hx; apply physical_node_loc). rewrite Er. unfold is_target_of. rewrite Hex. split.
      * intros Hf a Ha Hto. apply filter_In in Ha as [Ha Hw]. specialize (Hf a Ha). rewrite Hw in Hf. unfold into in Hf. rewrite Hto, str_eqb_refl in Hf. discriminate.
      * intros Hf a Ha. destruct (with_role role a) eqn:Ew; [|reflexivity]. cbn. apply str_eqb_neq. apply Hf, filter_In. auto.
  - destruct Hin as [Hin|[]]. injection Hin as _ <-. unfold is_target. rewrite Hex. split.
    + intros Hf a Ha Hto. specialize (Hf a Ha). unfold into in Hf. rewrite Hto, str_eqb_refl in Hf. discriminate.
    + intros Hf a Ha. apply str_eqb_neq, Hf, Ha.
Qed.
