(** The arc roles that a network says it has (C115). *)
From Coq Require Import QArith.
From Verif Require Import Base NetModel NetSpec NetProofs NetLinkProofs NetProps.
Local Open Scope nat_scope.

(** networks/i_network.py 84-90 get_arc_roles: the set of the roles of all nodes, as a list.  Its order is
    not determined; here the first occurrences in the list of the nodes. *)
Definition get_arc_roles (fuel : nat) (h : heap) (roots : list nat) : option (list str) :=
  option_map (fun nodes => dedup (map (fun n => match nth_error h n with Some x => n_role x | None => [] end) nodes))
             (get_all_nodes fuel h roots).

(** The role that a label has: that of the first arc to it, else of the first arc from it, else "unknown". *)
Inductive label_role (arcs : list arc) (s : str) : str -> Prop :=
| role_to a : first_arc arcs (fun b => a_to b = s) a -> label_role arcs s (a_role a)
| role_from a : (forall b, In b arcs -> a_to b <> s) -> first_arc arcs (fun b => a_from b = s) a -> label_role arcs s (a_role a)
| role_none : (forall b, In b arcs -> a_to b <> s /\ a_from b <> s) -> label_role arcs s (u "unknown").

(** The roles listed are those of the nodes, each once; the call ends unless a node is below itself. *)
Theorem C115_listed fuel h roots roles : get_arc_roles fuel h roots = Some roles -> (forall i, In i roots -> nth_error h i <> None) ->
  (forall i c, In c (get_children h i) -> nth_error h c <> None) ->
  NoDup roles /\ forall r, In r roles <-> exists i n x, In i roots /\ reach h i n /\ nth_error h n = Some x /\ n_role x = r.
Proof.
  unfold get_arc_roles. destruct (get_all_nodes fuel h roots) as [ns|] eqn:E; [|discriminate]. cbn [option_map]. intros H. injection H as <-.
  intros Hroots Hkids. destruct (C18_all_nodes _ _ _ _ E) as [_ Hin]. split; [apply dedup_spec|]. intros r.
  assert (D := proj2 (dedup_spec (map (fun n => match nth_error h n with Some x => n_role x | None => [] end) ns)) r).
  rewrite D, in_map_iff. clear D. split.
  - intros (n & En & Hn). apply Hin in Hn as (i & Hi & Hr). exists i, n. destruct (nth_error h n) as [x|] eqn:Ex.
    + exists x. auto.
    + exfalso. destruct Hr as [|j k Hr Hk]; [exact (Hroots i Hi Ex)|exact (Hkids _ _ Hk Ex)].
  - intros (i & n & x & Hi & Hr & Ex & Er). exists n. rewrite Ex. split; [exact Er|]. apply Hin. eauto.
Qed.
Theorem C115_ends_iff h roots : (exists fuel roles, get_arc_roles fuel h roots = Some roles) <-> forall i, In i roots -> acyclic h i.
Proof.
  rewrite <- C18_all_nodes_ends_iff. unfold get_arc_roles. split.
  - intros (fuel & roles & H). destruct (get_all_nodes fuel h roots) as [ns|] eqn:E; [eauto|discriminate].
  - intros (fuel & ns & H). exists fuel. rewrite H. eexists. reflexivity.
Qed.

Lemma first_of {P : arc -> bool} {Q : arc -> Prop} arcs a : (forall b, P b = true <-> Q b) -> find P arcs = Some a -> first_arc arcs Q a.
Proof.
  intros HP H. apply find_first_arc in H as (pre & post & E & Ha & Hn). exists pre, post. split; [exact E|]. split; [apply HP, Ha|].
  intros b Hb X. apply (Hn b Hb), HP, X.
Qed.
Lemma into_iff s b : into s b = true <-> a_to b = s.
Proof. apply str_eqb_eq. Qed.
Lemma out_iff s b : out_of s b = true <-> a_from b = s.
Proof. apply str_eqb_eq. Qed.

Section Link.
Context (k : kind) (eo : list edge -> list edge) (ro : list nat -> list nat) (arcs : list arc) (locs : list loc)
  (h : heap) (nets : list (list nat)) (dups : list arc).
Hypothesis H : parse_link k eo ro arcs locs = Ok (h, nets, dups).
Hypothesis Heo : some_order eo.
Hypothesis Hro : some_order ro.

(** The role of a node of a logical network *)
Lemma node_role n x l : is_physical k = false -> made_for h locs n x l -> label_role arcs (l_label l) (n_role x).
Proof.
  intros Hp Hm. pose proof H as H'. apply parse_link_inv in H' as (_ & _ & Eh & _). rewrite Eh in Hm.
  apply made_for_start in Hm as (x0 & b & _ & Hin & -> & _). cbn [n_role set_children n_loc] in *.
  pose proof (nodes_for_in _ _ _ _ _ _ Hin) as (_ & Ho & _). unfold nodes_for in Hin. rewrite Ho, Hp in Hin.
  destruct Hin as [Hin|[]]. injection Hin as Hx _. rewrite <- Hx. unfold logical_node.
  destruct (find (into (l_label l)) arcs) as [a|] eqn:E1.
  - assert (Ea : n_role (from_arc k (n_loc x0) (n_obj x0) (l_label l) a) = a_role a) by (unfold from_arc; destruct (out_of _ _); reflexivity).
    rewrite Ea. apply role_to. eapply first_of; [apply into_iff|exact E1].
  - assert (N1 : forall c, In c arcs -> a_to c <> l_label l).
    { intros c Hc X. apply (find_none _ _ E1) in Hc. apply into_iff in X. congruence. }
    destruct (find (out_of (l_label l)) arcs) as [a|] eqn:E2.
    + assert (Ea : n_role (from_arc k (n_loc x0) (n_obj x0) (l_label l) a) = a_role a) by (unfold from_arc; destruct (out_of _ _); reflexivity).
      rewrite Ea. apply role_from; [exact N1|]. eapply first_of; [apply out_iff|exact E2].
    + apply role_none. intros c Hc. split; [apply N1, Hc|]. intros X. apply (find_none _ _ E2) in Hc. apply out_iff in X. congruence.
Qed.

Lemma roots_there net i : In net nets -> In i net -> nth_error h i <> None.
Proof.
  intros Hnet Hi. assert (Hc : In i (concat nets)) by (apply in_concat; eauto).
  pose proof H as H'. apply parse_link_inv in H' as (_ & _ & Eh & roots & Er & En). 
  assert (Hr : In i roots).
  { rewrite En in Hnet. cbv zeta in Hnet. destruct (is_physical k).
    - apply in_map_iff in Hnet as (role & <- & _). apply filter_In in Hi. tauto.
    - destruct roots; [destruct Hnet|]. destruct Hnet as [<-|[]]. exact Hi. }
  rewrite Er in Hr. apply (Permutation_in _ (Permutation_sym (Hro _))) in Hr. apply flagged_in in Hr as (_ & x & Ex).
  rewrite Nat.sub_0_r in Ex. rewrite Eh, nth_add_all, nth_error_map, Ex. discriminate.
Qed.
Lemma kids_there i c : In c (get_children h i) -> nth_error h c <> None.
Proof. intros Hc. destruct (C19_children_inside _ _ _ _ _ _ _ _ _ _ H Hc) as (y & l & E & _). congruence. Qed.

(** The roles of a network of presentation, calculation or (logical) definition arcs: those of the labels one
    comes to. *)
Theorem C115_logical fuel net roles : is_physical k = false -> In net nets -> get_arc_roles fuel h net = Some roles ->
  NoDup roles /\ forall r, In r roles <-> exists s, comes arcs locs s /\ label_role arcs s r.
Proof.
  intros Hp Hnet Hg. destruct (C115_listed _ _ _ _ Hg (fun i => roots_there net i Hnet) kids_there) as [Hn Hin]. split; [exact Hn|].
  intros r. rewrite Hin. split.
  - intros (i & n & x & Hi & Hr & Ex & <-). destruct (link_obj _ _ _ _ _ _ _ _ _ _ H Ex) as (l & Hm & _).
    exists (l_label l). split; [|apply (node_role n); assumption].
    assert (C := proj1 (C21_reached _ _ _ _ _ _ _ _ _ _ _ H Heo Hro Hm)). unfold relevant in C. rewrite Hp in C. apply C. eauto.
  - intros (s & Hc & Hl).
    assert (Hf : found_label locs s) by (destruct Hc; assumption). destruct Hf as (l & o & Hlo & Es & Eo).
    apply In_nth_error in Hlo as (i & Ei). destruct (proj1 (C19_nodes_logical _ _ _ _ _ _ _ _ H Hp) i l o Ei Eo) as (n & x & Hm & _).
    assert (C := proj2 (C21_reached _ _ _ _ _ _ _ _ _ _ _ H Heo Hro Hm)). unfold relevant in C. rewrite Hp, Es in C.
    destruct (C Hc) as (net' & j & Hnet' & Hj & Hr).
    assert (net' = net) as ->.
    { destruct (C21_networks _ _ _ _ _ _ _ _ H) as (_ & Hlen & _). specialize (Hlen Hp).
      destruct nets as [|a [|b t]]; [destruct Hnet| |cbn in Hlen; lia]. destruct Hnet as [<-|[]], Hnet' as [<-|[]]. reflexivity. }
    exists j, n, x. split; [exact Hj|]. split; [exact Hr|]. split; [apply Hm|].
    assert (Hx := node_role n x l Hp Hm). rewrite Es in Hx.
    (* a label has one role *)
    assert (F : forall (Q : arc -> Prop) a b, first_arc arcs Q a -> first_arc arcs Q b -> a = b).
    { intros Q a b (p1 & q1 & E1 & P1 & N1) (p2 & q2 & E2 & P2 & N2). rewrite E1 in E2. clear -E2 P1 N1 P2 N2. revert p2 E2 N2.
      induction p1 as [|y p1 IH]; intros [|z p2] E N2; cbn in E; injection E as E' E.
      - exact E'.
      - exfalso. subst z. apply (N2 a); [left; reflexivity|exact P1].
      - exfalso. subst y. apply (N1 b); [left; reflexivity|exact P2].
      - subst z. apply (IH (fun c Hc => N1 c (or_intror Hc)) p2 E). intros c Hc. apply N2. right. exact Hc. }
    assert (T : forall Q a, first_arc arcs Q a -> In a arcs /\ Q a).
    { intros Q a (p & q & -> & P & _). split; [apply in_app_iff; right; left; reflexivity|exact P]. }
    destruct Hx as [a Ha|a Na Ha|Na], Hl as [b Hb|b Nb Hb|Nb]; try reflexivity;
      try (rewrite (F _ _ _ Ha Hb); reflexivity); exfalso;
      repeat match goal with X : first_arc _ _ _ |- _ => apply T in X as [? ?] end;
      match goal with I : In ?c arcs, N : forall b, In b arcs -> _ |- _ => solve [generalize (N c I); tauto] end.
Qed.

(** They are exactly the roles of the arcs if each label is reached by arcs of one role, every arc connects report
    elements that are found, every report element has an arc, and arcs do not go in circles. *)
Theorem C115_logical_partial fuel net roles : is_physical k = false -> In net nets -> get_arc_roles fuel h net = Some roles ->
  (forall a b, In a arcs -> In b arcs -> a_to a = a_to b -> a_role a = a_role b) ->
  (forall a, In a arcs -> found_label locs (a_from a) /\ found_label locs (a_to a)) ->
  (forall s, found_label locs s -> exists a, In a arcs /\ (a_from a = s \/ a_to a = s)) ->
  (forall s, ~ arc_path arcs s s) ->
  forall r, In r roles <-> exists a, In a arcs /\ a_role a = r.
Proof.
  intros Hp Hnet Hg H1 H2 H3 H4 r. destruct (C115_logical _ _ _ Hp Hnet Hg) as [_ Hin]. rewrite Hin. split.
  - assert (T : forall Q a, first_arc arcs Q a -> In a arcs).
    { intros Q a (p & q & -> & _). apply in_app_iff; right; left; reflexivity. }
    intros (s & Hc & Hl). destruct Hl as [a Ha|a _ Ha|Hn]; [eexists; split; [eapply T; exact Ha|reflexivity]..|].
    exfalso. assert (Hf : found_label locs s) by (destruct Hc; assumption). destruct (H3 s Hf) as (a & Ha & Hor). apply Hn in Ha. tauto.
  - intros (a & Ha & <-). destruct (proj2 (H2 a Ha)) as (l & o & Hlo & Es & Eo). apply In_nth_error in Hlo as (i & Ei).
    destruct (proj1 (C19_nodes_logical _ _ _ _ _ _ _ _ H Hp) i l o Ei Eo) as (n & x & Hm & _).
    exists (a_to a). split.
    + assert (C := proj1 (C21_reached _ _ _ _ _ _ _ _ _ _ _ H Heo Hro Hm)). unfold relevant in C. rewrite Hp, Es in C. apply C.
      apply (C21_all_reachable _ _ _ _ _ _ _ _ _ _ H Heo Hro (proj1 Hm)); unfold relevant; rewrite Hp; [exact H4|].
      intros b Hb. destruct (proj1 (H2 b Hb)) as (l' & o' & A & B & C'). eauto.
    + destruct (find (into (a_to a)) arcs) as [b|] eqn:E.
      * assert (Hb := find_some _ _ E). destruct Hb as [Hb Eb]. apply into_iff in Eb. rewrite (H1 a b Ha Hb) by congruence.
        apply role_to. eapply first_of; [apply into_iff|exact E].
      * exfalso. apply (find_none _ _ E) in Ha. assert (X : into (a_to a) a = true) by (apply into_iff; reflexivity). congruence.
Qed.

(** A network of labels, references or footnotes, or of definition arcs as they are written, has one arc role. *)
Theorem C115_physical fuel net roles : is_physical k = true -> In net nets -> get_arc_roles fuel h net = Some roles ->
  exists r, roles = [r] /\ ((exists a, In a arcs /\ a_role a = r) \/ r = u "unknown" /\ exists s, found_label locs s /\ forall a, In a arcs -> a_to a <> s /\ a_from a <> s).
Proof.
  intros Hp Hnet Hg. destruct (C115_listed _ _ _ _ Hg (fun i => roots_there net i Hnet) kids_there) as [Hn Hin].
  destruct (C21_networks _ _ _ _ _ _ _ _ H) as (Hne & _ & Hroles). specialize (Hne net Hnet). specialize (Hroles Hp).
  apply In_nth_error in Hnet as Hk. destruct Hk as [q Hq].
  destruct net as [|i0 net']; [congruence|]. set (net := i0 :: net') in *.
  destruct (nth_error h i0) as [x0|] eqn:E0; [|exfalso; apply (roots_there net i0 Hnet); [left; reflexivity|exact E0]].
  assert (Hsame : forall i n x, In i net -> reach h i n -> nth_error h n = Some x -> n_role x = n_role x0).
  { intros i n x Hi Hr. revert x. induction Hr as [|j c Hr IH Hc]; intros x Ex.
    - destruct (Hroles q q net net i i0 x x0 Hq Hq Hi (or_introl eq_refl) Ex E0) as [_ X]. apply X. reflexivity.
    - unfold get_children in Hc. destruct (nth_error h j) as [y|] eqn:Ey; [|destruct Hc].
      rewrite <- (IH y eq_refl). destruct (link_obj _ _ _ _ _ _ _ _ _ _ H Ey) as (l & Hm & _).
      destruct (link_obj _ _ _ _ _ _ _ _ _ _ H Ex) as (l' & Hm' & _).
      apply (proj2 (C19_physical_child_iff_arc _ _ _ _ _ _ _ _ _ _ _ H Heo Hp Hm) c x l' Hm') in Hc. tauto. }
  exists (n_role x0). split.
  - assert (Hr0 : In (n_role x0) roles) by (apply Hin; exists i0, i0, x0; repeat split; auto; [left; reflexivity|constructor]).
    assert (Hall : forall r, In r roles -> r = n_role x0) by (intros r Hr; apply Hin in Hr as (i & n & x & Hi & Hr & Ex & <-); eapply Hsame; eassumption).
    destruct roles as [|r1 [|r2 t]]; [destruct Hr0|rewrite (Hall r1 (or_introl eq_refl)); reflexivity|].
    exfalso. inversion Hn as [|? ? X _]; subst. apply X. left. rewrite (Hall r1), (Hall r2); [reflexivity|right; left; reflexivity|left; reflexivity].
  - destruct (link_obj _ _ _ _ _ _ _ _ _ _ H E0) as (l & Hm & Ho).
    assert (G := link_has_node _ _ _ _ _ _ _ _ (n_loc x0) l (n_obj x0) H (proj2 Hm) Ho). rewrite Hp in G.
    destruct (proj2 (G (n_role x0))) as [(a & Ha & _ & Er)|[Eu Hno]].
    + exists i0, x0. auto.
    + left. eauto.
    + right. split; [exact Eu|]. exists (l_label l). split; [exists l, (n_obj x0); split; [eapply nth_error_In, Hm|auto]|].
      intros a Ha. split; intros X; apply (Hno (a_role a)); exists a; auto.
Qed.
End Link.

(** The role of a second arc to a report element is not listed, and a report element without arcs adds the role "unknown". *)
Theorem C115_lost_refuted : exists h, parse_link KPresentation (fun l => l) (fun l => l)
    [arc' "a" "b" "r" 1 1; arc' "a" "c" "r" 1 1; arc' "b" "c" "s" 1 1] locs_abc = Ok (h, [[0]], []) /\
  get_arc_roles 5 h [0] = Some [u "r"].
Proof. eexists. split; reflexivity. Qed.
Theorem C115_unknown_refuted : exists h, parse_link KPresentation (fun l => l) (fun l => l)
    [arc' "a" "b" "r" 1 1] locs_abc = Ok (h, [[0; 2]], []) /\ get_arc_roles 5 h [0; 2] = Some [u "r"; u "unknown"].
Proof. eexists. split; reflexivity. Qed.

(** The hypotheses of [C115_logical_partial] can be met with two roles; those of [C115_physical] with two networks. *)
Definition two_roles : list arc := [arc' "a" "b" "r" 1 1; arc' "b" "c" "s" 1 1].
Example C115_logical_case : (exists h, parse_link KLogicalDefinition (fun l => l) (fun l => l) two_roles locs_abc = Ok (h, [[0]], []) /\
    get_arc_roles 5 h [0] = Some [u "r"; u "s"]) /\
  (forall a b, In a two_roles -> In b two_roles -> a_to a = a_to b -> a_role a = a_role b) /\
  (forall a, In a two_roles -> found_label locs_abc (a_from a) /\ found_label locs_abc (a_to a)) /\
  (forall s, found_label locs_abc s -> exists a, In a two_roles /\ (a_from a = s \/ a_to a = s)) /\
  (forall s, ~ arc_path two_roles s s).
Proof.
  split; [eexists; split; reflexivity|]. split; [|split; [|split]].
  - intros a b [<-|[<-|[]]] [<-|[<-|[]]] E; first [reflexivity|discriminate E].
  - assert (Fa : found_label locs_abc (u "a")) by (eexists (Loc (u "a") (con 1)), _; split; [left; reflexivity|split; reflexivity]).
    assert (Fb : found_label locs_abc (u "b")) by (eexists (Loc (u "b") (con 2)), _; split; [right; left; reflexivity|split; reflexivity]).
    assert (Fc : found_label locs_abc (u "c")) by (eexists (Loc (u "c") (con 3)), _; split; [right; right; left; reflexivity|split; reflexivity]).
    intros a [<-|[<-|[]]]; split; assumption.
  - intros s (l & o & [<-|[<-|[<-|[]]]] & <- & _).
    + exists (arc' "a" "b" "r" 1 1). split; [left; reflexivity|left; reflexivity].
    + exists (arc' "a" "b" "r" 1 1). split; [left; reflexivity|right; reflexivity].
    + exists (arc' "b" "c" "s" 1 1). split; [right; left; reflexivity|right; reflexivity].
  - assert (G : forall s t, arc_path two_roles s t -> (s = u "a" /\ (t = u "b" \/ t = u "c")) \/ (s = u "b" /\ t = u "c")).
    { induction 1 as [a Ha Hs|t a Hp IH Ha Hs].
      - destruct Ha as [<-|[<-|[]]]; subst s; [left|right]; split; auto.
      - destruct Ha as [<-|[<-|[]]]; cbn [a_from a_to arc'] in *; subst t.
        + destruct IH as [[_ [E|E]]|[_ E]]; discriminate E.
        + destruct IH as [[E _]|[_ E]]; [left; auto|discriminate E]. }
    intros s Hs. destruct (G s s Hs) as [[-> [E|E]]|[-> E]]; discriminate E.
Qed.
Example C115_physical_case : exists h, parse_link KPhysicalDefinition (fun l => l) (fun l => l) two_roles locs_abc = Ok (h, [[0]; [2]], []) /\
  get_arc_roles 5 h [0] = Some [u "r"] /\ get_arc_roles 5 h [2] = Some [u "s"].
Proof. eexists. split; [reflexivity|split; reflexivity]. Qed.

Print Assumptions C115_listed.
Print Assumptions C115_ends_iff.
Print Assumptions C115_logical.
Print Assumptions C115_logical_partial.
Print Assumptions C115_physical.
Print Assumptions C115_lost_refuted.
Print Assumptions C115_unknown_refuted.
