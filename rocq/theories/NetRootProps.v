(** C21: the root of a network that has just one. *)
From Verif Require Import Base NetModel NetSpec NetProofs NetLinkProofs NetCombineProofs NetProps.
Local Open Scope nat_scope.

(** A node for a link element that no (relevant) arc leads to. *)
Definition untargeted (k : kind) (arcs : list arc) (locs : list loc) (h : heap) (n : nat) : Prop :=
  exists x l, made_for h locs n x l /\ forall a, In a (relevant k arcs x) -> a_to a <> l_label l.

Lemma flagged_nodup {A} (ns : list (A * bool)) : forall s, NoDup (map fst (filter (fun p : nat * (A * bool) => snd (snd p)) (combine (seq s (length ns)) ns))).
Proof.
  induction ns as [|[a b] ns IH]; intros s; cbn; [constructor|]. destruct b; cbn; [|apply IH]. constructor; [|apply IH].
  intros Hi. apply in_map_iff in Hi as ((i & y) & <- & Hf). apply filter_In in Hf as [Hc _]. apply in_combine_l, in_seq in Hc. cbn in Hc. lia.
Qed.
Lemma networks_nodup k eo ro arcs locs h nets dups net : parse_link k eo ro arcs locs = Ok (h, nets, dups) -> some_order ro -> In net nets ->
  NoDup net /\ forall n, In n net -> exists x, nth_error h n = Some x.
Proof.
  intros H Hro Hnet. apply parse_link_inv in H as (_ & _ & -> & roots & Hroots & ->).
  set (ns := nodes_from k arcs 0 locs) in *. set (flagged := map fst (filter (fun p => snd (snd p)) (combine (seq 0 (length ns)) ns))) in *.
  assert (Hp : Permutation flagged roots) by (rewrite Hroots; apply Hro).
  assert (Hd : NoDup roots) by (apply (Permutation_NoDup Hp), flagged_nodup).
  assert (Hx : forall adds n, In n roots -> exists x, nth_error (add_all (map fst ns) adds) n = Some x).
  { intros adds n Hn. apply (Permutation_in _ (Permutation_sym Hp)) in Hn. apply flagged_in in Hn as (_ & y & E). rewrite Nat.sub_0_r in E.
    rewrite nth_add_all, nth_error_map, E. cbn. eauto. }
  cbv zeta in Hnet. destruct (is_physical k).
  - apply in_map_iff in Hnet as (role & <- & _). split; [apply NoDup_filter, Hd|]. intros n Hn. apply filter_In in Hn as [Hn _]. apply Hx, Hn.
  - destruct roots as [|r roots]; [destruct Hnet|]. destruct Hnet as [<-|[]]. split; [exact Hd|intros n; apply Hx].
Qed.

Section Link.
Variables (k : kind) (eo : list edge -> list edge) (ro : list nat -> list nat) (arcs : list arc) (locs : list loc).
Variables (h : heap) (nets : list (list nat)) (dups : list arc) (net : list nat).
Hypotheses (H : parse_link k eo ro arcs locs = Ok (h, nets, dups)) (Hro : some_order ro) (Hnet : In net nets).

Lemma root_untargeted n : In n net -> untargeted k arcs locs h n.
Proof.
  intros Hn. destruct (proj2 (networks_nodup _ _ _ _ _ _ _ _ _ H Hro Hnet) n Hn) as (x & Ex).
  destruct (link_obj _ _ _ _ _ _ _ _ _ _ H Ex) as (l & Hm & _). exists x, l. split; [exact Hm|].
  apply (C21_roots _ _ _ _ _ _ _ _ _ _ _ H Hro Hm). eauto.
Qed.

(** Asking for the root of a network gives a node no arc leads to, and all nodes of the network are below it;
    it fails, always with the documented error, just if two of the nodes of the network have no arc to them. *)
Theorem C21_root : 
  (forall r, get_root net = Ok r -> In r net /\ untargeted k arcs locs h r /\
     forall fuel all, get_all_nodes fuel h net = Some all -> forall n, In n all <-> reach h r n) /\
  (forall e, get_root net = Raise e -> e = ValueError /\
     exists n m, n <> m /\ In n net /\ In m net /\ untargeted k arcs locs h n /\ untargeted k arcs locs h m).
Proof.
  pose proof root_untargeted as Hu. pose proof (proj1 (networks_nodup _ _ _ _ _ _ _ _ _ H Hro Hnet)) as Hd.
  pose proof (proj1 (C21_networks _ _ _ _ _ _ _ _ H) net Hnet) as Hne. unfold get_root.
  destruct net as [|r [|r' rest]]; [congruence| |]; cbn [length Nat.ltb Nat.leb].
  - split; [|discriminate]. intros r0 E. injection E as <-. split; [left; reflexivity|]. split; [apply Hu; left; reflexivity|].
    intros fuel all Ha n. rewrite (proj2 (C18_all_nodes _ _ _ _ Ha) n). split; [intros (i & [<-|[]] & R); exact R|intros R; exists r; cbn; auto].
  - split; [discriminate|]. intros e E. injection E as <-. split; [reflexivity|]. exists r, r'. inversion Hd as [|? ? Hni]; subst.
    split; [intros ->; apply Hni; left; reflexivity|]. cbn in *. auto 10.
Qed.
(** In logical networks it answers just if the link has one such element. *)
Theorem C21_root_logical : is_physical k = false -> forall r,
  (get_root net = Ok r <-> untargeted k arcs locs h r /\ forall n, untargeted k arcs locs h n -> n = r).
Proof.
  intros Hk r. assert (Hall : forall n, untargeted k arcs locs h n -> In n net).
  { intros n (x & l & Hm & Hno). apply (C21_roots _ _ _ _ _ _ _ _ _ _ _ H Hro Hm) in Hno as (net' & Hin & Hn).
    pose proof (proj1 (proj2 (C21_networks _ _ _ _ _ _ _ _ H)) Hk) as Hl.
    destruct nets as [|a [|b more]]; [destruct Hin| |cbn in Hl; lia]. destruct Hin as [<-|[]], Hnet as [<-|[]]. exact Hn. }
  destruct C21_root as [Ha Hb]. split.
  - intros E. split; [apply (Ha r E)|]. intros n Hn. apply Hall in Hn. clear -E Hn. unfold get_root in E.
    destruct net as [|x [|y rest]]; cbn in E; [discriminate| |discriminate]. injection E as ->. destruct Hn as [<-|[]]. reflexivity.
  - intros [Hr Hone]. destruct (get_root net) as [r0|e] eqn:E.
    + f_equal. apply Hone, (Ha r0 eq_refl).
    + destruct (Hb e eq_refl) as (_ & n & m & Hnm & _ & _ & Hn & Hm). exfalso. apply Hnm. rewrite (Hone n Hn), (Hone m Hm). reflexivity.
Qed.
End Link.

(** One root; two roots. *)
Example ex_C21_root : exists h h', 
  parse_link KPresentation (fun l => rev l) (fun l => rev l) [arc' "b" "a" "r" 1 1; arc' "b" "c" "r" 1 1] locs_abc = Ok (h, [[1]], []) /\ get_root [1] = Ok 1 /\
  parse_link KPresentation (fun l => rev l) (fun l => rev l) [arc' "b" "c" "r" 1 1] locs_abc = Ok (h', [[1; 0]], []) /\ get_root [1; 0] = Raise ValueError.
Proof. do 2 eexists. repeat split. Qed.
Print Assumptions C21_root.
Print Assumptions C21_root_logical.
