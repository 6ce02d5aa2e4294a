(** Property C107: which relationships of footnotes can be read. *)
From Coq Require Import QArith.
From Verif Require Import Base ErrBase ErrTable ErrModel ValueModel FootModel FootSpec FootProofs FootProps FootOpenSpec FootOpenProofs.
Local Open Scope nat_scope.

(** The relationships can be read if each has an order that is a number, and those of every pair of roles
    lead to what can be in their network. *)
Theorem C107_relationships (e : env) ns fs xs es : lists_sets (e_set e) ->
  ((exists nws es', parse_relationships e ns fs xs es = Ok (nws, es')) <->
   (forall x, In x xs -> has_order e x) /\ forall l r, group_fine e ns fs xs l r).
Proof.
  intros He. rewrite <- (relationships_iff e He ns fs xs es). split; [intros (nws & es' & H); eauto|intros ([nws es'] & H); eauto].
Qed.

(** There is one network for every pair of roles; it has the facts that relationships begin with, and the
    footnotes and true facts that they lead to. *)
Theorem C107_networks (e : env) ns fs xs es nws es' : lists_sets (e_set e) -> parse_relationships e ns fs xs es = Ok (nws, es') ->
  exists keys, NoDup keys /\ (forall l r, In (l, r) keys <-> exists x, In x xs /\ grouped e l r x) /\
    Forall2 (fun k nw => nw_linkrole nw = snd k /\
      forall id, (exists n, dict_get str_eqb (nw_nodes nw) id = Some n) <-> in_network e ns fs xs (fst k) (snd k) id) keys nws.
Proof.
  intros He. unfold parse_relationships. destruct (arcs_iff e ns fs xs es) as [_ B].
  destruct (parse_arcs e ns fs xs es) as [[arcs es1]|] eqn:E; cbn [bind]; [|discriminate]. specialize (B _ _ eq_refl).
  destruct (build_networks e ns fs arcs) as [nws'|] eqn:E'; cbn [bind]; [|discriminate]. intros [= <- _].
  destruct (group_spec arcs) as (N & K & J). exists (map fst (group arcs)). split; [exact N|]. split.
  - intros l r. rewrite K. split.
    + intros (a & Ha & Hk). destruct (proj1 (in_read e xs arcs l r B (fun _ _ => True))) as (x & Hx & Hg & _); [|eauto].
      exists a. split; [|exact Logic.I]. apply filter_In. split; [exact Ha|]. destruct (key_eqb_spec (key a) (l, r)); [reflexivity|contradiction].
    + intros (x & Hx & Hg). destruct (proj2 (in_read e xs arcs l r B (fun _ _ => True)) (ex_intro _ x (conj Hx (conj Hg Logic.I)))) as (a & Ha & _).
      apply filter_In in Ha as [Ha Hk]. exists a. split; [exact Ha|]. destruct (key_eqb_spec (key a) (l, r)); [assumption|discriminate].
  - clear N K. unfold build_networks in E'. revert nws' E' J. generalize (group arcs) as gs.
    induction gs as [|[[l r] g] gs IH]; intros nws' E' J; cbn [map_res map] in *; [injection E' as <-; constructor|].
    cbn [fst snd] in E'. destruct (build_network e ns fs g r) as [nw|] eqn:En; [|discriminate]. cbn [bind] in E'.
    destruct (map_res _ gs) as [nws1|] eqn:Em; [|discriminate]. cbn [bind] in E'. injection E' as <-.
    constructor; [|apply IH; [reflexivity|intros; apply J; right; assumption]]. cbn [fst snd]. split.
    + unfold build_network in En. destruct (create_nodes e ns fs g) as [[d roots]|]; [|discriminate]. cbn [bind] in En.
      destruct (connect d (pairs_of g)) as [d'|]; [|discriminate]. injection En as <-. reflexivity.
    + intros id. assert (M := network_nodes e He ns fs g r nw En id). rewrite (J (l, r) g (or_introl eq_refl)) in M.
      assert (L := in_read e xs arcs l r B (fun _ t => In id t)). assert (F := in_read e xs arcs l r B (fun f _ => In id f)).
      cbv beta in L, F. rewrite L, F in M. clear L F.
      assert (D : (exists n, dict_get str_eqb (nw_nodes nw) id = Some n) <-> dict_mem str_eqb (nw_nodes nw) id = true).
      { unfold dict_mem. destruct (dict_get str_eqb (nw_nodes nw) id); split; eauto; try discriminate. intros (n & [=]). }
      rewrite D, M. unfold in_network, led_to.
      assert (W : (exists x, In x xs /\ grouped e l r x /\ In id (to_read e x)) <-> exists x, In x xs /\ grouped e l r x /\ refers (r_to x) id)
        by (split; intros (x & H1 & H2 & H3); exists x; (split; [exact H1|split; [exact H2|apply (read_words e He), H3]])).
      assert (W' : (exists x, In x xs /\ grouped e l r x /\ In id (from_read e x)) <-> exists x, In x xs /\ grouped e l r x /\ refers (r_from x) id)
        by (split; intros (x & H1 & H2 & H3); exists x; (split; [exact H1|split; [exact H2|apply (read_words e He), H3]])).
      rewrite W, W'. reflexivity.
Qed.

(** ** Examples *)

(** Between a fact and a footnote, and from there to a true fact and back to nothing; then each fault on its
    own: no order, from a footnote, to a fact that is no boolean, to a false fact, to something unknown, from
    something unknown to nothing.  A false fact that nothing leads to does no harm. *)
Definition fs1 : facts := [(u "f1", u "1200"); (u "f2", u "true"); (u "f3", u "False")].
Definition rel1 (from to : string) (order : option str) : rel := Rel (Some (u from)) (Some (u to)) None None order.
Definition one : option str := Some (u "1").
Definition read1 (xs : list rel) : option exn := match parse_relationships env0 ns0 fs1 xs [] with Ok _ => None | Raise e => Some e end.
Example C107_example : map read1
  [[rel1 "f1" "fn1" one]; [rel1 "f1" "fn1 f2" one; rel1 "fn1" "f2" one; rel1 "f2" "fn2" one]; [rel1 "" "f3" one];
   [rel1 "f1" "fn1" None]; [rel1 "fn1" "fn2" one]; [rel1 "f2" "f1" one]; [rel1 "f1" "f3" one]; [rel1 "f1" "fn3" one]; [rel1 "f4" "" one]; [rel1 "" "f1" one]] =
  [None; None; None; Some UnboundLocalError; Some KeyError; Some ValueError; Some KeyError; Some KeyError; Some KeyError; Some ValueError].
Proof. vm_compute. reflexivity. Qed.
Example C107_example_fine : (forall x, In x [rel1 "f1" "fn1" one] -> has_order env0 x) /\ (forall l r, group_fine env0 ns0 fs1 [rel1 "f1" "fn1" one] l r) /\
  exists x, grouped env0 (u "http://www.xbrl.org/2003/role/link") (u "http://www.xbrl.org/2003/arcrole/fact-footnote") x /\ In x [rel1 "f1" "fn1" one].
Proof.
  assert (H : exists nws es', parse_relationships env0 ns0 fs1 [rel1 "f1" "fn1" one] [] = Ok (nws, es')) by (vm_compute; eauto).
  apply (C107_relationships env0 ns0 fs1 _ [] env0_sets) in H as [H1 H2]. split; [exact H1|]. split; [exact H2|].
  exists (rel1 "f1" "fn1" one). split; [|left; reflexivity]. split; left; auto.
Qed.
(** A relationship that is reported to be faulty, from a fact to nothing known, stops the reading. *)
Theorem C107_reported_refuted : ~ forall (e : env) ns fs xs es, lists_sets (e_set e) -> (forall x, In x xs -> has_order e x) ->
  exists nws es', parse_relationships e ns fs xs es = Ok (nws, es').
Proof.
  intros H. destruct (H env0 ns0 fs1 [rel1 "f1" "fn3" one] [] env0_sets) as (nws & es' & E); [|vm_compute in E; discriminate E].
  intros x [<-|[]]. exists (u "1"), 1%Q. split; [reflexivity|]. split; [discriminate|reflexivity].
Qed.

Print Assumptions C107_relationships.
Print Assumptions C107_networks.
Print Assumptions C107_reported_refuted.
