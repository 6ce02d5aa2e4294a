(** C44: footnote relationships become networks. C63: footnotes. *)
From Coq Require Import QArith Sorting.Sorted.
From Verif Require Import Base NetProofs ErrBase ErrTable ErrModel ErrProps ValueModel FootModel FootSpec FootProofs.
Local Open Scope nat_scope.

Lemma stands_given o d r : d <> [] -> (given_or o d = r <-> stands_for o d r).
Proof.
  intros Hd. unfold given_or, stands_for. destruct o as [[|c s]|]; cbn [given].
  - split; [intros <-; left; auto|]. intros [[_ ->]|[[= <-] H]]; congruence.
  - split; [intros <-; right; split; [reflexivity|discriminate]|].
    intros [[[H|H] _]|[[= <-] _]]; congruence.
  - split; [intros <-; left; auto|]. intros [[_ ->]|[[=] _]]; reflexivity.
Qed.

Lemma refers_in e o id : lists_sets (e_set e) -> (refers o id <-> In id (e_set e (words (text_of o)))).
Proof.
  intros He. destruct (He (words (text_of o))) as [_ H]. rewrite H. unfold refers. destruct o as [s|]; cbn [text_of].
  - rewrite words_spec. split; [intros (s' & [= <-] & Hw); exact Hw|eauto].
  - split; [intros (s' & [=] & _)|intros []].
Qed.

Lemma key_pair o1 o2 d1 d2 l r : d1 <> [] -> d2 <> [] ->
  (stands_for o1 d1 l /\ stands_for o2 d2 r <-> (given_or o1 d1, given_or o2 d2) = (l, r)).
Proof.
  intros H1 H2. rewrite <- (stands_given o1 d1 l H1), <- (stands_given o2 d2 r H2). split.
  - intros [<- <-]. reflexivity.
  - intros E. split; [exact (f_equal fst E)|exact (f_equal snd E)].
Qed.

Lemma linkrole_there : u "http://www.xbrl.org/2003/role/link" <> [].
Proof. discriminate. Qed.
Lemma arcrole_there : u "http://www.xbrl.org/2003/arcrole/fact-footnote" <> [].
Proof. discriminate. Qed.

Lemma in_group_key e l r x : in_group l r x <-> key (arc_of e x) = (l, r).
Proof. exact (key_pair (r_linkrole x) (r_arcrole x) _ _ l r linkrole_there arcrole_there). Qed.

Definition arcs_of (e : env) (xs : list rel) (k : str * str) : list arc :=
  filter (fun a => key_eqb (key a) k) (map (arc_of e) xs).

Lemma in_arcs_of e xs l r a : In a (arcs_of e xs (l, r)) <-> exists x, In x xs /\ in_group l r x /\ arc_of e x = a.
Proof.
  unfold arcs_of. rewrite filter_In, in_map_iff. split.
  - intros [(x & <- & Hx) Hk]. exists x. split; [exact Hx|]. split; [|reflexivity].
    apply (in_group_key e). destruct (key_eqb_spec (key (arc_of e x)) (l, r)); [assumption|discriminate].
  - intros (x & Hx & Hg & <-). split; [eauto|]. apply (in_group_key e) in Hg. rewrite Hg.
    destruct (key_eqb_spec (l, r) (l, r)); congruence.
Qed.

Lemma filter_map_split {A B} (f : B -> bool) (g : A -> B) xs before b after :
  filter f (map g xs) = before ++ b :: after ->
  exists xb x xa, xs = xb ++ x :: xa /\ g x = b /\ f b = true /\ filter f (map g xb) = before.
Proof.
  revert before; induction xs as [|x xs IH]; intros before E; [destruct before; discriminate|].
  cbn [map filter] in E. destruct (f (g x)) eqn:F.
  - destruct before as [|c before]; cbn [app] in E.
    + injection E as E _. exists [], x, xs. subst b. auto.
    + injection E as E1 E2. destruct (IH _ E2) as (xb & y & xa & -> & Ey & Fy & Eb).
      exists (x :: xb), y, xa. cbn [map filter]. rewrite F, Eb, E1. auto.
  - destruct (IH _ E) as (xb & y & xa & -> & Ey & Fy & Eb).
    exists (x :: xb), y, xa. cbn [map filter]. rewrite F, Eb. auto.
Qed.

Lemma first_node_from ns fs roots arcs id n : first_node ns fs roots arcs id = Some n ->
  exists a, In a arcs /\ n_arcrole n = a_arcrole a /\ n_linkrole n = a_linkrole a /\
    (n_target n = fact_of fs id /\ In id (a_from a) \/ n_target n = object_of ns fs id).
Proof.
  induction arcs as [|a arcs IH]; cbn [first_node]; [discriminate|].
  destruct (mem id (a_from a) && mem id roots) eqn:C.
  - intros [= <-]. exists a. apply andb_prop in C as [C _]. apply mem_spec in C. cbn; auto 6.
  - destruct (mem id (a_to a)).
    + intros [= <-]. exists a. cbn; auto 6.
    + intros H. destruct (IH H) as (b & Hb & H'). exists b. cbn; auto.
Qed.

Lemma first_node_target ns fs roots arcs id : ~ In id roots -> (exists a, In a arcs /\ In id (a_to a)) ->
  exists before a after n, arcs = before ++ a :: after /\ In id (a_to a) /\
    (forall b, In b before -> ~ In id (a_to b)) /\
    first_node ns fs roots arcs id = Some n /\ n_order n = a_order a.
Proof.
  intros Hr. induction arcs as [|a arcs IH]; intros (b & Hb & Hi); [destruct Hb|]. cbn [first_node].
  assert (mem id roots = false) as -> by (destruct (mem id roots) eqn:E; [apply mem_spec in E; contradiction|reflexivity]).
  rewrite andb_false_r. destruct (mem id (a_to a)) eqn:C.
  - apply mem_spec in C. exists [], a, arcs. eexists. split; [reflexivity|]. split; [exact C|]. split; [intros ? []|].
    split; reflexivity.
  - destruct IH as (before & a' & after & n & -> & H1 & H2 & H3 & H4).
    + destruct Hb as [<-|Hb]; [apply mem_spec in Hi; congruence|eauto].
    + exists (a :: before), a', after, n. split; [reflexivity|]. split; [exact H1|]. split; [|auto].
      intros c [<-|Hc]; [|auto]. intros F. apply mem_spec in F. congruence.
Qed.

Local Opaque u.

(** *** Counting children *)

Lemma count_once (l : list str) x : NoDup l ->
  count_occ (list_eq_dec N.eq_dec) l x = if mem x l then 1 else 0.
Proof.
  intros H. destruct (mem x l) eqn:E.
  - apply mem_spec in E. apply NoDup_count_occ'; assumption.
  - apply count_occ_not_In. intros F. apply mem_spec in F. congruence.
Qed.

Lemma count_app (l m : list str) x : count_occ (list_eq_dec N.eq_dec) (l ++ m) x =
  count_occ (list_eq_dec N.eq_dec) l x + count_occ (list_eq_dec N.eq_dec) m x.
Proof.
  induction l as [|y l IH]; [reflexivity|]. cbn [app count_occ]. destruct (list_eq_dec N.eq_dec y x); rewrite IH; reflexivity.
Qed.

Lemma tos_app p q id : tos (p ++ q) id = tos p id ++ tos q id.
Proof. unfold tos. rewrite filter_app, map_app. reflexivity. Qed.

Lemma tos_prod (f t : list str) id : NoDup f -> tos (list_prod f t) id = if mem id f then t else [].
Proof.
  induction f as [|x f IH]; intros H; [reflexivity|]. inversion_clear H as [|? ? Hn Hd].
  cbn [list_prod]. rewrite tos_app, IH by exact Hd. unfold mem at 2. cbn [existsb].
  assert (T : tos (map (fun y => (x, y)) t) id = if str_eqb x id then t else []).
  { clear IH. unfold tos. destruct (str_eqb x id) eqn:E.
    - induction t as [|y t IHt]; [reflexivity|]. cbn [map filter fst]. rewrite E. cbn [map snd]. f_equal; exact IHt.
    - induction t as [|y t IHt]; [reflexivity|]. cbn [map filter fst]. rewrite E. exact IHt. }
  rewrite T, (str_eqb_sym x id). destruct (str_eqb_spec id x) as [->|]; [|reflexivity]. cbn [orb].
  destruct (mem x f) eqn:E; [apply mem_spec in E; contradiction|]. apply app_nil_r.
Qed.

Lemma children_count e xs l r id to : lists_sets (e_set e) ->
  related_times (fun x => in_group l r x /\ refers (r_from x) id /\ refers (r_to x) to) xs
    (count_occ (list_eq_dec N.eq_dec) (tos (pairs_of (arcs_of e xs (l, r))) id) to).
Proof.
  intros He. unfold arcs_of. induction xs as [|x xs IH]; [constructor|]. cbn [map filter].
  destruct (key_eqb_spec (key (arc_of e x)) (l, r)) as [Hk|Hk].
  - apply (in_group_key e) in Hk. unfold pairs_of. cbn [flat_map]. rewrite tos_app, count_app, tos_prod by apply He.
    destruct (mem id (a_from (arc_of e x))) eqn:C1; cbn [arc_of a_from a_to] in *.
    + apply mem_spec in C1. rewrite count_once by apply He.
      destruct (mem to (e_set e (words (text_of (r_to x))))) eqn:C2.
      * apply mem_spec in C2. apply RYes; [|exact IH].
        split; [exact Hk|]. rewrite !(refers_in e) by exact He. auto.
      * apply RNo; [|exact IH]. intros (_ & _ & F). apply (refers_in e) in F; [|exact He].
        apply mem_spec in F. congruence.
    + cbn [count_occ plus]. apply RNo; [|exact IH]. intros (_ & F & _). apply (refers_in e) in F; [|exact He].
      apply mem_spec in F. congruence.
  - apply RNo; [|exact IH]. intros (F & _). apply (in_group_key e) in F. contradiction.
Qed.

Lemma count_sort leb (l : list str) x :
  count_occ (list_eq_dec N.eq_dec) (stable_sort leb l) x = count_occ (list_eq_dec N.eq_dec) l x.
Proof.
  symmetry. apply Permutation_count_occ. apply stable_sort_perm.
Qed.

Lemma sorted_between {A} (R : A -> A -> Prop) l a x b y c : StronglySorted R l -> l = a ++ x :: b ++ y :: c -> R x y.
Proof.
  intros H ->. induction a as [|z a IH]; cbn [app] in H; inversion_clear H as [|? ? H1 H2].
  - rewrite Forall_forall in H2. apply H2. apply in_or_app; right; cbn; auto.
  - auto.
Qed.

Lemma network_of_group e ns fs xs l r : lists_sets (e_set e) -> (forall x, In x xs -> proper e ns fs x) ->
  exists nw, build_network e ns fs (arcs_of e xs (l, r)) r = Ok nw /\ nw_linkrole nw = r /\
    is_network e ns fs xs l r nw.
Proof.
  intros He Hp.
  assert (RF : forall x id, refers (r_from x) id <-> In id (a_from (arc_of e x))) by (intros; apply (refers_in e), He).
  assert (RT : forall x id, refers (r_to x) id <-> In id (a_to (arc_of e x))) by (intros; apply (refers_in e), He).
  assert (KF : forall x id, In x xs -> refers (r_from x) id -> In id (map fst fs) /\ ~ In id (map fst ns)).
  { intros x id Hx (s & Es & Hw). destruct (Hp x Hx) as ((s' & Es' & _ & H) & _).
    rewrite Es in Es'. injection Es' as <-. auto. }
  assert (KT : forall x id, In x xs -> refers (r_to x) id -> In id (map fst ns)).
  { intros x id Hx (s & Es & Hw). destruct (Hp x Hx) as (_ & (s' & Es' & _ & H) & _).
    rewrite Es in Es'. injection Es' as <-. auto. }
  assert (Kn : known ns fs (arcs_of e xs (l, r))).
  { intros a Ha. apply in_arcs_of in Ha as (x & Hx & _ & <-). split; intros id Hi.
    - apply RF in Hi. eapply KF; eauto.
    - apply RT in Hi. eapply KT; eauto. }
  destruct (build_spec e ns fs He (arcs_of e xs (l, r)) r Kn) as (nw & E & El & Er & G).
  exists nw. split; [exact E|]. split; [exact El|].
  assert (FM : forall P : arc -> Prop, (exists a, In a (arcs_of e xs (l, r)) /\ P a) <->
                 exists x, In x xs /\ in_group l r x /\ P (arc_of e x)).
  { intros P. split.
    - intros (a & Ha & HP). apply in_arcs_of in Ha as (x & Hx & Hg & <-). eauto.
    - intros (x & Hx & Hg & HP). exists (arc_of e x). split; [apply in_arcs_of; eauto|exact HP]. }
  assert (RI : forall id, In id (nw_roots nw) <->
     (exists x, In x xs /\ in_group l r x /\ refers (r_from x) id) /\
     ~ exists x, In x xs /\ in_group l r x /\ refers (r_to x) id).
  { intros id. rewrite Er, (roots_in e He). rewrite (FM (fun a => In id (a_from a))), (FM (fun a => In id (a_to a))).
    split; intros [H1 H2]; (split; [destruct H1 as (x & Hx & Hg & Hi); exists x; rewrite RF in *; auto|
      intros (x & Hx & Hg & Hi); apply H2; exists x; rewrite RT in *; auto]). }
  split; [|split; [|split; [|split]]].
  - intros id. rewrite G. transitivity (exists n, first_node ns fs (roots_of e (arcs_of e xs (l, r))) (arcs_of e xs (l, r)) id = Some n).
    { split; intros (n & H).
      - destruct (first_node _ _ _ _ _); [eauto|discriminate].
      - rewrite H. cbn. eauto. }
    rewrite (first_node_some e ns fs He), (FM (fun a => In id (a_from a) \/ In id (a_to a))).
    split; intros (x & Hx & Hg & H); exists x; rewrite RF, RT in *; auto.
  - intros id n Hn. rewrite G in Hn.
    destruct (first_node ns fs _ _ id) as [m|] eqn:Em; [|discriminate]. cbn [option_map] in Hn. injection Hn as <-.
    cbn [with_kids n_target n_kids n_arcrole n_linkrole].
    destruct (first_node_from _ _ _ _ _ _ Em) as (a & Ha & -> & -> & Ht).
    apply in_arcs_of in Ha as (x & Hx & Hg & <-). pose proof Hg as Hk. apply (in_group_key e) in Hk.
    rewrite (f_equal fst Hk : a_linkrole (arc_of e x) = l), (f_equal snd Hk : a_arcrole (arc_of e x) = r). split; [reflexivity|]. split; [reflexivity|]. split; [|split].
    + fold (fact_of fs id). fold (object_of ns fs id). destruct Ht as [[Ht Hf]|Ht]; [|exact Ht].
      rewrite Ht. apply RF in Hf. apply KF in Hf as [_ Hf]; [|exact Hx].
      unfold object_of. destruct (dict_get str_eqb ns id) as [f|] eqn:Ed; [|reflexivity].
      exfalso. apply Hf. apply dict_mem_in. unfold dict_mem. rewrite Ed. reflexivity.
    + intros to. rewrite count_sort. apply children_count, He.
    + intros a y b z c Ek.
      assert (S : StronglySorted (le (ord_leb (nw_nodes nw))) (stable_sort (ord_leb (nw_nodes nw)) (tos (pairs_of (arcs_of e xs (l, r))) id))).
      { apply stable_sort_sorted; [apply ord_total|apply ord_trans]. }
      pose proof (sorted_between _ _ _ _ _ _ _ S Ek) as H. unfold le, ord_leb in H. apply Qle_bool_iff, H.
  - rewrite Er. apply He.
  - exact RI.
  - intros id Hi. assert (Hr : ~ In id (nw_roots nw)) by (intros F; apply RI in F as [_ F]; auto).
    rewrite Er in Hr.
    assert (Hi' : exists a, In a (arcs_of e xs (l, r)) /\ In id (a_to a)).
    { apply (FM (fun a => In id (a_to a))). destruct Hi as (x & Hx & Hg & H). exists x. rewrite RT in H. auto. }
    destruct (first_node_target ns fs _ _ _ Hr Hi') as (before & a & after & n & Es & H1 & H2 & H3 & H4).
    unfold arcs_of in Es. destruct (filter_map_split _ _ _ _ _ _ Es) as (xb & x & xa & Ex & Ea & Fa & Eb).
    assert (Hx : In x xs) by (rewrite Ex; apply in_elt).
    destruct (Hp x Hx) as (_ & _ & _ & _ & (s & q & Eo & _ & Eq & _)).
    exists xb, x, xa, s. split; [exact Ex|]. subst a. split; [|split; [|split; [|split]]].
    + apply (in_group_key e). destruct (key_eqb_spec (key (arc_of e x)) (l, r)); [assumption|discriminate].
    + apply RT, H1.
    + intros y Hy [Hg Hr']. apply RT in Hr'. apply (H2 (arc_of e y)); [|exact Hr'].
      rewrite <- Eb. apply filter_In. split; [apply in_map, Hy|]. apply (in_group_key e) in Hg. rewrite Hg.
      destruct (key_eqb_spec (l, r) (l, r)); congruence.
    + exact Eo.
    + unfold order_of. rewrite G. fold (arcs_of e xs (l, r)) in *. rewrite H3. cbn [option_map with_kids n_order].
      rewrite H4. unfold arc_of. cbn [a_order]. rewrite Eo, Eq. reflexivity.
Qed.

(** Relationships from facts to footnotes of the document that have an order other than 0 become
    one network for each pair of link role and arc role that occurs, with the relationships of the
    group as arcs, and nothing is reported. What is missing from the property: the link role of the
    network object, which is the arc role. *)
Theorem C44_networks_partial (e : env) (ns : notes) (fs : facts) (xs : list rel) (es : erepo) :
  lists_sets (e_set e) -> (forall x, In x xs -> proper e ns fs x) ->
  exists nws keys, parse_relationships e ns fs xs es = Ok (nws, es) /\
    NoDup keys /\ (forall l r, In (l, r) keys <-> exists x, In x xs /\ in_group l r x) /\
    Forall2 (fun k nw => is_network e ns fs xs (fst k) (snd k) nw /\ nw_linkrole nw = snd k) keys nws.
Proof.
  intros He Hp. unfold parse_relationships. rewrite parse_arcs_proper by assumption. cbn [bind].
  destruct (group_spec (map (arc_of e) xs)) as (N & K & F).
  assert (B : exists nws, build_networks e ns fs (map (arc_of e) xs) = Ok nws /\
    Forall2 (fun g nw => is_network e ns fs xs (fst (fst g)) (snd (fst g)) nw /\ nw_linkrole nw = snd (fst g))
      (group (map (arc_of e) xs)) nws).
  { unfold build_networks. clear N K. revert F. generalize (group (map (arc_of e) xs)). intros gs F.
    induction gs as [|[[l r] arcs] gs IH]; [exists []; split; [reflexivity|constructor]|].
    cbn [map_res]. pose proof (F (l, r) arcs ltac:(cbn; auto)) as ->. cbn [snd fst].
    destruct (network_of_group e ns fs xs l r He Hp) as (nw & E & El & Hn). unfold arcs_of in E. rewrite E. cbn [bind].
    destruct IH as (nws & -> & Hf); [intros; apply F; cbn; auto|]. cbn [bind].
    exists (nw :: nws). split; [reflexivity|]. constructor; [cbn; auto|exact Hf]. }
  destruct B as (nws & -> & Hf). cbn [bind]. exists nws, (map fst (group (map (arc_of e) xs))).
  split; [reflexivity|]. split; [exact N|]. split.
  - intros l r. rewrite K. split.
    + intros (a & Ha & Hk). apply in_map_iff in Ha as (x & <- & Hx). exists x. split; [exact Hx|]. apply (in_group_key e), Hk.
    + intros (x & Hx & Hg). exists (arc_of e x). split; [apply in_map, Hx|]. apply (in_group_key e), Hg.
  - revert Hf. generalize (group (map (arc_of e) xs)). intros gs Hf. induction Hf; cbn [map]; constructor; auto.
Qed.

Local Transparent u.

(** *** What does not hold *)

Definition env0 : env :=
  Env (fun _ => true) (fun s => if str_eqb s (u "2") then Some 2%Q else if str_eqb s (u "0") then Some 0%Q else Some 1%Q)
      (nodup (list_eq_dec N.eq_dec)) (fun _ => []).
Lemma env0_sets : lists_sets (e_set env0).
Proof. intros l. split; [apply NoDup_nodup|]. intros x. apply nodup_In. Qed.
Definition fn1 : note := Note (u "A note") (u "fn1") (u "en") default_role None.
Definition fn2 : note := Note (u "Another note") (u "fn2") (u "en") default_role None.
Definition ns0 : notes := [(u "fn1", fn1); (u "fn2", fn2)].
Definition fs0 : facts := [(u "f1", u "1200"); (u "f2", u "true")].
Definition rel0 (to : string) (order : option str) : rel := Rel (Some (u "f1")) (Some (u to)) None None order.

Lemma proper0 o q : o <> [] -> e_float env0 o = Some q -> ~ q == 0 -> proper env0 ns0 fs0 (rel0 "fn1" (Some o)).
Proof.
  intros H1 H2 H3. unfold proper, rel0. cbn [r_from r_to r_arcrole r_linkrole r_order]. repeat split; try discriminate.
  - exists (u "f1"). split; [reflexivity|]. split; [discriminate|]. intros w Hw.
    apply words_spec in Hw. vm_compute in Hw. destruct Hw as [<-|[]].
    split; [vm_compute; auto|]. vm_compute. intuition discriminate.
  - exists (u "fn1"). split; [reflexivity|]. split; [discriminate|]. intros w Hw.
    apply words_spec in Hw. vm_compute in Hw. destruct Hw as [<-|[]]. vm_compute; auto.
  - exists o, q. auto.
Qed.
Lemma proper1 : proper env0 ns0 fs0 (rel0 "fn1" (Some (u "1"))).
Proof. apply (proper0 _ 1%Q); [discriminate|reflexivity|intros F; discriminate F]. Qed.
Lemma proper2 : proper env0 ns0 fs0 (rel0 "fn1" (Some (u "2"))).
Proof. apply (proper0 _ 2%Q); [discriminate|reflexivity|intros F; discriminate F]. Qed.

(** The link role of a network is the arc role of its relationships. *)
Theorem C44_link_role_refuted : ~ forall (e : env) ns fs xs es nws,
  lists_sets (e_set e) -> (forall x, In x xs -> proper e ns fs x) ->
  parse_relationships e ns fs xs es = Ok (nws, es) ->
  forall nw, In nw nws -> exists x r, In x xs /\ in_group (nw_linkrole nw) r x.
Proof.
  intros H. set (xs := [rel0 "fn1" (Some (u "2"))]).
  assert (P : forall x, In x xs -> proper env0 ns0 fs0 x) by (intros x [<-|[]]; apply proper2).
  destruct (C44_networks_partial env0 ns0 fs0 xs [] env0_sets P) as (nws & ks & E & _).
  pose proof (H _ _ _ _ _ _ env0_sets P E) as G.
  revert E. vm_compute. intros [= <-]. specialize (G _ (or_introl eq_refl)) as (x & r & [<-|[]] & [Hl _]).
  destruct Hl as [[_ Hl]|[Hl _]]; vm_compute in Hl; discriminate Hl.
Qed.

(** A relationship without an order, or with an order that is no number, stops the parsing. *)
Theorem C44_no_order (e : env) x es : given (r_order x) = None ->
  (forall s, e_uri e s = true) -> parse_attributes e x es = Raise UnboundLocalError.
Proof.
  intros Ho Hu. unfold parse_attributes. rewrite Ho.
  destruct (given (r_arcrole x)); [rewrite Hu|]; cbn [bind]; destruct (given (r_linkrole x)); try rewrite Hu; reflexivity.
Qed.

Theorem C44_default_order_refuted : ~ forall (e : env) ns fs x es,
  lists_sets (e_set e) -> proper e ns fs (Rel (r_from x) (r_to x) (r_arcrole x) (r_linkrole x) (Some (u "1"))) ->
  r_order x = None -> exists p, parse_relationship e ns fs x es = Ok p.
Proof.
  intros H. destruct (H env0 ns0 fs0 (rel0 "fn1" None) [] env0_sets) as (p & E).
  - apply proper1.
  - reflexivity.
  - vm_compute in E. discriminate E.
Qed.

(** The order 0 becomes 1. *)
Theorem C44_zero_order_refuted : ~ forall (e : env) ns fs x es a es' s q,
  r_order x = Some s -> e_float e s = Some q -> parse_relationship e ns fs x es = Ok (a, es') -> a_order a == q.
Proof.
  intros H. destruct (parse_relationship env0 ns0 fs0 (rel0 "fn1" (Some (u "0"))) []) as [[a es']|] eqn:E;
    [|vm_compute in E; discriminate].
  specialize (H env0 ns0 fs0 (rel0 "fn1" (Some (u "0"))) [] a es' (u "0") 0%Q eq_refl eq_refl E).
  revert E. vm_compute. intros [= <- <-]. vm_compute in H. discriminate H.
Qed.

(** A target that is neither a footnote nor a fact with the text "true" stops the parsing, be it
    an unknown identifier or any other fact of the filing. *)
Lemma add_from_skips fs roots a ids id : ~ In id roots -> forall d d',
  add_from fs roots a ids d = Ok d' -> dict_get str_eqb d' id = dict_get str_eqb d id.
Proof.
  intros Hr. induction ids as [|i ids IH]; cbn [add_from]; intros d d'; [intros [= <-]; reflexivity|].
  destruct (negb (dict_mem str_eqb d i) && mem i roots) eqn:C; [|apply IH].
  destruct (get_by_id fs i); [|discriminate]. cbn [bind]. intros E. rewrite (IH _ _ E), get_set.
  destruct (str_eqb_spec id i) as [->|]; [|reflexivity]. apply andb_prop in C as [_ C]. apply mem_spec in C. contradiction.
Qed.

Lemma add_to_skips ns fs a ids id : dict_get str_eqb ns id = None ->
  (forall t, dict_get str_eqb fs id = Some t -> fact_bool t <> Ok true) -> forall d d',
  add_to ns fs a ids d = Ok d' -> dict_get str_eqb d' id = dict_get str_eqb d id.
Proof.
  intros Hn Hf. induction ids as [|i ids IH]; cbn [add_to]; intros d d'; [intros [= <-]; reflexivity|].
  destruct (negb (dict_mem str_eqb d i)) eqn:C; [|apply IH].
  destruct (match dict_get str_eqb ns i with Some n => Ok (TNote n) | None => get_by_id fs i end) as [o|] eqn:Eo; [|discriminate].
  cbn [bind]. destruct (truth o) as [b|] eqn:Et; [|discriminate]. cbn [bind]. destruct b; [|apply IH].
  intros E. rewrite (IH _ _ E), get_set. destruct (str_eqb_spec id i) as [->|]; [|reflexivity]. exfalso.
  rewrite Hn in Eo. unfold get_by_id in Eo. destruct (dict_get str_eqb fs i) as [t|]; [|discriminate].
  injection Eo as <-. cbn in Et. apply (Hf t eq_refl Et).
Qed.

Lemma connect_members pairs : forall d d', connect d pairs = Ok d' ->
  forall p, In p pairs -> dict_mem str_eqb d (snd p) = true.
Proof.
  induction pairs as [|[f t] pairs IH]; intros d d' E p Hp; [destruct Hp|]. cbn [connect] in E.
  destruct (dict_mem str_eqb d f && dict_mem str_eqb d t) eqn:C; [|discriminate]. apply andb_prop in C as [C1 C2].
  destruct Hp as [<-|Hp]; [exact C2|]. pose proof (IH _ _ E p Hp) as H.
  revert H. unfold dict_mem. rewrite add_child_get. destruct (str_eqb (snd p) f); [|auto].
  destruct (dict_get str_eqb d (snd p)); auto.
Qed.

Theorem C44_other_target (e : env) ns fs arcs l a from id :
  lists_sets (e_set e) -> In a arcs -> In from (a_from a) -> In id (a_to a) ->
  dict_get str_eqb ns id = None ->
  (forall t, dict_get str_eqb fs id = Some t -> fact_bool t <> Ok true) ->
  ~ exists nw, build_network e ns fs arcs l = Ok nw.
Proof.
  intros He Ha Hf Ht Hn Hb (nw & E). unfold build_network, create_nodes in E. fold (roots_of e arcs) in E.
  destruct (add_arcs ns fs (roots_of e arcs) arcs []) as [d|] eqn:Ed; [|discriminate]. cbn [bind] in E.
  destruct (forallb (dict_mem str_eqb d) (roots_of e arcs)); [|discriminate]. cbn [bind] in E.
  destruct (connect d (pairs_of arcs)) as [d'|] eqn:Ec; [|discriminate].
  assert (Hr : ~ In id (roots_of e arcs)) by (intros F; apply (roots_in e He) in F as [_ F]; apply F; eauto).
  assert (G : forall l d d', add_arcs ns fs (roots_of e arcs) l d = Ok d' -> dict_get str_eqb d' id = dict_get str_eqb d id).
  { clear -Hr Hn Hb. induction l as [|b l IH]; cbn [add_arcs]; intros d d'; [intros [= <-]; reflexivity|].
    destruct (add_from fs (roots_of e arcs) b (a_from b) d) as [d1|] eqn:E1; [|discriminate]. cbn [bind].
    destruct (add_to ns fs b (a_to b) d1) as [d2|] eqn:E2; [|discriminate]. cbn [bind]. intros E.
    rewrite (IH _ _ E), (add_to_skips _ _ _ _ _ Hn Hb _ _ E2), (add_from_skips _ _ _ _ _ Hr _ _ E1). reflexivity. }
  apply G in Ed. cbn in Ed. pose proof (connect_members _ _ _ Ec (from, id)) as M.
  cbn [snd] in M. unfold dict_mem in M. rewrite Ed in M. discriminate M. apply in_pairs. eauto.
Qed.

(** In particular relationships between facts *)
Theorem C44_fact_target_refuted : ~ forall (e : env) ns fs arcs l,
  lists_sets (e_set e) ->
  (forall a id, In a arcs -> In id (a_from a) \/ In id (a_to a) -> In id (map fst fs)) ->
  exists nw, build_network e ns fs arcs l = Ok nw.
Proof.
  intros H.
  apply (C44_other_target env0 [] fs0 [Arc [u "f2"] [u "f1"] [] [] 1%Q] [] (Arc [u "f2"] [u "f1"] [] [] 1%Q)
           (u "f2") (u "f1") env0_sets); try (cbn; auto; fail).
  - intros t [= <-] F. discriminate F.
  - apply (H env0 [] fs0 _ [] env0_sets). intros a id [<-|[]]. cbn. intuition.
Qed.

(** A footnote that two relationships of a group lead to keeps the order of the first. *)
Theorem C44_shared_order_refuted : ~ forall (e : env) ns fs xs es nws,
  lists_sets (e_set e) -> (forall x, In x xs -> proper e ns fs x) ->
  parse_relationships e ns fs xs es = Ok (nws, es) ->
  forall x s q id, In x xs -> r_order x = Some s -> e_float e s = Some q -> refers (r_to x) id ->
  exists nw, In nw nws /\ order_of (nw_nodes nw) id == q.
Proof.
  intros H. set (xs := [rel0 "fn1" (Some (u "1")); rel0 "fn1" (Some (u "2"))]).
  assert (P : forall x, In x xs -> proper env0 ns0 fs0 x).
  { intros x [<-|[<-|[]]]; [apply proper1|apply proper2]. }
  destruct (C44_networks_partial env0 ns0 fs0 xs [] env0_sets P) as (nws & ks & E & _).
  destruct (H _ _ _ _ _ _ env0_sets P E (rel0 "fn1" (Some (u "2"))) (u "2") 2%Q (u "fn1")) as (nw & Hin & Ho).
  - cbn; auto.
  - reflexivity.
  - reflexivity.
  - exists (u "fn1"). split; [reflexivity|]. apply words_spec. vm_compute; auto.
  - revert E. vm_compute. intros [= <-]. destruct Hin as [<-|[]]. vm_compute in Ho. discriminate Ho.
Qed.

(** Two footnotes of a fact come in the order of their relationships. *)
Example C44_example :
  match parse_relationships env0 ns0 fs0 [rel0 "fn1" (Some (u "2")); rel0 "fn2" (Some (u "1"))] [] with
  | Ok ([nw], _) => nw_roots nw = [u "f1"] /\
      option_map n_kids (dict_get str_eqb (nw_nodes nw) (u "f1")) = Some [u "fn2"; u "fn1"]
  | _ => False
  end.
Proof. vm_compute. auto. Qed.

(** *** C63: footnotes *)

(** Every footnote element with an identifier becomes a footnote with the content, role and
    language written, the last one of an identifier; without a role or a language it has the
    default role and English. *)
Definition the_note (e : env) (x : note_elem) (id : str) : note :=
  Note (ne_content x) id
    (match ne_lang x with Some (c :: l) => c :: l | _ => u "en" end)
    (match ne_role x with Some r => if e_uri e r then r else u "http://www.xbrl.org/2003/role/footnote"
                        | None => u "http://www.xbrl.org/2003/role/footnote" end)
    (ne_title x).

Lemma insert_foot es code x kw : In (code, map fst kw)
    [("IXBRL_FOOTNOTE_WITHOUT_ID"%string, []); ("IXBRL_DUPLICATE_ELEMENT_ID"%string, [u "id"]);
     ("IXBRL_INVALID_FOOTNOTE_ROLE"%string, [u "id"; u "role"]); ("IXBRL_FOOTNOTE_WITHOUT_LANGUAGE"%string, [u "id"])] ->
  exists es', insert (elem := felem) es code x kw = Ok es' /\ exists er, es' = es ++ [er].
Proof.
  intros H. assert (G : exists er, create (elem := felem) code x kw = Ok er).
  { cbn [In] in H. destruct H as [H|[H|[H|[H|[]]]]]; injection H as <- Hk.
    - destruct kw; [|discriminate]. eexists. vm_compute. reflexivity.
    - destruct kw as [|[k v] [|]]; try discriminate. cbn in Hk. injection Hk as <-.
      eexists. vm_compute. reflexivity.
    - destruct kw as [|[k v] [|[k' v'] [|]]]; try discriminate. cbn in Hk. injection Hk as <- <-.
      eexists. vm_compute. reflexivity.
    - destruct kw as [|[k v] [|]]; try discriminate. cbn in Hk. injection Hk as <-.
      eexists. vm_compute. reflexivity. }
  destruct G as (er & G). unfold insert. rewrite G. cbn [bind]. unfold insert_premade. eauto.
Qed.

(** What the parsing of one element does *)
Lemma parse_footnote_spec (e : env) x es taken : exists es' taken' o,
  parse_footnote e x es taken = Ok (o, es', taken') /\
  o = option_map (fun id => (id, the_note e x id)) (given (ne_id x)) /\
  (exists more, es' = es ++ more /\
     (more = [] <-> exists id, given (ne_id x) = Some id /\ ~ In id taken /\
                      (forall r, ne_role x = Some r -> e_uri e r = true) /\ given (ne_lang x) <> None)) /\
  taken' = match given (ne_id x) with
           | Some id => if existsb (str_eqb id) taken then taken else taken ++ [id] | None => taken end.
Proof.
  unfold parse_footnote. destruct (given (ne_id x)) as [id|] eqn:Ei.
  2:{ destruct (insert_foot es "IXBRL_FOOTNOTE_WITHOUT_ID" (Some (ENote x)) []) as (es' & -> & er & ->); [cbn; auto|].
      cbn [bind]. do 3 eexists. split; [reflexivity|]. split; [reflexivity|]. split; [|reflexivity].
      exists [er]. split; [reflexivity|]. split; [discriminate|]. intros (id & [=] & _). }
  assert (S1 : exists es1 m1, (if existsb (str_eqb id) taken
      then insert es "IXBRL_DUPLICATE_ELEMENT_ID" (Some (ENote x)) [(u "id", id)] else Ok es) = Ok es1 /\
      es1 = es ++ m1 /\ (m1 = [] <-> ~ In id taken)).
  { destruct (existsb (str_eqb id) taken) eqn:C.
    - destruct (insert_foot es "IXBRL_DUPLICATE_ELEMENT_ID" (Some (ENote x)) [(u "id", id)]) as (es1 & -> & er & ->); [cbn; auto|].
      do 2 eexists. split; [reflexivity|]. split; [reflexivity|]. split; [discriminate|].
      intros F. exfalso. apply F. apply mem_spec, C.
    - exists es, []. rewrite app_nil_r. split; [reflexivity|]. split; [reflexivity|]. split; [|reflexivity].
      intros _ F. apply mem_spec in F. unfold mem in F. congruence. }
  destruct S1 as (es1 & m1 & -> & E1 & H1). cbn [bind].
  set (S2e := match ne_role x with None => _ | Some _ => _ end).
  assert (S2 : exists es2 m2, S2e = Ok (match ne_role x with Some r => if e_uri e r then r else u "http://www.xbrl.org/2003/role/footnote"
                        | None => u "http://www.xbrl.org/2003/role/footnote" end, es2) /\
      es2 = es1 ++ m2 /\ (m2 = [] <-> forall r, ne_role x = Some r -> e_uri e r = true)).
  { unfold S2e. destruct (ne_role x) as [r|].
    - destruct (e_uri e r) eqn:C.
      + exists es1, []. rewrite app_nil_r. split; [reflexivity|]. split; [reflexivity|]. split; [|reflexivity].
        intros _ r' [= <-]. exact C.
      + destruct (insert_foot es1 "IXBRL_INVALID_FOOTNOTE_ROLE" (Some (ENote x)) [(u "id", id); (u "role", r)]) as (es2 & -> & er & ->); [cbn; auto|].
        do 2 eexists. split; [reflexivity|]. split; [reflexivity|]. split; [discriminate|].
        intros F. rewrite (F _ eq_refl) in C. discriminate C.
    - exists es1, []. rewrite app_nil_r. split; [reflexivity|]. split; [reflexivity|]. split; [discriminate|reflexivity]. }
  destruct S2 as (es2 & m2 & -> & E2 & H2). cbn [bind].
  set (S3e := match given (ne_lang x) with None => _ | Some _ => _ end).
  assert (S3 : exists es3 m3, S3e = Ok (match ne_lang x with Some (c :: l) => c :: l | _ => u "en" end, es3) /\
      es3 = es2 ++ m3 /\ (m3 = [] <-> given (ne_lang x) <> None)).
  { assert (N : given (ne_lang x) = None -> exists es3 m3, S3e = Ok (u "en", es3) /\ es3 = es2 ++ m3 /\ (m3 = [] <-> given (ne_lang x) <> None)).
    { intros G. unfold S3e. rewrite G.
      destruct (insert_foot es2 "IXBRL_FOOTNOTE_WITHOUT_LANGUAGE" (Some (ENote x)) [(u "id", id)]) as (es3 & -> & er & ->); [cbn; auto|].
      do 2 eexists. split; [reflexivity|]. split; [reflexivity|]. split; [discriminate|]. intros F. destruct (F eq_refl). }
    unfold S3e in *. destruct (ne_lang x) as [[|c l]|]; cbn [given] in *; [auto| |auto].
    exists es2, []. rewrite app_nil_r. split; [reflexivity|]. split; [reflexivity|]. split; [discriminate|reflexivity]. }
  destruct S3 as (es3 & m3 & -> & E3 & H3). cbn [bind].
  do 3 eexists. split; [reflexivity|]. split; [reflexivity|]. split; [|reflexivity].
  exists (m1 ++ m2 ++ m3). split; [rewrite E3, E2, E1, !app_assoc; reflexivity|]. split.
  - intros F. apply app_eq_nil in F as [F1 F]. apply app_eq_nil in F as [F2 F3]. exists id. split; [reflexivity|].
    rewrite <- H1, <- H2, <- H3. auto.
  - intros (id' & [= <-] & G1 & G2 & G3). apply H1 in G1. apply H2 in G2. apply H3 in G3. rewrite G1, G2, G3. reflexivity.
Qed.

(** [x] is the last element of [xs] with the identifier [id]. *)
Definition last_with (xs : list note_elem) (id : str) (x : note_elem) : Prop :=
  exists before after, xs = before ++ x :: after /\ ne_id x = Some id /\
    forall y, In y after -> ne_id y <> Some id.

(** Nothing is wrong with the elements [xs], given the identifiers used already. *)
Definition in_order (e : env) (xs : list note_elem) (taken : list str) : Prop :=
  (forall x, In x xs -> (exists c id, ne_id x = Some (c :: id) /\ ~ In (c :: id) taken) /\
     (forall r, ne_role x = Some r -> e_uri e r = true) /\ exists c l, ne_lang x = Some (c :: l)) /\
  NoDup (map ne_id xs).

Lemma given_some o s : given o = Some s <-> o = Some s /\ s <> [].
Proof.
  destruct o as [[|c t]|]; cbn [given]; split; try discriminate.
  - intros [[= <-] H]; congruence.
  - intros [= <-]. split; [reflexivity|discriminate].
  - intros [H _]; exact H.
  - intros [[=] _].
Qed.

Theorem C63_footnotes (e : env) (xs : list note_elem) : forall ns es taken, exists ns' es' taken',
  parse_footnotes e xs ns es taken = Ok (ns', es', taken') /\
  (forall id, id <> [] ->
     (exists x, last_with xs id x /\ dict_get str_eqb ns' id = Some (the_note e x id)) \/
     (forall x, In x xs -> ne_id x <> Some id) /\ dict_get str_eqb ns' id = dict_get str_eqb ns id) /\
  exists more, es' = es ++ more /\ (more = [] <-> in_order e xs taken).
Proof.
  induction xs as [|x xs IH]; intros ns es taken; cbn [parse_footnotes].
  - exists ns, es, taken. split; [reflexivity|]. split; [intros id _; right; split; [intros ? []|reflexivity]|].
    exists []. rewrite app_nil_r. split; [reflexivity|]. split; [|reflexivity]. intros _. split; [intros ? []|constructor].
  - destruct (parse_footnote_spec e x es taken) as (es1 & tk1 & o & -> & -> & (m1 & E1 & H1) & Et). cbn [bind].
    set (ns1 := match option_map _ _ with Some _ => _ | None => _ end).
    destruct (IH ns1 es1 tk1) as (ns' & es' & tk' & -> & Hn & (m & Em & Hm)).
    exists ns', es', tk'. split; [reflexivity|]. split.
    + intros id Hid. destruct (Hn id Hid) as [(y & (b & a & -> & Hy & Hl) & Hg)|[Hno Hg]].
      * left. exists y. split; [|exact Hg]. exists (x :: b), a. auto.
      * destruct (list_eq_dec N.eq_dec (match ne_id x with Some i => i | None => [] end) id) as [Ed|Ed].
        -- left. exists x. assert (Ex : ne_id x = Some id) by (destruct (ne_id x); [f_equal; exact Ed|destruct (Hid (eq_sym Ed))]).
           split; [exists [], xs; auto|]. rewrite Hg. unfold ns1.
           assert (given (ne_id x) = Some id) as -> by (apply given_some; auto). cbn [option_map].
           apply (dict_get_set_same _ str_eqb_spec).
        -- right. split; [intros y [<-|Hy]; [|auto]; intros F; rewrite F in Ed; exact (Ed eq_refl)|].
           rewrite Hg. unfold ns1. destruct (given (ne_id x)) as [i|] eqn:Eg; [|reflexivity]. cbn [option_map].
           apply (dict_get_set_other _ str_eqb_spec). apply given_some in Eg as [Eg _]. rewrite Eg in Ed. congruence.
    + exists (m1 ++ m). split; [rewrite Em, E1, app_assoc; reflexivity|]. split.
      * intros F. apply app_eq_nil in F as [F1 F2]. apply H1 in F1 as (id & Gi & Gt & Gr & Gl). apply Hm in F2 as [F2 F3].
        rewrite Gi in Et. apply given_some in Gi as [Gi Gn].
        assert (existsb (str_eqb id) taken = false) as C.
        { destruct (existsb (str_eqb id) taken) eqn:C; [|reflexivity]. destruct Gt. apply mem_spec, C. }
        rewrite C in Et. subst tk1. split.
        -- intros y [<-|Hy].
           ++ split; [destruct id as [|c id]; [congruence|eauto]|]. split; [exact Gr|].
              destruct (ne_lang x) as [[|c l]|]; cbn in Gl; try congruence. eauto.
           ++ destruct (F2 y Hy) as ((c & i & G1 & G2) & G3). split; [|exact G3]. exists c, i. split; [exact G1|].
              intros F. apply G2, in_or_app; auto.
        -- cbn [map]. constructor; [|exact F3]. intros F. apply in_map_iff in F as (y & Ey & Hy).
           destruct (F2 y Hy) as ((c & i & G1 & G2) & _). apply G2. rewrite G1, Gi in Ey. injection Ey as ->.
           apply in_or_app; cbn; auto.
      * intros [F1 F2]. cbn [map] in F2. inversion_clear F2 as [|? ? N1 N2].
        destruct (F1 x) as ((c & id & Gi & Gt) & Gr & (d & l & Gl)); [cbn; auto|].
        assert (given (ne_id x) = Some (c :: id)) as Eg by (rewrite Gi; reflexivity).
        assert (m1 = []) as ->.
        { apply H1. exists (c :: id). split; [exact Eg|]. split; [exact Gt|]. split; [exact Gr|]. rewrite Gl. discriminate. }
        apply Hm. split; [|exact N2]. intros y Hy. destruct (F1 y) as ((c' & i & G1 & G2) & G3); [cbn; auto|].
        split; [|exact G3]. exists c', i. split; [exact G1|]. rewrite Et, Eg. destruct (existsb _ _); [exact G2|].
        intros F. apply in_app_iff in F as [F|[F|[]]]; [contradiction|]. apply N1. rewrite Gi, F, <- G1. apply in_map, Hy.
Qed.

Definition plain_note (id : string) : note_elem :=
  NoteElem (Some (u id)) None (Some (u "de")) (u "Siehe Anhang") None.

(** A second footnote of an identifier is reported and replaces the first. *)
Example C63_example :
  in_order env0 [plain_note "fn1"; plain_note "fn2"] [u "f1"] /\
  match parse_footnotes env0 [plain_note "fn1"; NoteElem (Some (u "fn1")) None None (u "Other") None] [] [] [] with
  | Ok (ns, es, _) => ns = [(u "fn1", Note (u "Other") (u "fn1") (u "en") default_role None)] /\ length es = 2
  | Raise _ => False
  end.
Proof.
  split.
  - split.
    + intros x Hx. split; [|split; [|exists 100%N; destruct Hx as [<-|[<-|[]]]; eexists; reflexivity]].
      * destruct Hx as [<-|[<-|[]]]; eexists _, _; (split; [reflexivity|]); vm_compute; intuition discriminate.
      * intros r _. reflexivity.
    + constructor; [vm_compute; intuition discriminate|]. constructor; [intros []|constructor].
  - vm_compute. auto.
Qed.

Print Assumptions C44_networks_partial.
Print Assumptions C44_link_role_refuted.
Print Assumptions C44_no_order.
Print Assumptions C44_default_order_refuted.
Print Assumptions C44_zero_order_refuted.
Print Assumptions C44_other_target.
Print Assumptions C44_fact_target_refuted.
Print Assumptions C44_shared_order_refuted.
Print Assumptions C63_footnotes.
