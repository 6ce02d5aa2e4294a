(** Proofs about footnote networks. *)
From Coq Require Import QArith Sorting.Sorted.
From Verif Require Import Base NetProofs ErrBase ErrTable ErrModel ValueModel FootModel FootSpec.
Local Open Scope nat_scope.

(** ** Words *)

Definition solid (w : str) : Prop := forallb (fun c => negb (is_space c)) w = true.

Lemma solid_no_space w c : solid w -> In c w -> is_space c = false.
Proof.
  unfold solid. rewrite forallb_forall. intros H Hi. apply H in Hi. apply negb_true_iff, Hi.
Qed.

Lemma solid_split p : forall q c d (r s : str), solid p -> solid q -> is_space c = true -> is_space d = true ->
  p ++ c :: r = q ++ d :: s -> p = q /\ r = s.
Proof.
  induction p as [|x p IH]; intros [|y q] c d r s Hp Hq Hc Hd E; cbn [app] in E.
  - injection E as _ ->. auto.
  - injection E as -> _. rewrite (solid_no_space (y :: q) y Hq) in Hc by (cbn; auto). discriminate.
  - injection E as <- _. rewrite (solid_no_space (x :: p) x Hp) in Hd by (cbn; auto). discriminate.
  - injection E as -> E. unfold solid in Hp, Hq. cbn [forallb] in Hp, Hq.
    apply andb_prop in Hp as [_ Hp]. apply andb_prop in Hq as [_ Hq].
    destruct (IH q c d r s Hp Hq Hc Hd E) as [-> ->]. auto.
Qed.

Lemma word_solid w s : solid s -> word_of w s <-> w = s /\ s <> [].
Proof.
  intros Hs. split.
  - intros (Hn & Hw & a & b & E & Ha & Hb). subst s.
    destruct Ha as [->|(a' & c & -> & Hc)].
    + destruct Hb as [->|(c & b' & -> & Hc)]; [cbn [app] in *; rewrite app_nil_r in *; auto|].
      exfalso. rewrite (solid_no_space _ c Hs) in Hc; [discriminate|].
      cbn [app]. apply in_or_app; right; cbn; auto.
    + exfalso. rewrite (solid_no_space _ c Hs) in Hc; [discriminate|].
      rewrite <- app_assoc. apply in_or_app; right; cbn; auto.
  - intros [-> Hn]. split; [exact Hn|]. split; [exact Hs|]. exists [], []. cbn. rewrite app_nil_r. auto.
Qed.

Lemma word_space w cur c t : solid cur -> is_space c = true ->
  word_of w (cur ++ c :: t) <-> (w = cur /\ cur <> []) \/ word_of w t.
Proof.
  intros Hcur Hc. split.
  - intros (Hn & Hw & a & b & E & Ha & Hb). destruct Ha as [->|(a' & d & -> & Hd)].
    + left. cbn [app] in E. destruct Hb as [->|(d & b' & -> & Hd)].
      * exfalso. rewrite app_nil_r in E. subst w.
        rewrite (solid_no_space _ c Hw) in Hc; [discriminate|]. apply in_or_app; right; cbn; auto.
      * destruct (solid_split _ _ _ _ _ _ Hcur Hw Hc Hd E) as [-> _]. auto.
    + right. assert (G : exists a2, a' ++ [d] = cur ++ c :: a2 /\ t = a2 ++ w ++ b).
      { clear Hb. revert a' E Hcur. induction cur as [|x cur IH]; intros a' E Hcur.
        - destruct a' as [|y a']; cbn [app] in E.
          + injection E as -> ->. exists []. auto.
          + injection E as -> ->. exists (a' ++ [d]). auto.
        - destruct a' as [|y a']; cbn [app] in E.
          + injection E as -> _. rewrite (solid_no_space _ d Hcur) in Hd by (cbn; auto). discriminate.
          + injection E as -> E. unfold solid in Hcur. cbn [forallb] in Hcur. apply andb_prop in Hcur as [_ Hcur].
            destruct (IH a' E Hcur) as (a2 & E1 & E2). exists a2. cbn [app]. rewrite E1. auto. }
      destruct G as (a2 & E1 & ->). split; [exact Hn|]. split; [exact Hw|]. exists a2, b.
      split; [reflexivity|]. split; [|exact Hb].
      destruct a2 as [|y a2]; [auto|right]. destruct (exists_last (l := y :: a2)) as (q & z & Eq); [discriminate|].
      exists q, z. split; [exact Eq|]. rewrite Eq in E1.
      change (c :: q ++ [z]) with ((c :: q) ++ [z]) in E1. rewrite app_assoc in E1.
      apply app_inj_tail in E1 as [_ <-]. exact Hd.
  - intros [[-> Hn]|(Hn & Hw & a & b & -> & Ha & Hb)].
    + split; [exact Hn|]. split; [exact Hcur|]. exists [], (c :: t). split; [reflexivity|]. split; [auto|]. right; eauto.
    + split; [exact Hn|]. split; [exact Hw|]. exists (cur ++ c :: a), b.
      split; [rewrite <- app_assoc; reflexivity|]. split; [|exact Hb]. right.
      destruct Ha as [->|(a' & d & -> & Hd)]; [exists cur, c; auto|].
      exists (cur ++ c :: a'), d. rewrite <- app_assoc. auto.
Qed.

Lemma words_from_spec w s : forall cur, solid cur -> (In w (words_from cur s) <-> word_of w (cur ++ s)).
Proof.
  induction s as [|c t IH]; intros cur Hcur; cbn [words_from].
  - rewrite app_nil_r, word_solid by exact Hcur. destruct cur as [|x cur]; cbn; intuition congruence.
  - destruct (is_space c) eqn:Hc.
    + rewrite word_space by assumption. destruct cur as [|x cur].
      * rewrite (IH [] eq_refl). cbn [app]. intuition congruence.
      * cbn [In]. rewrite (IH [] eq_refl). cbn [app]. intuition congruence.
    + rewrite IH.
      * rewrite <- app_assoc. reflexivity.
      * unfold solid in *. rewrite forallb_app, Hcur. cbn. rewrite Hc. reflexivity.
Qed.

Lemma words_spec w s : In w (words s) <-> word_of w s.
Proof. apply (words_from_spec w s []). reflexivity. Qed.

(** ** From relationships to arcs *)

Definition given_or (o : option str) (d : str) : str := match given o with Some s => s | None => d end.
Definition text_of (o : option str) : str := match o with Some s => s | None => [] end.
Definition arc_of (e : env) (x : rel) : arc :=
  Arc (e_set e (words (text_of (r_from x)))) (e_set e (words (text_of (r_to x))))
      (given_or (r_arcrole x) default_arcrole) (given_or (r_linkrole x) default_linkrole)
      (match r_order x with
       | Some s => match e_float e s with Some q => q | None => 1%Q end
       | None => 1%Q end).

Lemma given_some s : s <> [] -> given (Some s) = Some s.
Proof. destruct s; [congruence|reflexivity]. Qed.

Lemma dict_mem_in {V} (d : list (str * V)) id : dict_mem str_eqb d id = true <-> In id (map fst d).
Proof.
  unfold dict_mem. destruct (dict_get str_eqb d id) as [v|] eqn:E.
  - split; [|reflexivity]. intros _. apply (dict_get_in _ str_eqb_spec) in E. apply (in_map fst) in E. exact E.
  - split; [discriminate|]. intros H. exfalso.
    apply (dict_get_none _ str_eqb_spec) in E. apply E. exact H.
Qed.

Lemma existsb_none {A} (f : A -> bool) l : (forall x, In x l -> f x = false) -> existsb f l = false.
Proof.
  induction l as [|x l IH]; intros H; [reflexivity|]. cbn. rewrite H by (cbn; auto).
  apply IH. intros; apply H; cbn; auto.
Qed.
Lemma filter_nil {A} (f : A -> bool) l : (forall x, In x l -> f x = false) -> filter f l = [].
Proof.
  induction l as [|x l IH]; intros H; [reflexivity|]. cbn. rewrite H by (cbn; auto).
  apply IH. intros; apply H; cbn; auto.
Qed.

Lemma parse_proper e ns fs x es : lists_sets (e_set e) -> proper e ns fs x ->
  parse_relationship e ns fs x es = Ok (arc_of e x, es).
Proof.
  intros He ((f & Ef & Nf & Hf) & (t & Et & Nt & Ht) & Ha & Hl & (o & q & Eo & No & Eq & Hq)).
  unfold parse_relationship, parse_refs. rewrite Ef, Et, !given_some by assumption. cbn [bind].
  assert (F : forall i, In i (e_set e (words f)) -> In i (map fst fs) /\ ~ In i (map fst ns)).
  { intros i Hi. apply He, words_spec in Hi. auto. }
  assert (T : forall i, In i (e_set e (words t)) -> In i (map fst ns)).
  { intros i Hi. apply He, words_spec in Hi. auto. }
  assert (V : validate_refs e x (e_set e (words f)) (e_set e (words t)) ns fs es = Ok es).
  { unfold validate_refs. rewrite existsb_none; cbn [bind].
    - rewrite filter_nil; cbn [bind].
      + rewrite filter_nil; cbn [bind].
        * assert (forallb (dict_mem str_eqb ns) (e_set e (words t)) = true) as ->.
          { apply forallb_forall. intros i Hi. apply dict_mem_in, T, Hi. }
          rewrite andb_false_r. reflexivity.
        * intros i Hi. apply T, dict_mem_in in Hi. rewrite Hi. apply andb_false_r.
      + intros i Hi. apply F in Hi as [Hi _]. apply dict_mem_in in Hi. rewrite Hi. reflexivity.
    - intros i Hi. apply F in Hi as [_ Hi]. unfold mem. apply existsb_none. intros j Hj.
      destruct (str_eqb_spec i j) as [->|]; [|reflexivity]. exfalso. apply Hi, T, Hj. }
  rewrite V. cbn [bind]. unfold parse_attributes.
  assert (A : forall s, given (r_arcrole x) = Some s -> e_uri e s = true).
  { intros s Hs. destruct (r_arcrole x) as [[|c s']|] eqn:E; cbn in Hs; try discriminate.
    injection Hs as <-. apply Ha; congruence. }
  assert (L : forall s, given (r_linkrole x) = Some s -> e_uri e s = true).
  { intros s Hs. destruct (r_linkrole x) as [[|c s']|] eqn:E; cbn in Hs; try discriminate.
    injection Hs as <-. apply Hl; congruence. }
  assert (Z0 : Qeq_bool q 0 = false).
  { destruct (Qeq_bool q 0) eqn:E; [|reflexivity]. apply Qeq_bool_iff in E. contradiction. }
  unfold arc_of, given_or, text_of. rewrite Ef, Et, Eo, Eq, given_some by exact No.
  destruct (given (r_arcrole x)) as [ar|]; [rewrite (A _ eq_refl)|]; cbn [bind];
    (destruct (given (r_linkrole x)) as [lr|]; [rewrite (L _ eq_refl)|]; cbn [bind]); rewrite Eq; cbn [bind];
    rewrite Z0; reflexivity.
Qed.

Lemma parse_arcs_proper e ns fs xs es : lists_sets (e_set e) -> (forall x, In x xs -> proper e ns fs x) ->
  parse_arcs e ns fs xs es = Ok (map (arc_of e) xs, es).
Proof.
  intros He. induction xs as [|x xs IH]; intros H; [reflexivity|]. cbn [parse_arcs map].
  rewrite parse_proper by (auto; apply H; cbn; auto). cbn [bind].
  rewrite IH by (intros; apply H; cbn; auto). reflexivity.
Qed.

(** ** Grouping *)

Definition key (a : arc) : str * str := (a_linkrole a, a_arcrole a).
Lemma key_eqb_spec a b : reflect (a = b) (key_eqb a b).
Proof.
  destruct a as [a1 a2], b as [b1 b2]. unfold key_eqb. cbn [fst snd].
  destruct (str_eqb_spec a1 b1) as [->|]; [|constructor; congruence].
  destruct (str_eqb_spec a2 b2) as [->|]; constructor; congruence.
Qed.

Lemma keys_old {V} d k (v : V) : In k (map fst d) -> map fst (dict_set key_eqb d k v) = map fst d.
Proof. apply (dict_set_keys_old _ key_eqb_spec). Qed.
Lemma keys_new {V} d k (v : V) : ~ In k (map fst d) -> map fst (dict_set key_eqb d k v) = map fst d ++ [k].
Proof.
  intros H. rewrite (dict_set_keys_new _ key_eqb_spec) by exact H. rewrite map_app. reflexivity.
Qed.

Definition groups_ok (arcs : list arc) (gs : list (str * str * list arc)) : Prop :=
  NoDup (map fst gs) /\
  (forall k, In k (map fst gs) <-> exists a, In a arcs /\ key a = k) /\
  forall k l, In (k, l) gs -> l = filter (fun a => key_eqb (key a) k) arcs.

Lemma group_spec arcs : groups_ok arcs (group arcs).
Proof.
  unfold group.
  assert (G : forall more done gs, groups_ok done gs -> groups_ok (done ++ more)
    (fold_left (fun d a => dict_set key_eqb d (a_linkrole a, a_arcrole a)
       (match dict_get key_eqb d (a_linkrole a, a_arcrole a) with Some l => l | None => [] end ++ [a])) more gs)).
  { induction more as [|a more IH]; intros done gs H; [rewrite app_nil_r; exact H|].
    cbn [fold_left]. change (a_linkrole a, a_arcrole a) with (key a).
    replace (done ++ a :: more) with ((done ++ [a]) ++ more) by (rewrite <- app_assoc; reflexivity).
    apply IH. clear IH. destruct H as (H1 & H2 & H3).
    assert (N : NoDup (map fst (dict_set key_eqb gs (key a)
       (match dict_get key_eqb gs (key a) with Some l => l | None => [] end ++ [a]))))
      by (apply (dict_set_keys_nodup _ key_eqb_spec); exact H1).
    assert (K : forall k, In k (map fst (dict_set key_eqb gs (key a)
       (match dict_get key_eqb gs (key a) with Some l => l | None => [] end ++ [a]))) <-> In k (map fst gs) \/ k = key a).
    { intros k. destruct (in_dec (fun x y => reflect_dec _ _ (key_eqb_spec x y)) (key a) (map fst gs)) as [I|I].
      - rewrite keys_old by exact I. split; [auto|]. intros [| ->]; auto.
      - rewrite keys_new by exact I. rewrite in_app_iff. cbn. intuition congruence. }
    split; [exact N|]. split.
    - intros k. rewrite K, H2. split.
      + intros [(b & Hb & E)| ->]; [exists b; rewrite in_app_iff; auto|exists a; rewrite in_app_iff; cbn; auto].
      + intros (b & Hb & E). apply in_app_or in Hb as [Hb|[->|[]]]; [left; eauto|right; congruence].
    - intros k l Hin. apply (dict_get_in_nodup _ key_eqb_spec) in Hin; [|exact N].
      rewrite filter_app. cbn [filter]. destruct (key_eqb_spec (key a) k) as [<-|Hk].
      + rewrite (dict_get_set_same _ key_eqb_spec) in Hin. injection Hin as <-. f_equal.
        destruct (dict_get key_eqb gs (key a)) as [l|] eqn:E.
        * apply (dict_get_in _ key_eqb_spec) in E. apply H3, E.
        * symmetry. apply filter_nil. intros b Hb. destruct (key_eqb_spec (key b) (key a)) as [Eb|]; [|reflexivity].
          exfalso. apply (dict_get_none _ key_eqb_spec) in E. apply E, H2. eauto.
      + rewrite (dict_get_set_other _ key_eqb_spec) in Hin by exact Hk.
        apply (dict_get_in _ key_eqb_spec) in Hin. rewrite app_nil_r. apply H3, Hin. }
  apply (G arcs [] []). split; [constructor|]. split; [intros k; cbn; split; [tauto|intros (a & [] & _)]|intros k l []].
Qed.

(** ** The nodes of a network *)

Section Build.
Context (e : env) (ns : notes) (fs : facts).
Hypothesis He : lists_sets (e_set e).

Definition fact_of (id : str) : target := TFact (match dict_get str_eqb fs id with Some t => t | None => [] end).
Definition object_of (id : str) : target :=
  match dict_get str_eqb ns id with Some f => TNote f | None => fact_of id end.

Lemma mem_spec x l : mem x l = true <-> In x l.
Proof.
  unfold mem. rewrite existsb_exists. split.
  - intros (y & Hy & E). apply str_eqb_eq in E. subst; auto.
  - intros H. exists x. split; [exact H|apply str_eqb_refl].
Qed.

Lemma get_some {V} (d : list (str * V)) id : In id (map fst d) -> exists v, dict_get str_eqb d id = Some v.
Proof.
  intros H. apply dict_mem_in in H. unfold dict_mem in H. destruct (dict_get str_eqb d id); [eauto|discriminate].
Qed.

Lemma get_set (d : nodes) k v id : dict_get str_eqb (dict_set str_eqb d k v) id =
  if str_eqb id k then Some v else dict_get str_eqb d id.
Proof.
  destruct (str_eqb_spec id k) as [->|H]; [apply (dict_get_set_same _ str_eqb_spec)|].
  apply (dict_get_set_other _ str_eqb_spec). congruence.
Qed.

Lemma add_from_spec roots a ids : (forall id, In id ids -> In id (map fst fs)) -> forall d,
  exists d', add_from fs roots a ids d = Ok d' /\ forall id, dict_get str_eqb d' id =
    match dict_get str_eqb d id with
    | Some n => Some n
    | None => if mem id ids && mem id roots then Some (Node (fact_of id) [] (a_arcrole a) (a_linkrole a) 1%Q) else None
    end.
Proof.
  induction ids as [|i ids IH]; intros H d; cbn [add_from].
  - exists d. split; [reflexivity|]. intros id. destruct (dict_get str_eqb d id); reflexivity.
  - specialize (IH ltac:(intros; apply H; cbn; auto)).
    destruct (negb (dict_mem str_eqb d i) && mem i roots) eqn:C.
    + apply andb_prop in C as [C1 C2]. apply negb_true_iff in C1.
      unfold get_by_id. destruct (get_some fs i ltac:(apply H; cbn; auto)) as (t & Et). rewrite Et. cbn [bind].
      destruct (IH (dict_set str_eqb d i (Node (TFact t) [] (a_arcrole a) (a_linkrole a) 1%Q))) as (d' & -> & G).
      exists d'. split; [reflexivity|]. intros id. rewrite G, get_set. unfold mem at 3. cbn [existsb].
      destruct (str_eqb_spec id i) as [->|Hn].
      * unfold dict_mem in C1. destruct (dict_get str_eqb d i); [discriminate|]. rewrite C2. cbn.
        unfold fact_of. rewrite Et. reflexivity.
      * reflexivity.
    + destruct (IH d) as (d' & -> & G). exists d'. split; [reflexivity|]. intros id. rewrite G.
      unfold mem at 3. cbn [existsb]. destruct (str_eqb_spec id i) as [->|Hn]; [|reflexivity].
      unfold dict_mem in C. destruct (dict_get str_eqb d i); [reflexivity|]. cbn in C. rewrite C, !andb_false_r. reflexivity.
Qed.

Lemma add_to_spec a ids : (forall id, In id ids -> In id (map fst ns)) -> forall d,
  exists d', add_to ns fs a ids d = Ok d' /\ forall id, dict_get str_eqb d' id =
    match dict_get str_eqb d id with
    | Some n => Some n
    | None => if mem id ids then Some (Node (object_of id) [] (a_arcrole a) (a_linkrole a) (a_order a)) else None
    end.
Proof.
  induction ids as [|i ids IH]; intros H d; cbn [add_to].
  - exists d. split; [reflexivity|]. intros id. destruct (dict_get str_eqb d id); reflexivity.
  - specialize (IH ltac:(intros; apply H; cbn; auto)).
    destruct (negb (dict_mem str_eqb d i)) eqn:C.
    + apply negb_true_iff in C. destruct (get_some ns i ltac:(apply H; cbn; auto)) as (t & Et). rewrite Et. cbn [bind truth].
      destruct (IH (dict_set str_eqb d i (Node (TNote t) [] (a_arcrole a) (a_linkrole a) (a_order a)))) as (d' & -> & G).
      exists d'. split; [reflexivity|]. intros id. rewrite G, get_set. unfold mem at 2. cbn [existsb].
      destruct (str_eqb_spec id i) as [->|Hn]; [|reflexivity].
      unfold dict_mem in C. destruct (dict_get str_eqb d i); [discriminate|]. cbn.
      unfold object_of. rewrite Et. reflexivity.
    + destruct (IH d) as (d' & -> & G). exists d'. split; [reflexivity|]. intros id. rewrite G.
      unfold mem at 2. cbn [existsb]. destruct (str_eqb_spec id i) as [->|Hn]; [|reflexivity].
      unfold dict_mem in C. destruct (dict_get str_eqb d i); [reflexivity|]. discriminate.
Qed.

(** The node made for an identifier: by the first arc that mentions it *)
Fixpoint first_node (roots : list str) (arcs : list arc) (id : str) : option node :=
  match arcs with
  | [] => None
  | a :: arcs' =>
      if mem id (a_from a) && mem id roots then Some (Node (fact_of id) [] (a_arcrole a) (a_linkrole a) 1%Q)
      else if mem id (a_to a) then Some (Node (object_of id) [] (a_arcrole a) (a_linkrole a) (a_order a))
      else first_node roots arcs' id
  end.

Definition known (arcs : list arc) : Prop := forall a, In a arcs ->
  (forall id, In id (a_from a) -> In id (map fst fs)) /\ (forall id, In id (a_to a) -> In id (map fst ns)).

Lemma add_arcs_spec roots arcs : known arcs -> forall d,
  exists d', add_arcs ns fs roots arcs d = Ok d' /\ forall id, dict_get str_eqb d' id =
    match dict_get str_eqb d id with Some n => Some n | None => first_node roots arcs id end.
Proof.
  induction arcs as [|a arcs IH]; intros H d; cbn [add_arcs first_node].
  - exists d. split; [reflexivity|]. intros id. destruct (dict_get str_eqb d id); reflexivity.
  - destruct (H a ltac:(cbn; auto)) as [Hf Ht].
    destruct (add_from_spec roots a (a_from a) Hf d) as (d1 & -> & G1). cbn [bind].
    destruct (add_to_spec a (a_to a) Ht d1) as (d2 & -> & G2). cbn [bind].
    destruct (IH ltac:(intros b Hb; apply H; cbn; auto) d2) as (d3 & -> & G3).
    exists d3. split; [reflexivity|]. intros id. rewrite G3, G2, G1.
    destruct (dict_get str_eqb d id); [reflexivity|].
    destruct (mem id (a_from a) && mem id roots); [reflexivity|]. destruct (mem id (a_to a)); reflexivity.
Qed.

(** *** Connecting *)

Definition ord_leb (d : nodes) (x y : str) : bool := Qle_bool (order_of d x) (order_of d y).
Lemma ord_total d x y : ord_leb d x y = true \/ ord_leb d y x = true.
Proof.
  unfold ord_leb. rewrite !Qle_bool_iff. destruct (Qlt_le_dec (order_of d x) (order_of d y));
    [left; apply Qlt_le_weak|right]; assumption.
Qed.
Lemma ord_trans d x y z : ord_leb d x y = true -> ord_leb d y z = true -> ord_leb d x z = true.
Proof. unfold ord_leb. rewrite !Qle_bool_iff. apply Qle_trans. Qed.

Definition tos (pairs : list (str * str)) (id : str) : list str :=
  map snd (filter (fun p => str_eqb (fst p) id) pairs).

Definition with_kids (n : node) (l : list str) : node :=
  Node (n_target n) l (n_arcrole n) (n_linkrole n) (n_order n).

Lemma add_child_get d from to id : dict_get str_eqb (add_child d from to) id =
  if str_eqb id from
  then option_map (fun n => with_kids n (stable_sort (ord_leb d) (n_kids n ++ [to]))) (dict_get str_eqb d id)
  else dict_get str_eqb d id.
Proof.
  unfold add_child. destruct (dict_get str_eqb d from) as [n|] eqn:E.
  - rewrite get_set. destruct (str_eqb_spec id from) as [->|]; [rewrite E; reflexivity|reflexivity].
  - destruct (str_eqb_spec id from) as [->|]; [rewrite E|]; reflexivity.
Qed.

Lemma add_child_order d from to id : order_of (add_child d from to) id = order_of d id.
Proof.
  unfold order_of. rewrite add_child_get. destruct (str_eqb id from); [|reflexivity].
  destruct (dict_get str_eqb d id); reflexivity.
Qed.

Lemma sort_sort_app {A} (leb : A -> A -> bool) (T : forall x y, leb x y = true \/ leb y x = true)
  (R : forall x y z, leb x y = true -> leb y z = true -> leb x z = true) l m :
  stable_sort leb (stable_sort leb l ++ m) = stable_sort leb (l ++ m).
Proof.
  apply (sorted_unique leb T); [apply stable_sort_sorted; assumption|apply stable_sort_sorted; assumption|].
  intros k. rewrite !stable_sort_stable, !filter_app, stable_sort_stable by assumption. reflexivity.
Qed.

Lemma connect_spec pairs : forall d,
  (forall p, In p pairs -> In (fst p) (map fst d) /\ In (snd p) (map fst d)) ->
  (forall id n, dict_get str_eqb d id = Some n -> n_kids n = stable_sort (ord_leb d) (n_kids n)) ->
  exists d', connect d pairs = Ok d' /\ (forall id, order_of d' id = order_of d id) /\
    forall id, dict_get str_eqb d' id =
      option_map (fun n => with_kids n (stable_sort (ord_leb d) (n_kids n ++ tos pairs id))) (dict_get str_eqb d id).
Proof.
  induction pairs as [|[from to] pairs IH]; intros d Hp Hs; cbn [connect].
  - exists d. split; [reflexivity|]. split; [reflexivity|]. intros id. cbn [tos filter map].
    destruct (dict_get str_eqb d id) as [n|] eqn:E; [|reflexivity]. cbn [option_map].
    rewrite app_nil_r, <- (Hs _ _ E). destruct n; reflexivity.
  - destruct (Hp (from, to) ltac:(cbn; auto)) as [H1 H2]. cbn [fst snd] in H1, H2.
    apply dict_mem_in in H1 as M1. apply dict_mem_in in H2 as M2. rewrite M1, M2. cbn [andb].
    assert (X : forall l, stable_sort (ord_leb (add_child d from to)) l = stable_sort (ord_leb d) l).
    { intros l. apply stable_sort_ext. intros x y. unfold ord_leb. rewrite !add_child_order. reflexivity. }
    assert (K : map fst (add_child d from to) = map fst d).
    { unfold add_child. destruct (dict_get str_eqb d from); [|reflexivity].
      apply (dict_set_keys_old _ str_eqb_spec). exact H1. }
    destruct (IH (add_child d from to)) as (d' & E & O & G).
    + intros p Hin. rewrite K. apply Hp. cbn; auto.
    + intros id n. rewrite add_child_get, X. destruct (str_eqb id from).
      * destruct (dict_get str_eqb d id) as [m|] eqn:E; [|discriminate]. cbn [option_map]. intros [= <-].
        cbn [with_kids n_kids]. symmetry. rewrite <- (app_nil_r (stable_sort (ord_leb d) (n_kids m ++ [to]))) at 1.
        rewrite sort_sort_app by (try apply ord_total; apply ord_trans). rewrite app_nil_r. reflexivity.
      * apply Hs.
    + exists d'. split; [exact E|]. split; [intros id; rewrite O; apply add_child_order|].
      intros id. rewrite G, add_child_get. unfold tos. cbn [filter fst].
      destruct (str_eqb_spec id from) as [->|Hn].
      * rewrite str_eqb_refl. destruct (dict_get str_eqb d from) as [n|]; [|reflexivity]. cbn [option_map with_kids n_kids map snd].
        rewrite X, sort_sort_app by (try apply ord_total; apply ord_trans).
        rewrite <- app_assoc. reflexivity.
      * destruct (str_eqb_spec from id) as [Hx|_]; [congruence|].
        destruct (dict_get str_eqb d id) as [m|]; [|reflexivity]. cbn [option_map]. rewrite X. reflexivity.
Qed.

(** *** The whole network *)

Definition roots_of (arcs : list arc) : list str :=
  e_set e (filter (fun i => negb (mem i (flat_map a_to arcs))) (flat_map (fun a => a_from a ++ a_to a) arcs)).

Lemma roots_in arcs id : In id (roots_of arcs) <->
  (exists a, In a arcs /\ In id (a_from a)) /\ ~ exists a, In a arcs /\ In id (a_to a).
Proof.
  unfold roots_of. destruct (He (filter (fun i => negb (mem i (flat_map a_to arcs))) (flat_map (fun a => a_from a ++ a_to a) arcs))) as [_ H].
  rewrite H, filter_In, in_flat_map, negb_true_iff.
  assert (M : mem id (flat_map a_to arcs) = false <-> ~ exists a, In a arcs /\ In id (a_to a)).
  { rewrite <- in_flat_map, <- mem_spec. destruct (mem id (flat_map a_to arcs)); split; congruence. }
  rewrite M. split.
  - intros [(a & Ha & Hi) Hn]. split; [|exact Hn]. apply in_app_or in Hi as [Hi|Hi]; [eauto|]. exfalso. eauto.
  - intros [(a & Ha & Hi) Hn]. split; [|exact Hn]. exists a. split; [exact Ha|]. apply in_or_app; auto.
Qed.

Lemma first_node_some arcs id : (exists n, first_node (roots_of arcs) arcs id = Some n) <->
  exists a, In a arcs /\ (In id (a_from a) \/ In id (a_to a)).
Proof.
  assert (G : forall l, (forall a, In a l -> In a arcs) ->
    ((exists n, first_node (roots_of arcs) l id = Some n) <->
     exists a, In a l /\ (In id (a_from a) /\ In id (roots_of arcs) \/ In id (a_to a)))).
  { induction l as [|a l IH]; intros Hl; cbn [first_node].
    - split; [intros (n & [=])|intros (a & [] & _)].
    - destruct (mem id (a_from a) && mem id (roots_of arcs)) eqn:C1.
      { split; [|eauto]. intros _. apply andb_prop in C1 as [C1 C2]. apply mem_spec in C1, C2. exists a. cbn; auto. }
      destruct (mem id (a_to a)) eqn:C2.
      { split; [|eauto]. intros _. apply mem_spec in C2. exists a. cbn; auto. }
      rewrite IH by (intros; apply Hl; cbn; auto). split.
      + intros (b & Hb & H). exists b. cbn; auto.
      + intros (b & [<-|Hb] & H); [|eauto]. exfalso. destruct H as [[H1 H2]|H].
        * apply mem_spec in H1, H2. rewrite H1, H2 in C1. discriminate.
        * apply mem_spec in H. congruence. }
  rewrite (G arcs) by auto. split.
  - intros (a & Ha & [[H _]|H]); eauto.
  - intros (a & Ha & [H|H]); [|eauto].
    destruct (existsb (fun b => mem id (a_to b)) arcs) eqn:E.
    + apply existsb_exists in E as (b & Hb & Hm). apply mem_spec in Hm. eauto.
    + exists a. split; [exact Ha|]. left. split; [exact H|]. apply roots_in. split; [eauto|].
      intros (b & Hb & Hi). apply mem_spec in Hi.
      assert (existsb (fun b => mem id (a_to b)) arcs = true) by (apply existsb_exists; eauto). congruence.
Qed.

Lemma first_node_kids roots arcs id n : first_node roots arcs id = Some n -> n_kids n = [].
Proof.
  induction arcs as [|a arcs IH]; cbn; [discriminate|].
  destruct (_ && _); [intros [= <-]; reflexivity|]. destruct (mem _ _); [intros [= <-]; reflexivity|exact IH].
Qed.

Lemma in_pairs arcs f t : In (f, t) (pairs_of arcs) <-> exists a, In a arcs /\ In f (a_from a) /\ In t (a_to a).
Proof.
  unfold pairs_of. rewrite in_flat_map. split; intros (a & Ha & H); exists a; rewrite in_prod_iff in *; tauto.
Qed.

Lemma build_spec arcs l : known arcs ->
  exists nw, build_network e ns fs arcs l = Ok nw /\ nw_linkrole nw = l /\ nw_roots nw = roots_of arcs /\
    forall id, dict_get str_eqb (nw_nodes nw) id =
      option_map (fun n => with_kids n (stable_sort (ord_leb (nw_nodes nw)) (tos (pairs_of arcs) id)))
        (first_node (roots_of arcs) arcs id).
Proof.
  intros Hk. unfold build_network, create_nodes. fold (roots_of arcs).
  destruct (add_arcs_spec (roots_of arcs) arcs Hk []) as (d & -> & G). cbn [bind dict_get] in *.
  assert (M : forall id, (exists a, In a arcs /\ (In id (a_from a) \/ In id (a_to a))) -> In id (map fst d)).
  { intros id H. apply first_node_some in H as (n & E). apply dict_mem_in. unfold dict_mem. rewrite G, E. reflexivity. }
  assert (R : forallb (dict_mem str_eqb d) (roots_of arcs) = true).
  { apply forallb_forall. intros id Hi. apply dict_mem_in, M. apply roots_in in Hi as [(a & Ha & Hi) _]. eauto. }
  rewrite R. cbn [bind].
  destruct (connect_spec (pairs_of arcs) d) as (d' & -> & O & G').
  - intros [f t] Hp. cbn [fst snd]. apply in_pairs in Hp as (a & Ha & H1 & H2). split; apply M; eauto.
  - intros id n. rewrite G. intros E. rewrite (first_node_kids _ _ _ _ E). reflexivity.
  - cbn [bind]. eexists. split; [reflexivity|]. cbn [nw_linkrole nw_roots nw_nodes]. split; [reflexivity|]. split; [reflexivity|].
    intros id. rewrite G', G. destruct (first_node (roots_of arcs) arcs id) as [n|] eqn:E; [|reflexivity].
    cbn [option_map]. rewrite (first_node_kids _ _ _ _ E). cbn [app].
    rewrite (stable_sort_ext (ord_leb d') (ord_leb d)); [reflexivity|].
    intros x y. unfold ord_leb. rewrite !O. reflexivity.
Qed.
End Build.
