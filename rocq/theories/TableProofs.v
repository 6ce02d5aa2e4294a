(** Proofs about the propagation of the parent-child order. *)
From Verif Require Import Base PyNum CtxModel ErrProps TableModel TableSpec.
Local Open Scope nat_scope.
From Coq Require Import Arith Lia.

Lemma each_app {S} (body : S -> nat -> res S) l l' s :
  each body s (l ++ l') = (do! s' <- each body s l; each body s' l').
Proof.
  revert s. induction l as [|a l IH]; intros s; [reflexivity|]. cbn.
  destruct (body s a) as [s1|e]; cbn; [apply IH|reflexivity].
Qed.

Lemma each_inv {S} (body : S -> nat -> res S) (I : S -> Prop) l s s' :
  (forall s k s', In k l -> I s -> body s k = Ok s' -> I s') -> I s -> each body s l = Ok s' -> I s'.
Proof.
  revert s. induction l as [|a l IH]; intros s Hb Hi H; cbn in H; [injection H as <-; exact Hi|].
  destruct (body s a) as [s1|e] eqn:E; cbn in H; [|discriminate H].
  eapply IH; [|eapply Hb; [left; reflexivity|exact Hi|exact E]|exact H].
  intros; eapply Hb; eauto. right; assumption.
Qed.

(** Fuel. *)
Lemma each_fuel {S} (b b' : S -> nat -> res S) l s s' :
  (forall s k s', In k l -> b s k = Ok s' -> b' s k = Ok s') -> each b s l = Ok s' -> each b' s l = Ok s'.
Proof.
  revert s. induction l as [|a l IH]; intros s Hb H; cbn in *; [exact H|].
  destruct (b s a) as [s1|e] eqn:E; cbn in H; [|discriminate H].
  rewrite (Hb _ _ _ (or_introl eq_refl) E). cbn. apply IH; [|exact H]. intros; eapply Hb; eauto.
Qed.

Lemma propagate_S f h : forall st n g st', propagate f h st n g = Ok st' -> propagate (S f) h st n g = Ok st'.
Proof.
  induction f as [|f IH]; intros st n g st' H; [discriminate H|].
  change (propagate (S f) h st n g) with
    (match h_class h n with
      | CAspect => each (fun s k => propagate f h s k g) st (h_kids h n)
      | _ => let st1 := if is_unspecified (st n) then upd st n g else st in
             each (fun s k => propagate f h s k (s n)) st1 (h_kids h n) end) in H.
  change (propagate (S (S f)) h st n g) with
    (match h_class h n with
      | CAspect => each (fun s k => propagate (S f) h s k g) st (h_kids h n)
      | _ => let st1 := if is_unspecified (st n) then upd st n g else st in
             each (fun s k => propagate (S f) h s k (s n)) st1 (h_kids h n) end).
  destruct (h_class h n); cbn zeta in *; (eapply each_fuel; [|exact H]; intros; apply IH; assumption).
Qed.

Lemma propagate_le f f' h st n g st' : f <= f' -> propagate f h st n g = Ok st' -> propagate f' h st n g = Ok st'.
Proof. induction 1; intros; auto using propagate_S. Qed.

Lemma propagate_all_le f f' h st ts st' : f <= f' ->
  propagate_all f h st ts = Ok st' -> propagate_all f' h st ts = Ok st'.
Proof.
  intros Hl. unfold propagate_all. apply each_fuel. intros s t s' _ H. unfold table_propagate in *.
  revert H. apply each_fuel. intros. eapply propagate_le; eauto.
Qed.

(** Termination. *)
Lemma each_total {S} (b : S -> nat -> res S) l s : (forall s k, In k l -> exists s', b s k = Ok s') ->
  exists s', each b s l = Ok s'.
Proof.
  revert s. induction l as [|a l IH]; intros s H; cbn; [eauto|].
  destruct (H s a (or_introl eq_refl)) as [s1 ->]. cbn. apply IH. intros; apply H. right; assumption.
Qed.

Lemma fuel_list (P : nat -> nat -> Prop) (l : list nat) :
  (forall f f' k, f <= f' -> P f k -> P f' k) -> (forall k, In k l -> exists f, P f k) ->
  exists f, forall k, In k l -> P f k.
Proof.
  intros Hm. induction l as [|a l IH]; intros H; [exists 0; intros k []|].
  destruct (H a (or_introl eq_refl)) as [f1 H1].
  destruct IH as [f2 H2]; [intros; apply H; right; assumption|].
  exists (Nat.max f1 f2). intros k [<-|Hk]; [apply (Hm f1); [lia|exact H1]|apply (Hm f2); [lia|auto]].
Qed.

Definition runs (h : heap) (f n : nat) : Prop := forall st g, exists st', propagate f h st n g = Ok st'.

Lemma runs_le h f f' n : f <= f' -> runs h f n -> runs h f' n.
Proof. intros Hl H st g. destruct (H st g) as [st' E]. exists st'. eapply propagate_le; eauto. Qed.

Lemma acc_runs h n : Acc (child h) n -> exists f, runs h f n.
Proof.
  induction 1 as [n _ IH].
  destruct (fuel_list (runs h) (h_kids h n)) as [f Hf]; [intros; eapply runs_le; eauto|exact IH|].
  exists (S f). intros st g. cbn [propagate].
  destruct (h_class h n); cbn zeta; apply each_total; intros s k Hk; apply Hf; exact Hk.
Qed.

Lemma each_all_ok {S} (b : S -> nat -> res S) l s s' k : each b s l = Ok s' -> In k l ->
  exists s1 s2, b s1 k = Ok s2.
Proof.
  revert s. induction l as [|a l IH]; intros s H Hk; [destruct Hk|]. cbn in H.
  destruct (b s a) as [s1|e] eqn:E; cbn in H; [|discriminate H].
  destruct Hk as [<-|Hk]; [eauto|]. eapply IH; eauto.
Qed.

Lemma ok_acc f h : forall st n g st', propagate f h st n g = Ok st' -> Acc (child h) n.
Proof.
  induction f as [|f IH]; intros st n g st' H; [discriminate H|]. constructor. intros k Hk.
  cbn [propagate] in H.
  destruct (h_class h n); cbn zeta in H;
    (destruct (each_all_ok _ _ _ _ _ H Hk) as (s1 & s2 & E); eapply IH; exact E).
Qed.

(** ** The orders *)

Lemma nearest_specified l : nearest l <> Unspecified.
Proof. induction l as [|[] l IH]; cbn; congruence. Qed.

Lemma is_unspecified_true o : is_unspecified o = true <-> o = Unspecified.
Proof. destruct o; cbn; split; congruence. Qed.

Lemma upd_same {A} (f : nat -> A) n v : upd f n v n = v.
Proof. unfold upd. rewrite Nat.eqb_refl. reflexivity. Qed.

Lemma upd_other {A} (f : nat -> A) n v m : m <> n -> upd f n v m = f m.
Proof. intros H. unfold upd. apply Nat.eqb_neq in H. rewrite H. reflexivity. Qed.

Definition keeps (st st' : orders) : Prop := forall n, st n <> Unspecified -> st' n = st n.

Lemma keeps_refl st : keeps st st.
Proof. intros n _. reflexivity. Qed.

Lemma keeps_trans a b c : keeps a b -> keeps b c -> keeps a c.
Proof. intros H1 H2 n Hn. rewrite (H2 n); [apply H1; exact Hn|rewrite (H1 n Hn); exact Hn]. Qed.

Lemma keeps_set st n g : keeps st (if is_unspecified (st n) then upd st n g else st).
Proof.
  intros m Hm. destruct (is_unspecified (st n)) eqn:E; [|reflexivity].
  apply is_unspecified_true in E. apply upd_other. congruence.
Qed.

Lemma each_keeps (b : orders -> nat -> res orders) l st st' :
  (forall s k s', b s k = Ok s' -> keeps s s') -> each b st l = Ok st' -> keeps st st'.
Proof.
  intros Hb H. apply (each_inv b (keeps st) l st st'); [|apply keeps_refl|exact H].
  intros s k s' _ Hs E. eapply keeps_trans; [exact Hs|eapply Hb; exact E].
Qed.

Lemma propagate_keeps f h : forall st n g st', propagate f h st n g = Ok st' -> keeps st st'.
Proof.
  induction f as [|f IH]; intros st n g st' H; [discriminate H|]. cbn [propagate] in H.
  destruct (h_class h n); cbn zeta in H;
    try (eapply each_keeps; [|exact H]; intros s0 k0 s0' E0; exact (IH _ _ _ _ E0));
    (eapply keeps_trans; [apply (keeps_set st n g)|eapply each_keeps; [|exact H]; intros s0 k0 s0' E0; exact (IH _ _ _ _ E0)]).
Qed.

Section Orders.
  Variables (h : heap) (o : orders) (tables : list nat).
  Hypothesis Hty : well_typed h.
  Hypothesis Htab : forall t, In t tables -> h_class h t = CTable.

  Local Notation pth := (path h o tables).

  Lemma path_own n l : pth n l -> exists l', l = own_order h o n :: l'.
  Proof. destruct 1; eauto. Qed.

  Lemma path_not_table n l : pth n l -> h_class h n <> CTable.
  Proof.
    destruct Hty as [H1 H2]. destruct 1 as [t b Ht Hb|m k l Hp Hk].
    - rewrite (H1 _ _ Hb). discriminate.
    - intros E. specialize (H2 _ _ Hk). rewrite E in H2. discriminate H2.
  Qed.

  (** Every order is the written one or the nearest one of some path. *)
  Definition inv (st : orders) : Prop := forall n,
    match h_class h n with
    | CAspect => st n = o n
    | CTable => st n = o n \/ (In n tables /\ st n = nearest [o n])
    | _ => st n = o n \/ exists l, pth n l /\ st n = nearest l
    end.

  (** [n] has been reached and will be called with [g]. *)
  Definition called (n : nat) (g : porder) : Prop := exists l, pth n (own_order h o n :: l) /\ nearest l = g.

  Lemma has_order_not n : has_order h n -> h_class h n <> CAspect /\ h_class h n <> CTable.
  Proof. unfold has_order. destruct (h_class h n); intros []; split; discriminate. Qed.

  Lemma inv_closed st n : inv st -> has_order h n -> st n = o n \/ exists l, pth n l /\ st n = nearest l.
  Proof. intros Hi. specialize (Hi n). unfold has_order. destruct (h_class h n); intros []; exact Hi. Qed.

  Lemma set_own st n g : inv st -> has_order h n -> called n g ->
    let st1 := if is_unspecified (st n) then upd st n g else st in
    inv st1 /\ exists l, pth n l /\ st1 n = nearest l.
  Proof.
    intros Hi Hn (l & Hp & Hg). cbn zeta.
    destruct (is_unspecified (st n)) eqn:E.
    - apply is_unspecified_true in E.
      assert (Ho : o n = Unspecified).
      { destruct (inv_closed _ _ Hi Hn) as [H|(l' & _ & H)]; [congruence|].
        exfalso. apply (nearest_specified l'). congruence. }
      assert (Hown : own_order h o n = Unspecified)
        by (unfold own_order; destruct (h_class h n); auto).
      assert (Hl : exists l, pth n l /\ upd st n g n = nearest l).
      { exists (own_order h o n :: l). split; [exact Hp|]. rewrite upd_same, Hown. cbn. congruence. }
      split; [|exact Hl]. intros m. destruct (Nat.eq_dec m n) as [->|Hm].
      + unfold has_order in Hn. destruct (h_class h n); try destruct Hn; right; exact Hl.
      + specialize (Hi m). rewrite (upd_other _ _ _ _ Hm). exact Hi.
    - split; [exact Hi|]. destruct (inv_closed _ _ Hi Hn) as [H|H]; [|exact H].
      exists (own_order h o n :: l). split; [exact Hp|].
      assert (Hown : own_order h o n = st n)
        by (rewrite H; unfold own_order, has_order in *; destruct (h_class h n); auto; destruct Hn).
      rewrite Hown. destruct (st n); cbn in *; auto; discriminate E.
  Qed.

  (** Reached from [n]. *)
  Inductive below : nat -> nat -> Prop :=
  | below_refl n : below n n
  | below_kid n k m : child h k n -> below k m -> below n m.

  Lemma each_calls (b : orders -> nat -> res orders) (P : orders -> nat -> Prop) (J : orders -> Prop) l st st' :
    (forall s k s', In k l -> J s -> b s k = Ok s' -> J s' /\ P s' k) ->
    (forall s s' k, In k l -> J s -> b s k = Ok s' -> forall m, P s m -> P s' m) ->
    J st -> each b st l = Ok st' -> J st' /\ forall k, In k l -> P st' k.
  Proof.
    revert st. induction l as [|a l IH]; intros st H1 H2 Hj H; cbn in H.
    - injection H as <-. split; [exact Hj|intros k []].
    - destruct (b st a) as [s1|e] eqn:E; cbn in H; [|discriminate H].
      destruct (H1 _ _ _ (or_introl eq_refl) Hj E) as [Hj1 Hp1].
      destruct (IH s1) as [Hj' Hr]; [intros; eapply H1; eauto; right; assumption|intros; eapply H2; eauto; right; assumption|exact Hj1|exact H|].
      split; [exact Hj'|]. intros k [<-|Hk]; [|auto].
      enough (Hgen : J st' /\ P st' a) by apply Hgen.
      refine (each_inv b (fun s => J s /\ P s a) l s1 st' _ (conj Hj1 Hp1) H).
      intros s k0 s' Hin [Hjs Hps] Es. split.
      + eapply H1; [right; exact Hin|exact Hjs|exact Es].
      + eapply H2; [right; exact Hin|exact Hjs|exact Es|exact Hps].
  Qed.

  (** All objects below have an order. *)
  Definition done (st : orders) (n : nat) : Prop := forall m, below n m -> has_order h m -> st m <> Unspecified.

  Lemma done_keeps st st' n : keeps st st' -> done st n -> done st' n.
  Proof. intros Hk Hd m Hb Hm. rewrite (Hk m (Hd m Hb Hm)). exact (Hd m Hb Hm). Qed.

  Lemma done_kids st n : (has_order h n -> st n <> Unspecified) ->
    (forall k, In k (h_kids h n) -> done st k) -> done st n.
  Proof.
    intros Hn Hk m Hb Hm. destruct Hb as [n|n k m Hc Hb]; [auto|]. exact (Hk k Hc m Hb Hm).
  Qed.

  Lemma propagate_inv f : forall st n g st', inv st -> called n g ->
    propagate f h st n g = Ok st' -> inv st' /\ done st' n.
  Proof.
    induction f as [|f IH]; intros st n g st' Hi Hc H; [discriminate H|]. cbn [propagate] in H.
    assert (Hcase : h_class h n = CAspect \/ has_order h n).
    { destruct Hc as (l & Hp & _). apply path_not_table in Hp. unfold has_order.
      destruct (h_class h n); auto; congruence. }
    destruct Hcase as [Hcl|Hho].
    - rewrite Hcl in H.
      assert (Hk : inv st' /\ forall k, In k (h_kids h n) -> done st' k).
      { eapply (each_calls _ done inv); [| |exact Hi|exact H].
        - intros s k s' Hin Hs E. eapply IH; [exact Hs| |exact E].
          destruct Hc as (l & Hp & Hg). exists (own_order h o n :: l).
          split; [apply path_kid with n; assumption|]. unfold own_order. rewrite Hcl. exact Hg.
        - intros s s' k Hin Hs E m Hm. eapply done_keeps; [eapply propagate_keeps; exact E|exact Hm]. }
      destruct Hk as [Hi' Hk]. split; [exact Hi'|]. apply done_kids; [|exact Hk].
      unfold has_order. rewrite Hcl. intros [].
    - destruct (set_own _ _ _ Hi Hho Hc) as [Hi1 (l & Hl & Hn1)]. cbn zeta in *.
      set (st1 := if is_unspecified (st n) then upd st n g else st) in *.
      assert (H' : each (fun s k => propagate f h s k (s n)) st1 (h_kids h n) = Ok st').
      { unfold has_order in Hho. destruct (h_class h n); try destruct Hho; exact H. }
      assert (Hk : (inv st' /\ st' n = nearest l) /\ forall k, In k (h_kids h n) -> done st' k).
      { eapply (each_calls _ done (fun s => inv s /\ s n = nearest l)); [| |split; [exact Hi1|exact Hn1]|exact H'].
        - intros s k s' Hin [Hs Hsn] E.
          assert (Hck : called k (s n)).
          { exists l. split; [apply path_kid with n; [exact Hl|exact Hin]|symmetry; exact Hsn]. }
          destruct (IH _ _ _ _ Hs Hck E) as [Hs' Hd]. split; [split; [exact Hs'|]|exact Hd].
          rewrite (propagate_keeps _ _ _ _ _ _ E n); [exact Hsn|]. rewrite Hsn. apply nearest_specified.
        - intros s s' k Hin Hs E m Hm. eapply done_keeps; [eapply propagate_keeps; exact E|exact Hm]. }
      destruct Hk as [[Hi' Hn'] Hk]. split; [exact Hi'|]. apply done_kids; [|exact Hk].
      intros _. rewrite Hn'. apply nearest_specified.
  Qed.

  Lemma table_keeps f st t st' : table_propagate f h st t = Ok st' -> keeps st st'.
  Proof.
    unfold table_propagate. intros H. eapply keeps_trans; [apply (keeps_set st t ParentFirst)|].
    eapply each_keeps; [|exact H]. intros s0 k0 s0' E0. exact (propagate_keeps _ _ _ _ _ _ E0).
  Qed.

  Definition table_done (st : orders) (t : nat) : Prop :=
    st t <> Unspecified /\ forall b, In b (breakdowns_of h t) -> done st b.

  Lemma table_inv f st t st' : inv st -> In t tables -> table_propagate f h st t = Ok st' ->
    inv st' /\ table_done st' t.
  Proof.
    intros Hi Ht. unfold table_propagate.
    assert (H1 : let st1 := if is_unspecified (st t) then upd st t ParentFirst else st in
                 inv st1 /\ st1 t = nearest [o t]).
    { cbn zeta. pose proof (Hi t) as Hit. rewrite (Htab _ Ht) in Hit.
      destruct (is_unspecified (st t)) eqn:E.
      - apply is_unspecified_true in E. rewrite upd_same.
        assert (Ho : o t = Unspecified).
        { destruct Hit as [H|[_ H]]; [congruence|]. exfalso. apply (nearest_specified [o t]). congruence. }
        rewrite Ho. split; [|reflexivity]. intros m. destruct (Nat.eq_dec m t) as [->|Hm].
        + rewrite (Htab _ Ht). right. rewrite upd_same, Ho. auto.
        + specialize (Hi m). rewrite (upd_other _ _ _ _ Hm). exact Hi.
      - split; [exact Hi|]. destruct Hit as [H|[_ H]]; [|exact H].
        rewrite <- H. destruct (st t); cbn in *; auto; discriminate E. }
    cbn zeta in H1. destruct H1 as [Hi1 Ht1]. cbn zeta.
    set (st1 := if is_unspecified (st t) then upd st t ParentFirst else st) in *. intros H.
    assert (Hk : (inv st' /\ st' t = nearest [o t]) /\ forall b, In b (breakdowns_of h t) -> done st' b).
    { eapply (each_calls _ done (fun s => inv s /\ s t = nearest [o t])); [| |split; [exact Hi1|exact Ht1]|exact H].
      - intros s b s' Hin [Hs Hst] E.
        assert (Hcb : called b (s t)).
        { exists [o t]. split; [apply path_breakdown; assumption|symmetry; exact Hst]. }
        destruct (propagate_inv _ _ _ _ _ Hs Hcb E) as [Hs' Hd]. split; [split; [exact Hs'|]|exact Hd].
        rewrite (propagate_keeps _ _ _ _ _ _ E t); [exact Hst|]. rewrite Hst. apply nearest_specified.
      - intros s s' k Hin Hs E m Hm. eapply done_keeps; [eapply propagate_keeps; exact E|exact Hm]. }
    destruct Hk as [[Hi' Ht'] Hk]. split; [exact Hi'|]. split; [|exact Hk].
    rewrite Ht'. apply nearest_specified.
  Qed.

  Lemma inv_start : inv o.
  Proof. intros n. destruct (h_class h n); auto. Qed.

  Lemma all_inv f st' : propagate_all f h o tables = Ok st' ->
    inv st' /\ forall t, In t tables -> table_done st' t.
  Proof.
    intros H. eapply (each_calls _ table_done inv); [| |exact inv_start|exact H].
    - intros s t s' Hin Hs E. eapply table_inv; eauto.
    - intros s s' t Hin Hs E m [Hm1 Hm2]. pose proof (table_keeps _ _ _ _ E) as Hk. split.
      + rewrite (Hk m Hm1). exact Hm1.
      + intros b Hb. eapply done_keeps; [exact Hk|auto].
  Qed.

  Lemma below_app a n k : below a n -> child h k n -> below a k.
  Proof.
    induction 1 as [n|n k' m Hc Hb IH]; intros Hk.
    - eapply below_kid; [exact Hk|apply below_refl].
    - eapply below_kid; [exact Hc|apply IH; exact Hk].
  Qed.

  Lemma path_below n l : pth n l -> exists t b, In t tables /\ In b (breakdowns_of h t) /\ below b n.
  Proof.
    induction 1 as [t b Ht Hb|n k l Hp (t & b & Ht & Hb & Hbl) Hk].
    - exists t, b. repeat split; auto. apply below_refl.
    - exists t, b. repeat split; auto. eapply below_app; eauto.
  Qed.

  Lemma reached_order f st' n l : propagate_all f h o tables = Ok st' -> pth n l -> has_order h n ->
    exists l', pth n l' /\ st' n = nearest l'.
  Proof.
    intros H Hp Hn. destruct (all_inv _ _ H) as [Hi Hd].
    destruct (inv_closed _ _ Hi Hn) as [E|E]; [|exact E].
    exists l. split; [exact Hp|]. destruct (path_own _ _ Hp) as [l' ->].
    assert (Ho : own_order h o n = st' n)
      by (rewrite E; unfold own_order, has_order in *; destruct (h_class h n); auto; destruct Hn).
    rewrite Ho. destruct (path_below _ _ Hp) as (t & b & Ht & Hb & Hbl).
    destruct (Hd _ Ht) as [_ Hdb]. specialize (Hdb _ Hb _ Hbl Hn).
    destruct (st' n); cbn; auto; congruence.
  Qed.

  Lemma table_order f st' t : propagate_all f h o tables = Ok st' -> In t tables -> st' t = nearest [o t].
  Proof.
    intros H Ht. destruct (all_inv _ _ H) as [Hi Hd]. destruct (Hd _ Ht) as [Hu _].
    specialize (Hi t). rewrite (Htab _ Ht) in Hi. destruct Hi as [E|[_ E]]; [|exact E].
    rewrite <- E. destruct (st' t); cbn; auto; congruence.
  Qed.

  Lemma unreached_order f st' n : propagate_all f h o tables = Ok st' -> ~ In n tables ->
    (forall l, ~ pth n l) -> st' n = o n.
  Proof.
    intros H Hn Hp. destruct (all_inv _ _ H) as [Hi _]. specialize (Hi n).
    destruct (h_class h n); try exact Hi; destruct Hi as [E|E]; auto;
      try (destruct E as [E _]; contradiction); destruct E as (l & E & _); exfalso; exact (Hp _ E).
  Qed.

  (** In a forest there is one path to an object, up to the table's own breakdown lists. *)
  Lemma path_unique n l l' : forest h tables -> pth n l -> pth n l' -> l = l'.
  Proof.
    intros (F1 & F2 & F3) H. revert l'. induction H as [t b Ht Hb|m k l Hp IH Hk]; intros l' H'.
    - inversion H' as [t' b' Ht' Hb'|m k l0 Hp' Hk']; subst.
      + rewrite (F2 _ _ _ Ht Ht' Hb Hb'). reflexivity.
      + exfalso. exact (F3 _ _ _ Ht Hb Hk').
    - inversion H' as [t' b' Ht' Hb'|m' k' l0 Hp' Hk']; subst.
      + exfalso. exact (F3 _ _ _ Ht' Hb' Hk).
      + rewrite (F1 _ _ _ Hk Hk') in *. f_equal. apply IH. exact Hp'.
  Qed.
End Orders.

(** Everything a table contains is free of cycles exactly when propagation ends. *)
Lemma propagate_all_total h o tables :
  (forall t b, In t tables -> In b (breakdowns_of h t) -> Acc (child h) b) ->
  exists f st', propagate_all f h o tables = Ok st'.
Proof.
  intros Ha.
  destruct (fuel_list (runs h) (flat_map (breakdowns_of h) tables)) as [f Hf].
  { intros; eapply runs_le; eauto. }
  { intros b Hb. apply in_flat_map in Hb. destruct Hb as (t & Ht & Hb). apply acc_runs. eauto. }
  exists f. unfold propagate_all. apply each_total. intros s t Ht. unfold table_propagate. apply each_total.
  intros s' b Hb. apply Hf. apply in_flat_map. eauto.
Qed.

Lemma propagate_all_acc f h o tables st' : propagate_all f h o tables = Ok st' ->
  forall t b, In t tables -> In b (breakdowns_of h t) -> Acc (child h) b.
Proof.
  unfold propagate_all. intros H t b Ht Hb.
  destruct (each_all_ok _ _ _ _ _ H Ht) as (s1 & s2 & E). unfold table_propagate in E.
  destruct (each_all_ok _ _ _ _ _ E Hb) as (s3 & s4 & E'). eapply ok_acc. exact E'.
Qed.

(** ** Linking *)

Lemma add_unique_values label n d k m : In (k, m) (add_unique label n d) -> m = n \/ In (k, m) d.
Proof.
  unfold add_unique. destruct label as [[|c l]|]; auto. set (l0 := c :: l).
  induction d as [|[k' v'] d IH]; cbn.
  - intros [E|[]]. injection E as _ <-. auto.
  - destruct (str_eqb k' l0); cbn.
    + intros [E|E]; [injection E as _ <-; auto|auto].
    + intros [E|E]; [auto|]. destruct (IH E); auto.
Qed.

Definition labels_ok (c : nat -> cls) (L : labels) : Prop :=
  (forall k m, In (k, m) (l_tables L) -> c m = CTable) /\
  (forall k m, In (k, m) (l_breakdowns L) -> c m = CBreakdown) /\
  (forall k m, In (k, m) (l_nodes L) -> is_node (c m) = true).

Lemma collect_ok c items : forall n L,
  (forall i r, nth_error items i = Some (IResource r) -> c (n + i) = r_class r) ->
  labels_ok c L -> labels_ok c (collect items n L).
Proof.
  induction items as [|it items IH]; intros n L Hc HL; [exact HL|]. cbn.
  assert (Hrest : forall i r, nth_error items i = Some (IResource r) -> c (S n + i) = r_class r).
  { intros i r H. rewrite <- (Hc (S i) r H). f_equal. lia. }
  destruct it as [r|a]; [|apply IH; assumption]. apply IH; [exact Hrest|].
  pose proof (Hc 0 r eq_refl) as Hr. rewrite Nat.add_0_r in Hr. destruct HL as (H1 & H2 & H3).
  destruct (r_class r) eqn:Er; repeat split; cbn [l_tables l_breakdowns l_nodes]; intros k m Hm; eauto;
    (apply add_unique_values in Hm; destruct Hm as [->|Hm]; [rewrite Hr; reflexivity|eauto]).
Qed.

Lemma dict_get_In (d : list (str * nat)) k v : dict_get str_eqb d k = Some v -> exists k', In (k', v) d.
Proof.
  induction d as [|[k' v'] d IH]; cbn; [discriminate|]. destruct (str_eqb k' k).
  - intros [= <-]. eauto.
  - intros H. destruct (IH H) as [k2 H2]. eauto.
Qed.

Lemma lookup_In label d m : lookup label d = Some m -> exists k, In (k, m) d.
Proof. unfold lookup. destruct label as [[|c l]|]; try discriminate. apply dict_get_In. Qed.

Lemma snoc_at_In f n k m x : In x (snoc_at f n k m) -> In x (f m) \/ (m = n /\ x = k).
Proof.
  unfold snoc_at, upd. destruct (Nat.eqb m n) eqn:E; [|auto]. apply Nat.eqb_eq in E. subst m.
  rewrite in_app_iff. intros [H|[H|[]]]; auto.
Qed.

Lemma snoc_at_kids f n k m x : In x (f m) -> In x (snoc_at f n k m).
Proof.
  intros H. unfold snoc_at, upd. destruct (Nat.eqb m n) eqn:E; [|exact H]. apply Nat.eqb_eq in E. subst m.
  apply in_or_app. auto.
Qed.

Lemma add_breakdown_spec h t b axis h' : add_breakdown h t b axis = Ok h' ->
  h_class h' = h_class h /\ h_kids h' = h_kids h /\
  (forall m x, In x (breakdowns_of h' m) <-> In x (breakdowns_of h m) \/ (m = t /\ x = b)).
Proof.
  intros H. unfold add_breakdown in H. destruct axis as [s|]; [|discriminate H].
  destruct (str_eqb s (u "x")); [|destruct (str_eqb s (u "y")); [|destruct (str_eqb s (u "z")); [|discriminate H]]];
    injection H as <-; (split; [reflexivity|split; [reflexivity|]]); intros m x; unfold breakdowns_of;
    cbn [h_x h_y h_z]; rewrite !in_app_iff; split; intros H.
  all: try (destruct H as [H|[H|H]]; [try (apply snoc_at_In in H)|try (apply snoc_at_In in H)|try (apply snoc_at_In in H)];
            try destruct H as [H|H]; auto).
  all: destruct H as [[H|[H|H]]|[-> ->]]; auto using snoc_at_kids.
  all: unfold snoc_at; rewrite upd_same, in_app_iff; cbn; auto.
Qed.

Lemma parse_arc_class L h a h' : parse_arc L h a = Ok h' -> h_class h' = h_class h.
Proof.
  unfold parse_arc. destruct (a_kind a).
  - destruct (lookup _ (l_tables L)); [|intros [= <-]; reflexivity].
    destruct (lookup _ (l_breakdowns L)); [|intros [= <-]; reflexivity].
    intros H. apply bind_ok in H. destruct H as (h1 & H1 & H). apply bind_ok in H. destruct H as (z & _ & H).
    injection H as <-. apply (add_breakdown_spec _ _ _ _ _ H1).
  - destruct (lookup _ (l_breakdowns L)); [|intros [= <-]; reflexivity].
    destruct (lookup _ (l_nodes L)); [|intros [= <-]; reflexivity].
    intros H. apply bind_ok in H. destruct H as (z & _ & H). injection H as <-. reflexivity.
  - destruct (lookup (a_from a) _); [|intros [= <-]; reflexivity].
    destruct (lookup (a_to a) _); [|intros [= <-]; reflexivity].
    destruct (h_class h n); try (intros [= <-]; reflexivity);
      intros H; apply bind_ok in H; destruct H as (z & _ & H); injection H as <-; reflexivity.
Qed.

Lemma parse_arc_typed L h a h' : labels_ok (h_class h) L -> well_typed h -> parse_arc L h a = Ok h' ->
  well_typed h'.
Proof.
  intros (L1 & L2 & L3) [T1 T2] H. pose proof (parse_arc_class _ _ _ _ H) as Hc.
  assert (Hk : forall n k, lookup (a_to a) (l_nodes L) = Some k -> well_typed (add_kid h n k)).
  { intros n k Hk. apply lookup_In in Hk. destruct Hk as [lb Hk]. apply L3 in Hk. split; [exact T1|].
    intros m x Hx. unfold child in Hx. cbn in Hx. apply snoc_at_In in Hx. destruct Hx as [Hx|[_ ->]].
    - exact (T2 _ _ Hx).
    - exact Hk. }
  unfold parse_arc in H. destruct (a_kind a).
  - destruct (lookup _ (l_tables L)) as [t|]; [|injection H as <-; split; assumption].
    destruct (lookup _ (l_breakdowns L)) as [b|] eqn:Eb; [|injection H as <-; split; assumption].
    apply bind_ok in H. destruct H as (h1 & H1 & H). apply bind_ok in H. destruct H as (z & _ & H).
    injection H as <-. apply add_breakdown_spec in H1. destruct H1 as (_ & Hkids & Hb).
    apply lookup_In in Eb. destruct Eb as [lb Eb]. apply L2 in Eb. split.
    + intros m x Hx. rewrite Hc. apply Hb in Hx. destruct Hx as [Hx|[_ ->]]; eauto.
    + intros m x Hx. rewrite Hc. unfold child in Hx. rewrite Hkids in Hx. exact (T2 _ _ Hx).
  - destruct (lookup _ (l_breakdowns L)) as [b|]; [|injection H as <-; split; assumption].
    destruct (lookup _ (l_nodes L)) as [k|] eqn:Ek; [|injection H as <-; split; assumption].
    apply bind_ok in H. destruct H as (z & _ & H). injection H as <-. apply Hk. reflexivity.
  - destruct (lookup (a_from a) _) as [n|]; [|injection H as <-; split; assumption].
    destruct (lookup (a_to a) _) as [k|] eqn:Ek; [|injection H as <-; split; assumption].
    destruct (h_class h n); try (injection H as <-; split; assumption);
      apply bind_ok in H; destruct H as (z & _ & H); injection H as <-; apply Hk; reflexivity.
Qed.

Lemma link_arcs_typed L items : forall h h', labels_ok (h_class h) L -> well_typed h ->
  link_arcs L h items = Ok h' -> well_typed h' /\ h_class h' = h_class h.
Proof.
  induction items as [|it items IH]; intros h h' HL HT H; cbn in H; [injection H as <-; auto|].
  destruct it as [r|a]; [apply IH; assumption|].
  apply bind_ok in H. destruct H as (h1 & H1 & H). pose proof (parse_arc_class _ _ _ _ H1) as Hc.
  destruct (IH h1 h') as [H2 H3]; [rewrite Hc; exact HL|eapply parse_arc_typed; eauto|exact H|].
  split; [exact H2|congruence].
Qed.

Lemma collect_items items : labels_ok (class_at items) (collect items 0 (Labels [] [] [])).
Proof.
  apply collect_ok; [|repeat split; intros k m []].
  intros i r H. cbn. unfold class_at. rewrite H. reflexivity.
Qed.
