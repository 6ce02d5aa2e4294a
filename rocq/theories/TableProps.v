(** C45 (parent-child orders flow down the definition tree), C59 (tables of table linkbases). *)
From Verif Require Import Base PyNum CtxModel ErrProps TableModel TableSpec TableProofs.
From Coq Require Import Arith Lia.
Local Open Scope nat_scope.

(** * C45: parent-child order *)

(** Propagation ends exactly when nothing below the tables contains itself. *)
Theorem C45_ends_iff (h : heap) (o : orders) (tables : list nat) :
  (exists fuel st, propagate_all fuel h o tables = Ok st) <->
  (forall t b, In t tables -> In b (breakdowns_of h t) -> Acc (child h) b).
Proof.
  split.
  - intros (f & st & H). exact (propagate_all_acc _ _ _ _ _ H).
  - apply propagate_all_total.
Qed.

(** When it ends (with any fuel, and then with any larger one), every table has its own order or
    parent-first; every breakdown and closed node in a table has the order of the nearest object that
    gives one (itself, its parent, ..., the table; parent-first if none does) on a path from a table;
    everything else is as it was. *)
Theorem C45_order (h : heap) (o : orders) (tables : list nat) fuel st :
  well_typed h -> (forall t, In t tables -> h_class h t = CTable) ->
  propagate_all fuel h o tables = Ok st ->
  (forall fuel', fuel <= fuel' -> propagate_all fuel' h o tables = Ok st) /\
  (forall t, In t tables -> st t = nearest [o t]) /\
  (forall n l, path h o tables n l -> has_order h n ->
     exists l', path h o tables n l' /\ st n = nearest l') /\
  (forall n, ~ In n tables -> (forall l, ~ path h o tables n l) -> st n = o n).
Proof.
  intros Hty Htab H. split; [|split; [|split]].
  - intros f' Hf. eapply propagate_all_le; eauto.
  - intros t Ht. eapply table_order; eauto.
  - intros n l Hp Hn. eapply reached_order; eauto.
  - intros n Hn Hp. eapply unreached_order; eauto.
Qed.

(** In a forest the path is the only one, so that the order is that of the nearest specified
    ancestor. *)
Theorem C45_forest (h : heap) (o : orders) (tables : list nat) fuel st :
  well_typed h -> (forall t, In t tables -> h_class h t = CTable) -> forest h tables ->
  propagate_all fuel h o tables = Ok st ->
  forall n l, path h o tables n l -> has_order h n -> st n = nearest l.
Proof.
  intros Hty Htab Hf H n l Hp Hn. destruct (reached_order h o tables Hty Htab fuel st n l H Hp Hn) as (l' & Hp' & ->).
  rewrite (path_unique h o tables n l l' Hf Hp Hp'). reflexivity.
Qed.

(** No object below a table is left without an order, and a written order is never replaced. *)
Theorem C45_specified (h : heap) (o : orders) (tables : list nat) fuel st :
  well_typed h -> (forall t, In t tables -> h_class h t = CTable) ->
  propagate_all fuel h o tables = Ok st ->
  (forall t, In t tables -> st t <> Unspecified) /\
  (forall n l, path h o tables n l -> has_order h n -> st n <> Unspecified) /\
  (forall n, o n <> Unspecified -> st n = o n).
Proof.
  intros Hty Htab H. split; [|split].
  - intros t Ht. rewrite (table_order h o tables Hty Htab fuel st t H Ht). apply nearest_specified.
  - intros n l Hp Hn. destruct (reached_order h o tables Hty Htab fuel st n l H Hp Hn) as (l' & _ & ->).
    apply nearest_specified.
  - intros n Hn.
    assert (Hk : keeps o st).
    { unfold propagate_all in H. eapply each_keeps; [|exact H]. intros s k s' E. exact (table_keeps h _ _ _ _ E). }
    exact (Hk n Hn).
Qed.

(** The extended link: what the parser builds meets the conditions of the theorems above, and its
    tables are the labelled table elements. *)
Theorem C45_document fuel (items : list item) tables h st :
  parse_link fuel items = Ok (tables, h, st) ->
  well_typed h /\ (forall t, In t tables -> h_class h t = CTable) /\
  (forall n r, nth_error items n = Some (IResource r) -> h_class h n = r_class r /\ order_at items n = r_order r) /\
  propagate_all fuel h (order_at items) tables = Ok st.
Proof.
  intros H. unfold parse_link in H. cbv zeta in H. apply bind_ok in H. destruct H as (h1 & H1 & H).
  apply bind_ok in H. destruct H as (st1 & H2 & H). injection H as <- <- <-.
  pose proof (collect_items items) as HL.
  assert (H0 : well_typed (empty_heap items)) by (split; intros ? ? []).
  destruct (link_arcs_typed _ _ _ _ (HL : labels_ok (h_class (empty_heap items)) _) H0 H1) as [Ht Hc].
  split; [exact Ht|]. split; [|split; [|exact H2]].
  - intros t Hin. apply in_map_iff in Hin. destruct Hin as ([k m] & <- & Hin). rewrite Hc.
    destruct HL as [HL _]. exact (HL _ _ Hin).
  - intros n r E. rewrite Hc. cbn. unfold class_at, order_at. rewrite E. auto.
Qed.

(** A node below two parents takes the order of the one that is visited first: the order in which
    the arcs are written decides, not the document's structure. *)
Definition shared_items (first second : string) : list item :=
  [ IResource (Resource CTable Unspecified (Some (u "t")));
    IResource (Resource CBreakdown ChildrenFirst (Some (u "a")));
    IResource (Resource CBreakdown ParentFirst (Some (u "b")));
    IResource (Resource CRule Unspecified (Some (u "n")));
    IArc (Arc TableBreakdown (Some (u "t")) (Some (u first)) (Some (u "x")) (Some (u "1")));
    IArc (Arc TableBreakdown (Some (u "t")) (Some (u second)) (Some (u "x")) (Some (u "1")));
    IArc (Arc BreakdownTree (Some (u "a")) (Some (u "n")) None (Some (u "1")));
    IArc (Arc BreakdownTree (Some (u "b")) (Some (u "n")) None (Some (u "1"))) ].

Definition order_in (fuel : nat) (items : list item) (n : nat) : option porder :=
  match parse_link fuel items with Ok (_, _, st) => Some (st n) | Raise _ => None end.

Theorem C45_shared_refuted :
  order_in 3 (shared_items "a" "b") 3 = Some ChildrenFirst /\
  order_in 3 (shared_items "b" "a") 3 = Some ParentFirst.
Proof. split; vm_compute; reflexivity. Qed.

(** Two nodes that are each other's children: the parser recurses for ever. *)
Definition cyclic_items : list item :=
  [ IResource (Resource CTable Unspecified (Some (u "t")));
    IResource (Resource CBreakdown Unspecified (Some (u "b")));
    IResource (Resource CRule Unspecified (Some (u "m")));
    IResource (Resource CAspect Unspecified (Some (u "n")));
    IArc (Arc TableBreakdown (Some (u "t")) (Some (u "b")) (Some (u "y")) (Some (u "1")));
    IArc (Arc BreakdownTree (Some (u "b")) (Some (u "m")) None (Some (u "1")));
    IArc (Arc NodeSubtree (Some (u "m")) (Some (u "n")) None (Some (u "1")));
    IArc (Arc NodeSubtree (Some (u "n")) (Some (u "m")) None (Some (u "1"))) ].

Theorem C45_cycle_refuted : forall fuel r, parse_link fuel cyclic_items <> Ok r.
Proof.
  intros fuel [[tables h] st] H. unfold parse_link in H. cbv zeta in H.
  apply bind_ok in H. destruct H as (h1 & H1 & H). apply bind_ok in H. destruct H as (st1 & H2 & _).
  assert (Hh : child h1 1 0 \/ (In 1 (breakdowns_of h1 0) /\ child h1 2 1 /\ child h1 3 2 /\ child h1 2 3)).
  { right. vm_compute in H1. injection H1 as <-. repeat split; vm_compute; auto. }
  destruct Hh as [Hh|(Hb & Hc1 & Hc2 & Hc3)]; [vm_compute in H1; injection H1 as <-; vm_compute in Hh; tauto|].
  assert (A : Acc (child h1) 1).
  { eapply (propagate_all_acc _ _ _ _ _ H2 0); [vm_compute; auto|exact Hb]. }
  pose proof (Acc_inv A Hc1) as A2.
  assert (N : forall x, Acc (child h1) x -> x = 2 \/ x = 3 -> False).
  { induction 1 as [x _ IH]. intros [->| ->]; [apply (IH 3)|apply (IH 2)]; auto. }
  exact (N 2 A2 (or_introl eq_refl)).
Qed.

(** A table with one breakdown and a chain of nodes, one of them an aspect node. *)
Example C45_document_example :
  let items :=
    [ IResource (Resource CTable Unspecified (Some (u "t")));
      IResource (Resource CBreakdown Unspecified (Some (u "b")));
      IResource (Resource CRule ChildrenFirst (Some (u "m")));
      IResource (Resource CAspect Unspecified (Some (u "a")));
      IResource (Resource CRelationship Unspecified (Some (u "n")));
      IArc (Arc TableBreakdown (Some (u "t")) (Some (u "b")) (Some (u "y")) (Some (u "1")));
      IArc (Arc BreakdownTree (Some (u "b")) (Some (u "m")) None (Some (u "1")));
      IArc (Arc NodeSubtree (Some (u "m")) (Some (u "a")) None (Some (u "1")));
      IArc (Arc NodeSubtree (Some (u "a")) (Some (u "n")) None (Some (u "2"))) ] in
  match parse_link 5 items with
  | Ok (tables, _, st) => tables = [0] /\ map st [0; 1; 2; 4] = [ParentFirst; ParentFirst; ChildrenFirst; ChildrenFirst]
  | Raise _ => False
  end.
Proof. vm_compute. auto. Qed.

(** The conditions of [C45_forest] hold for a table with a breakdown and two nodes. *)
Example C45_forest_example :
  let h := Heap (fun n => match n with 0 => CTable | 1 => CBreakdown | _ => CRule end)
                (fun n => match n with 1 => [2; 3] | _ => [] end)
                (fun n => match n with 0 => [1] | _ => [] end) (fun _ => []) (fun _ => []) in
  let o := fun n => match n with 1 => ChildrenFirst | _ => Unspecified end in
  well_typed h /\ (forall t, In t [0] -> h_class h t = CTable) /\ forest h [0] /\
  is_ok (propagate_all 3 h o [0]) = true /\ path h o [0] 3 [Unspecified; ChildrenFirst; Unspecified] /\
  has_order h 3.
Proof.
  cbn zeta. split; [|split; [|split; [|split; [|split]]]].
  - split.
    + intros [|t] b; cbn; [intros [<-|[]]; reflexivity|intros []].
    + intros [|[|n]] k Hk; cbn in Hk; try destruct Hk as [<-|[<-|[]]]; try destruct Hk; reflexivity.
  - intros t [<-|[]]. reflexivity.
  - split; [|split].
    + intros [|[|n]] [|[|n']] k; cbn; tauto.
    + intros t t' b [<-|[]] [<-|[]]. reflexivity.
    + intros t b n [<-|[]] [<-|[]] Hc. destruct n as [|[|n]]; cbn in Hc; intuition discriminate.
  - reflexivity.
  - set (h := Heap _ _ _ _ _). set (o := fun n : nat => _).
    refine (path_kid h o [0] 1 3 [ChildrenFirst; Unspecified] _ _); [|cbn; auto].
    refine (path_breakdown h o [0] 0 1 _ _); cbn; auto.
  - exact I.
Qed.

(** * C59: the tables of table linkbases *)

(** The values a parent-child order attribute may have. *)
Theorem C59_written_order (element : xml) :
  match parse_parent_child_order element with
  | Ok ParentFirst => attr element (u "parentChildOrder") = Some (u "parent-first")
  | Ok ChildrenFirst => attr element (u "parentChildOrder") = Some (u "children-first")
  | Ok Unspecified => attr element (u "parentChildOrder") = None \/ attr element (u "parentChildOrder") = Some []
  | Raise e => e = ValueError /\ exists v, attr element (u "parentChildOrder") = Some v /\
      v <> u "parent-first" /\ v <> u "children-first" /\ v <> []
  end.
Proof.
  unfold parse_parent_child_order, porder_of. destruct (attr element (u "parentChildOrder")) as [v|].
  - destruct (str_eqb_spec v (u "parent-first")) as [->|N1]; [reflexivity|].
    destruct (str_eqb_spec v (u "children-first")) as [->|N2]; [reflexivity|].
    destruct (str_eqb_spec v []) as [->|N3]; [auto|]. split; [reflexivity|]. eauto.
  - cbn. auto.
Qed.

(** The order attribute of an arc is optional, with the default 1; yet an arc that links two
    resources and leaves the order out makes the whole link unreadable. *)
Definition links (L : labels) (c : nat -> cls) (a : arc) : Prop :=
  match a_kind a with
  | TableBreakdown => lookup (a_from a) (l_tables L) <> None /\ lookup (a_to a) (l_breakdowns L) <> None
  | BreakdownTree => lookup (a_from a) (l_breakdowns L) <> None /\ lookup (a_to a) (l_nodes L) <> None
  | NodeSubtree => (exists n, lookup (a_from a) (l_nodes L) = Some n /\ c n <> CRelationship) /\
                   lookup (a_to a) (l_nodes L) <> None
  end.

Lemma arc_fails L h a e : parse_arc L h a = Raise e -> e = ValueError.
Proof.
  assert (Ho : forall A (f : Z -> res A), (forall z, exists v, f z = Ok v) -> forall e, (do! z <- arc_order a; f z) = Raise e -> e = ValueError).
  { intros A f Hf e'. unfold arc_order. destruct (py_int _) as [z|]; cbn; [|congruence].
    destruct (Hf z) as [v ->]. discriminate. }
  unfold parse_arc. destruct (a_kind a).
  - destruct (lookup _ (l_tables L)) as [t|]; [|discriminate]. destruct (lookup _ (l_breakdowns L)) as [b|]; [|discriminate].
    destruct (add_breakdown h t b (a_axis a)) as [h'|e'] eqn:E; cbn.
    + apply (Ho _ (fun _ => Ok h')). eauto.
    + intros [= <-]. unfold add_breakdown in E. destruct (a_axis a) as [s|]; [|congruence].
      destruct (str_eqb s (u "x")); [discriminate|]. destruct (str_eqb s (u "y")); [discriminate|].
      destruct (str_eqb s (u "z")); [discriminate|]. congruence.
  - destruct (lookup _ (l_breakdowns L)) as [b|]; [|discriminate]. destruct (lookup _ (l_nodes L)) as [k|]; [|discriminate].
    apply (Ho _ (fun _ => Ok (add_kid h b k))). eauto.
  - destruct (lookup (a_from a) _) as [n|]; [|discriminate]. destruct (lookup (a_to a) _) as [k|]; [|discriminate].
    destruct (h_class h n); try discriminate; apply (Ho _ (fun _ => Ok (add_kid h n k))); eauto.
Qed.

Lemma no_order_fails L h a : links L (h_class h) a -> a_order a = None -> parse_arc L h a = Raise ValueError.
Proof.
  intros Hl Ho. destruct (parse_arc L h a) as [h'|e] eqn:E; [|rewrite (arc_fails _ _ _ _ E); reflexivity].
  exfalso. unfold links in Hl. unfold parse_arc, arc_order in E. rewrite Ho in E.
  assert (Hn : py_int (u "1.0") = None) by (vm_compute; reflexivity). rewrite Hn in E. clear Hn.
  destruct (a_kind a).
  - destruct Hl as [H1 H2]. destruct (lookup _ (l_tables L)) as [t|]; [|congruence].
    destruct (lookup _ (l_breakdowns L)) as [b|]; [|congruence].
    destruct (add_breakdown h t b (a_axis a)); discriminate E.
  - destruct Hl as [H1 H2]. destruct (lookup _ (l_breakdowns L)) as [b|]; [|congruence].
    destruct (lookup _ (l_nodes L)) as [k|]; [|congruence]. discriminate E.
  - destruct Hl as [(n & H1 & Hc) H2]. rewrite H1 in E. destruct (lookup (a_to a) (l_nodes L)) as [k|]; [|congruence].
    destruct (h_class h n); first [discriminate E|congruence].
Qed.

(** What the labels stand for. *)
Definition bears (among : cls -> bool) (l : str) (it : item) : Prop :=
  exists r, it = IResource r /\ among (r_class r) = true /\ r_label r = Some l.

Lemma collect_label (among : cls -> bool) (get : labels -> list (str * nat)) l :
  (forall r L n, get (match r_class r with
        | CTable => Labels (add_unique (r_label r) n (l_tables L)) (l_breakdowns L) (l_nodes L)
        | CBreakdown => Labels (l_tables L) (add_unique (r_label r) n (l_breakdowns L)) (l_nodes L)
        | _ => Labels (l_tables L) (l_breakdowns L) (add_unique (r_label r) n (l_nodes L))
        end) = if among (r_class r) then add_unique (r_label r) n (get L) else get L) ->
  l <> [] -> forall items n L v,
  (dict_get str_eqb (get (collect items n L)) l = Some v <->
   (exists m it, v = n + m /\ nth_error items m = Some it /\ bears among l it /\
      forall m' it', m < m' -> nth_error items m' = Some it' -> ~ bears among l it') \/
   dict_get str_eqb (get L) l = Some v /\ forall m it, nth_error items m = Some it -> ~ bears among l it).
Proof.
  intros Hg Hl. induction items as [|it items IH]; intros n L v; cbn [collect].
  - split.
    + intros H. right. split; [exact H|]. intros [|m] r Hm; discriminate Hm.
    + intros [(m & r & _ & Hm & _)|[H _]]; [destruct m; discriminate Hm|exact H].
  - assert (D : bears among l it \/ ~ bears among l it).
    { destruct it as [r|a]; [|right; intros (r & E & _); discriminate E].
      destruct (among (r_class r)) eqn:Ea; [|right; intros (r' & [= <-] & H & _); congruence].
      destruct (r_label r) as [lr|] eqn:Er; [|right; intros (r' & [= <-] & _ & H); congruence].
      destruct (str_eqb_spec lr l) as [->|Hn]; [left; exists r; auto|right; intros (r' & [= <-] & _ & H); congruence]. }
    assert (G : forall L', (bears among l it -> dict_get str_eqb (get L') l = Some n) ->
                (~ bears among l it -> dict_get str_eqb (get L') l = dict_get str_eqb (get L) l) ->
        (dict_get str_eqb (get (collect items (S n) L')) l = Some v <->
        (exists m it', v = n + m /\ nth_error (it :: items) m = Some it' /\ bears among l it' /\
          forall m' it', m < m' -> nth_error (it :: items) m' = Some it' -> ~ bears among l it') \/
        dict_get str_eqb (get L) l = Some v /\
          forall m it', nth_error (it :: items) m = Some it' -> ~ bears among l it')).
    { intros L' HL1 HL2. rewrite IH. split.
      - intros [(m & x & -> & H1 & H2 & H3)|[H1 H2]].
        + left. exists (S m), x. split; [lia|]. split; [exact H1|]. split; [exact H2|].
          intros [|m'] it' Hm; [lia|]. apply H3. lia.
        + destruct D as [D|D].
          * rewrite (HL1 D) in H1. injection H1 as <-. left. exists 0, it. split; [lia|]. repeat split; auto.
            intros [|m'] it' Hm; [lia|]. apply H2.
          * rewrite (HL2 D) in H1. right. split; [exact H1|]. intros [|m] x; cbn; [intros [= <-]; exact D|apply H2].
      - intros [(m & x & -> & H1 & H2 & H3)|[H1 H2]].
        + destruct m as [|m].
          * cbn in H1. injection H1 as ->. right. rewrite (HL1 H2). split; [f_equal; lia|].
            intros m x' Hm. apply (H3 (S m)); [lia|exact Hm].
          * left. exists m, x. split; [lia|]. repeat split; auto. intros m' it' Hm. apply (H3 (S m')). lia.
        + right. rewrite (HL2 (H2 0 it eq_refl)). split; [exact H1|]. intros m x. apply (H2 (S m)). }
    destruct it as [r|a].
    + apply G; rewrite Hg.
      * intros (r' & [= <-] & Ha & Er). rewrite Ha, Er. unfold add_unique. destruct l as [|c l]; [congruence|].
        apply (dict_get_set_same _ str_eqb_spec).
      * intros Hn. destruct (among (r_class r)) eqn:Ha; [|reflexivity].
        destruct (r_label r) as [[|c lr]|] eqn:Er; cbn [add_unique]; [reflexivity| |reflexivity].
        apply (dict_get_set_other _ str_eqb_spec). intros E. apply Hn. exists r. subst l. auto.
    + apply G; [intros (r & E & _); discriminate E|reflexivity].
Qed.

Lemma lookup_stands items (among : cls -> bool) (get : labels -> list (str * nat)) (label : option str) n :
  (forall r L n, get (match r_class r with
        | CTable => Labels (add_unique (r_label r) n (l_tables L)) (l_breakdowns L) (l_nodes L)
        | CBreakdown => Labels (l_tables L) (add_unique (r_label r) n (l_breakdowns L)) (l_nodes L)
        | _ => Labels (l_tables L) (l_breakdowns L) (add_unique (r_label r) n (l_nodes L))
        end) = if among (r_class r) then add_unique (r_label r) n (get L) else get L) ->
  get (Labels [] [] []) = [] ->
  (lookup label (get (collect items 0 (Labels [] [] []))) = Some n <-> stands_for items among label n).
Proof.
  intros Hg H0. unfold stands_for. destruct label as [[|c l]|]; cbn [lookup].
  - split; [discriminate|]. intros (l & r & [= <-] & H & _). congruence.
  - rewrite (collect_label among get (c :: l) Hg) by discriminate. rewrite H0. cbn [dict_get plus]. split.
    + intros [(m & it & -> & H1 & (r & -> & H2 & H3) & H4)|[H _]]; [|discriminate H].
      exists (c :: l), r. repeat split; auto; [discriminate|]. intros m' r' Hm Hn Ha Er. apply (H4 m' _ Hm Hn). exists r'. auto.
    + intros (l' & r & [= <-] & _ & H1 & H2 & H3 & H4). left. exists n, (IResource r). repeat split; auto; [exists r; auto|].
      intros m' it' Hm Hn (r' & -> & H5 & H6). exact (H4 m' r' Hm Hn H5 H6).
  - split; [discriminate|]. intros (l & r & E & _). discriminate E.
Qed.

(** A link that can be read is linked as written: the breakdowns on each axis of a table and the
    nodes below each object are those the arcs name, in document order. *)
Theorem C59_linked fuel items tables h st : parse_link fuel items = Ok (tables, h, st) ->
  (forall t, arcs_list (puts_on_axis items "x" t) items (h_x h t) /\
             arcs_list (puts_on_axis items "y" t) items (h_y h t) /\
             arcs_list (puts_on_axis items "z" t) items (h_z h t)) /\
  (forall n, arcs_list (puts_below items n) items (h_kids h n)).
Proof.
  unfold parse_link. intros H. apply bind_ok in H as (h' & E & H). apply bind_ok in H as (st' & _ & [= _ <- _]).
  set (L := collect items 0 (Labels [] [] [])) in *.
  assert (LT : forall lb n, lookup lb (l_tables L) = Some n <-> stands_for items is_table lb n).
  { intros lb n. apply lookup_stands; [|reflexivity]. intros r L0 m. destruct (r_class r); reflexivity. }
  assert (LB : forall lb n, lookup lb (l_breakdowns L) = Some n <-> stands_for items is_breakdown lb n).
  { intros lb n. apply lookup_stands; [|reflexivity]. intros r L0 m. destruct (r_class r); reflexivity. }
  assert (LN : forall lb n, lookup lb (l_nodes L) = Some n <-> stands_for items is_node lb n).
  { intros lb n. apply lookup_stands; [|reflexivity]. intros r L0 m. destruct (r_class r); reflexivity. }
  clearbody L.
  assert (G : forall l h0 h1, link_arcs L h0 l = Ok h1 -> h_class h0 = class_at items ->
    (forall t, (exists x, h_x h1 t = h_x h0 t ++ x /\ arcs_list (puts_on_axis items "x" t) l x) /\
               (exists y, h_y h1 t = h_y h0 t ++ y /\ arcs_list (puts_on_axis items "y" t) l y) /\
               (exists z, h_z h1 t = h_z h0 t ++ z /\ arcs_list (puts_on_axis items "z" t) l z)) /\
    (forall n, exists k, h_kids h1 n = h_kids h0 n ++ k /\ arcs_list (puts_below items n) l k)).
  2:{ apply G in E; [|reflexivity]. destruct E as [E1 E2]. split.
      - intros t. destruct (E1 t) as ((x & Hx & Ax) & (y & Hy & Ay) & z & Hz & Az). cbn in Hx, Hy, Hz. subst. auto.
      - intros n. destruct (E2 n) as (k & Hk & Ak). cbn in Hk. subst. exact Ak. }
  clear E. induction l as [|[r|a] l IH]; intros h0 h1 E Hc; cbn [link_arcs] in E.
  - injection E as <-. split; [intros t; repeat split|intros n]; exists []; rewrite app_nil_r; split; auto; constructor.
  - destruct (IH _ _ E Hc) as [E1 E2]. split.
    + intros t. destruct (E1 t) as ((x & Hx & Ax) & (y & Hy & Ay) & z & Hz & Az).
      split; [exists x|split; [exists y|exists z]]; split; auto; constructor; assumption.
    + intros n. destruct (E2 n) as (k & Hk & Ak). exists k. split; auto. constructor. assumption.
  - apply bind_ok in E as (h2 & Ea & E). pose proof (parse_arc_class _ _ _ _ Ea) as Hc2.
    destruct (IH _ _ E (eq_trans Hc2 Hc)) as [E1 E2]. clear IH E.
    assert (A : forall (says : arc -> nat -> Prop) (f0 f1 f2 : list nat),
      (exists k, says a k /\ f2 = f0 ++ [k]) \/ (forall k, ~ says a k) /\ f2 = f0 ->
      (exists x, f1 = f2 ++ x /\ arcs_list says l x) -> exists x, f1 = f0 ++ x /\ arcs_list says (IArc a :: l) x).
    { intros says f0 f1 f2 [(k & Hk & ->)|[Hn ->]] (x & -> & Hx).
      - exists (k :: x). rewrite <- app_assoc. split; [reflexivity|]. constructor; assumption.
      - exists x. split; [reflexivity|]. apply arcs_silent; assumption. }
    assert (U : forall (f : nat -> list nat) m k n, snoc_at f m k n = if Nat.eqb n m then f m ++ [k] else f n).
    { intros f m k n. unfold snoc_at, upd. reflexivity. }
    assert (F : forall items0 (among : cls -> bool) lb n n', stands_for items0 among lb n -> stands_for items0 among lb n' -> n = n').
    { intros items0 among lb n n' (l1 & r1 & -> & _ & N1 & M1 & B1 & O1) (l2 & r2 & [= <-] & _ & N2 & M2 & B2 & O2).
      destruct (Nat.lt_trichotomy n n') as [T|[T|T]]; [|exact T|].
      - destruct (O1 _ _ T N2 M2 B2).
      - destruct (O2 _ _ T N1 M1 B1). }
    assert (ST : (forall ax t, (forall b, ~ puts_on_axis items ax t a b)) -> h_x h2 = h_x h0 -> h_y h2 = h_y h0 -> h_z h2 = h_z h0 ->
       (forall n, (exists k, puts_below items n a k /\ h_kids h2 n = h_kids h0 n ++ [k]) \/
                  (forall k, ~ puts_below items n a k) /\ h_kids h2 n = h_kids h0 n) ->
       (forall t, (exists x, h_x h1 t = h_x h0 t ++ x /\ arcs_list (puts_on_axis items "x" t) (IArc a :: l) x) /\
               (exists y, h_y h1 t = h_y h0 t ++ y /\ arcs_list (puts_on_axis items "y" t) (IArc a :: l) y) /\
               (exists z, h_z h1 t = h_z h0 t ++ z /\ arcs_list (puts_on_axis items "z" t) (IArc a :: l) z)) /\
       (forall n, exists k, h_kids h1 n = h_kids h0 n ++ k /\ arcs_list (puts_below items n) (IArc a :: l) k)).
    { intros Hax Ex Ey Ez Hk. split.
      - intros t. destruct (E1 t) as (X & Y & Z). rewrite <- Ex, <- Ey, <- Ez.
        split; [|split]; eapply A; eauto.
      - intros n. eapply A; [apply Hk|apply E2]. }
    unfold parse_arc in Ea. destruct (a_kind a) eqn:Ek.
    + assert (NB : forall n k, ~ puts_below items n a k) by (intros n k (_ & [[H _]|[H _]]); congruence).
      destruct (lookup (a_from a) (l_tables L)) as [t0|] eqn:Et; [destruct (lookup (a_to a) (l_breakdowns L)) as [b0|] eqn:Eb|].
      2,3: injection Ea as <-; apply ST; auto;
        intros ax t b (_ & _ & S1 & S2); apply LT in S1; apply LB in S2; congruence.
      apply bind_ok in Ea as (h3 & Ea & Eo). apply bind_ok in Eo as (z & _ & [= <-]).
      apply LT in Et. apply LB in Eb. unfold add_breakdown in Ea. destruct (a_axis a) as [ax|] eqn:Eax; [|discriminate].
      assert (P : forall ax' t f0 f2, f2 = snoc_at f0 t0 b0 \/ f2 = f0 ->
         (f2 = snoc_at f0 t0 b0 -> ax = u ax') -> (f2 = f0 -> ax <> u ax') ->
         (exists k, puts_on_axis items ax' t a k /\ f2 t = f0 t ++ [k]) \/ (forall k, ~ puts_on_axis items ax' t a k) /\ f2 t = f0 t).
      { intros ax' t f0 f2 [-> | ->] H1 H2.
        - rewrite U. destruct (Nat.eqb_spec t t0) as [->|Hn].
          + left. exists b0. split; [|reflexivity]. split; [exact Ek|]. rewrite Eax, (H1 eq_refl). auto.
          + right. split; [|reflexivity]. intros k (_ & _ & S1 & _). apply Hn. eapply F; eauto.
        - right. split; [|reflexivity]. intros k (_ & S0 & _). apply H2; [reflexivity|congruence]. }
      assert (NS : forall (f : nat -> list nat), snoc_at f t0 b0 = f -> False).
      { intros f Hf. assert (Hf' := f_equal (fun g => length (g t0)) Hf). cbn in Hf'. rewrite U, Nat.eqb_refl, app_length in Hf'. cbn in Hf'. lia. }
      split.
      * destruct (str_eqb_spec ax (u "x")) as [->|N1]; [|destruct (str_eqb_spec ax (u "y")) as [->|N2]; [|destruct (str_eqb_spec ax (u "z")) as [->|N3]; [|discriminate]]];
          injection Ea as <-; intros t; destruct (E1 t) as (X & Y & Z); cbn in X, Y, Z;
          (split; [|split]); eapply A; try eassumption; cbn; apply P; auto;
          first [discriminate|intros Hf; exfalso; first [exact (NS _ Hf)|exact (NS _ (eq_sym Hf))]|idtac].
      * intros n. eapply A; [|apply E2]. right. split; [apply NB|].
        destruct (str_eqb ax (u "x")); [|destruct (str_eqb ax (u "y")); [|destruct (str_eqb ax (u "z")); [|discriminate]]];
          injection Ea as <-; reflexivity.
    + assert (NA : forall ax t b, ~ puts_on_axis items ax t a b) by (intros ax t b (H & _); congruence).
      destruct (lookup (a_from a) (l_breakdowns L)) as [b0|] eqn:Et; [destruct (lookup (a_to a) (l_nodes L)) as [k0|] eqn:Eb|].
      2,3: injection Ea as <-; apply ST; auto; intros n; right; split; auto;
        intros k (S1 & [(_ & S2)|(H & _)]); [apply LN in S1; apply LB in S2|]; congruence.
      apply bind_ok in Ea as (z & _ & [= <-]). apply LB in Et. apply LN in Eb. apply ST; auto.
      intros n. cbn. rewrite U. destruct (Nat.eqb_spec n b0) as [->|Hn].
      * left. exists k0. split; [|reflexivity]. split; auto.
      * right. split; [|reflexivity]. intros k (_ & [(_ & S2)|(H & _)]); [|congruence]. apply Hn. eapply F; eauto.
    + assert (NA : forall ax t b, ~ puts_on_axis items ax t a b) by (intros ax t b (H & _); congruence).
      destruct (lookup (a_from a) (l_nodes L)) as [b0|] eqn:Et; [destruct (lookup (a_to a) (l_nodes L)) as [k0|] eqn:Eb|].
      2,3: injection Ea as <-; apply ST; auto; intros n; right; split; auto;
        intros k (S1 & [(H & _)|(_ & S2 & _)]); [|apply LN in S1; apply LN in S2]; congruence.
      apply LN in Et. apply LN in Eb. rewrite Hc in Ea. destruct (class_at items b0) eqn:Ecl.
      4:{ injection Ea as <-. apply ST; auto. intros n. right. split; auto.
          intros k (S1 & [(H & _)|(_ & S2 & S3)]); [congruence|]. apply S3. rewrite (F _ _ _ _ _ S2 Et). exact Ecl. }
      all: apply bind_ok in Ea as (z & _ & [= <-]); apply ST; auto; intros n; cbn; rewrite U;
        (destruct (Nat.eqb_spec n b0) as [->|Hn];
         [left; exists k0; split; [split; [exact Eb|right; repeat split; auto; congruence]|reflexivity]
         |right; split; [|reflexivity]; intros k (_ & [(H & _)|(_ & S2 & _)]); [congruence|apply Hn; eapply F; eauto]]).
Qed.

(** Two arcs of different axes and a tree below a breakdown. *)
Example C59_linked_example :
  let r c l := IResource (Resource c Unspecified (Some (u l))) in
  let a k x y ax := IArc (Arc k (Some (u x)) (Some (u y)) ax (Some (u "1"))) in
  match parse_link 9 [r CTable "t"; r CBreakdown "b"; r CBreakdown "c"; r CRule "n"; r CRule "m";
      a TableBreakdown "t" "c" (Some (u "y")); a TableBreakdown "t" "b" (Some (u "x"));
      a BreakdownTree "b" "n" None; a NodeSubtree "n" "m" None]%string with
  | Ok (tables, h, st) => tables = [0] /\ h_x h 0 = [1] /\ h_y h 0 = [2] /\ h_z h 0 = [] /\ h_kids h 1 = [3] /\
      h_kids h 3 = [4] /\ h_kids h 2 = []
  | Raise _ => False
  end.
Proof. vm_compute. repeat split; reflexivity. Qed.

Theorem C59_default_order_refuted fuel (items : list item) (a : arc) :
  In (IArc a) items -> a_order a = None ->
  links (collect items 0 (Labels [] [] [])) (class_at items) a ->
  parse_link fuel items = Raise ValueError.
Proof.
  intros Hin Ho Hl. unfold parse_link. cbv zeta. set (L := collect items 0 (Labels [] [] [])) in *.
  enough (E : link_arcs L (empty_heap items) items = Raise ValueError) by (rewrite E; reflexivity).
  assert (G : forall l h, In (IArc a) l -> h_class h = class_at items -> link_arcs L h l = Raise ValueError).
  { induction l as [|it l IH]; intros h Hi Hc; [destruct Hi|]. cbn.
    destruct it as [r|a'].
    - destruct Hi as [Hi|Hi]; [discriminate Hi|]. apply IH; assumption.
    - destruct Hi as [Hi|Hi].
      + injection Hi as ->. rewrite no_order_fails; [reflexivity| |exact Ho]. rewrite Hc. exact Hl.
      + destruct (parse_arc L h a') as [h'|e] eqn:E; cbn; [|rewrite (arc_fails _ _ _ _ E); reflexivity].
        apply IH; [exact Hi|]. rewrite (parse_arc_class _ _ _ _ E). exact Hc. }
  apply G; [exact Hin|reflexivity].
Qed.

Example C59_default_order_example :
  let items := [ IResource (Resource CTable Unspecified (Some (u "t")));
                 IResource (Resource CBreakdown Unspecified (Some (u "b")));
                 IArc (Arc TableBreakdown (Some (u "t")) (Some (u "b")) (Some (u "y")) None) ] in
  links (collect items 0 (Labels [] [] [])) (class_at items)
        (Arc TableBreakdown (Some (u "t")) (Some (u "b")) (Some (u "y")) None) /\
  parse_link 9 items = Raise ValueError.
Proof. split; [split; vm_compute; discriminate|vm_compute; reflexivity]. Qed.

(** No filing ever has a table: a linkbase in the namespace of XBRL 2.1 is not looked at, and the
    first table of a linkbase in the other namespace fails to be stored. *)
Theorem C59_no_tables_refuted {T} (parse_element : xml -> res (list (str * T))) (roots : list xml) :
  (forall root, In root roots -> x_tag root <> Some (u "{http://xbrl.org/2003/linkbase}linkbase")) ->
  parse_table_linkbases parse_element roots = Ok [].
Proof.
  intros H. unfold parse_table_linkbases.
  assert (E : find_table_linkbase_elements roots = []).
  { induction roots as [|r roots IH]; [reflexivity|].
    assert (E : tag_is (u "{http://xbrl.org/2003/linkbase}linkbase") r = false).
    { unfold tag_is. pose proof (H r (or_introl eq_refl)) as Hr. destruct (x_tag r) as [t|]; [|reflexivity].
      unfold opt_eqb. apply str_eqb_neq. intros Et. apply Hr. f_equal. exact Et. }
    unfold find_table_linkbase_elements. cbn [flat_map]. rewrite E. apply IH. intros; apply H; right; assumption. }
  rewrite E. reflexivity.
Qed.

Theorem C59_never_stored_refuted {T} (parse_element : xml -> res (list (str * T))) (roots : list xml) repo :
  parse_table_linkbases parse_element roots = Ok repo -> repo = [].
Proof.
  unfold parse_table_linkbases. intros H. apply bind_ok in H. destruct H as (sets & _ & H).
  destruct (concat sets) as [|[role t] l]; [injection H as <-; reflexivity|]. discriminate H.
Qed.

(** A linkbase of the standard, and one in the other namespace, each with a table. *)
Example C59_no_tables_example :
  let leaf tag := Xml (Some (u tag)) [] [] None [] in
  let doc ns := Xml (Some (u ns ++ u "linkbase")) [] [] None
                  [Xml (Some (u "{http://xbrl.org/2008/generic}link")) [] [] None
                       [leaf "{http://xbrl.org/2014/table}table"%string]] in
  let parse := fun _ : xml => Ok [(u "role", 0)] in
  parse_table_linkbases parse [doc "{http://www.xbrl.org/2003/linkbase}"%string] = Ok [] /\
  parse_table_linkbases parse [doc "{http://xbrl.org/2003/linkbase}"%string] = Raise TypeError.
Proof. split; vm_compute; reflexivity. Qed.

Print Assumptions C45_ends_iff.
Print Assumptions C45_order.
Print Assumptions C45_forest.
Print Assumptions C45_specified.
Print Assumptions C45_document.
Print Assumptions C45_shared_refuted.
Print Assumptions C45_cycle_refuted.
Print Assumptions C59_written_order.
Print Assumptions C59_default_order_refuted.
Print Assumptions C59_no_tables_refuted.
Print Assumptions C59_never_stored_refuted.
Print Assumptions C59_linked.
