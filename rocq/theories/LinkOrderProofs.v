(** Two readings of the same documents, in which sets are listed in different orders (C75), and what
    is reported about links (C77, C78). *)
From Verif Require Import Base Regex QNameModel ErrBase ErrTable ErrModel CtxModel InlineModel NetModel NetSpec NetProofs NetLinkProofs NetProps
  LangModel DtsProofs LinkModel LinkSpec LinkProofs LinkLoopProofs.
Local Open Scope nat_scope.
Local Opaque insert create.

Section Orders.
Variable element_str : xml -> str.
Variable number : str -> Q.
Variable find_id : str -> option found.
Variable eo1 eo2 : nat -> list edge -> list edge.
Variable ro1 ro2 : nat -> list nat -> list nat.
Hypothesis H1 : orders eo1 ro1.
Hypothesis H2 : orders eo2 ro2.

Definition alike (st st' : lstate) : Prop := ls_errors st = ls_errors st' /\ Permutation (ls_added st) (ls_added st').

Lemma run_factory_order k link outside role st1 st2 ws1 st1' ws2 st2' : alike st1 st2 ->
  run_factory element_str number find_id eo1 ro1 k link outside role st1 = Ok (ws1, st1') ->
  run_factory element_str number find_id eo2 ro2 k link outside role st2 = Ok (ws2, st2') -> alike st1' st2'.
Proof.
  intros [Ee Ha] R1 R2.
  apply run_factory_inv in R1 as (arcs & e1 & entries & e2 & h & nets & dups & added & A & B & C & D & _ & ->).
  apply run_factory_inv in R2 as (arcs' & e1' & entries' & e2' & h' & nets' & dups' & added' & A' & B' & C' & D' & _ & ->).
  rewrite <- Ee, A in A'. injection A' as <- <-. rewrite B in B'. injection B' as <- <-. split; [reflexivity|]. cbn [ls_added].
  apply Permutation_app; [exact Ha|]. destruct k; try (rewrite D, D'; apply Permutation_refl).
  apply nets_labels_ok in D as [_ ->]. apply nets_labels_ok in D' as [_ ->].
  destruct H1 as [P1 Q1], H2 as [P2 Q2].
  destruct (added_triples KLabel _ _ _ _ _ _ _ (label_of_entry entries) eq_refl C (P1 _) (Q1 _)) as (ts & N & I & ->).
  destruct (added_triples KLabel _ _ _ _ _ _ _ (label_of_entry entries) eq_refl C' (P2 _) (Q2 _)) as (ts' & N' & I' & ->).
  apply Permutation_map, NoDup_Permutation; [assumption..|]. intros [[i r] j]. rewrite I, I'. reflexivity.
Qed.
Lemma run_factories_order : forall ks link outside role st1 st2 ws1 st1' ws2 st2', alike st1 st2 ->
  run_factories element_str number find_id eo1 ro1 ks link outside role st1 = Ok (ws1, st1') ->
  run_factories element_str number find_id eo2 ro2 ks link outside role st2 = Ok (ws2, st2') -> alike st1' st2'.
Proof.
  induction ks as [|k ks IH]; intros link outside role st1 st2 ws1 st1' ws2 st2' Ha R1 R2; cbn [run_factories] in R1, R2.
  - injection R1 as _ <-. injection R2 as _ <-. exact Ha.
  - apply bind_ok in R1 as ([w1 s1] & A & R1). apply bind_ok in R1 as ([w1' s1'] & A' & R1). injection R1 as _ <-.
    apply bind_ok in R2 as ([w2 s2] & B & R2). apply bind_ok in R2 as ([w2' s2'] & B' & R2). injection R2 as _ <-. cbn [fst snd] in *.
    eapply IH; [|exact A'|exact B']. eapply run_factory_order; [exact Ha|exact A|exact B].
Qed.
Lemma links_loop_order : forall l d1 d2 st1 st2 d1' st1' d2' st2', alike st1 st2 ->
  links_loop element_str number find_id eo1 ro1 l d1 st1 = Ok (d1', st1') ->
  links_loop element_str number find_id eo2 ro2 l d2 st2 = Ok (d2', st2') -> alike st1' st2'.
Proof.
  induction l as [|[link outside] l IH]; intros d1 d2 st1 st2 d1' st1' d2' st2' Ha R1 R2; cbn [links_loop] in R1, R2.
  - injection R1 as _ <-. injection R2 as _ <-. exact Ha.
  - apply bind_ok in R1 as ([x1 s1] & A & R1). apply bind_ok in R2 as ([x2 s2] & B & R2). cbn [fst snd] in *. eapply IH; [|exact R1|exact R2].
    clear R1 R2 IH. unfold one_link in A, B. cbn [fst snd] in A, B. destruct (attr_prefixed link (u "xlink:role")) as [[role|]|]; cbn [bind] in A, B; [| |discriminate].
    + apply bind_ok in A as ([w1 t1] & A & E1). apply bind_ok in B as ([w2 t2] & B & E2). cbn [fst snd] in *. injection E1 as _ <-. injection E2 as _ <-.
      unfold parse_xml_link in A, B. destruct (x_tag link) as [tag|]; [|discriminate]. destruct (factories tag) as [|k ks].
      * apply bind_ok in A as (e1 & A & E1). apply bind_ok in B as (e2 & B & E2). injection E1 as _ <-. injection E2 as _ <-. destruct Ha as [Ee Ha].
        rewrite Ee, B in A. injection A as <-. split; [reflexivity|exact Ha].
      * eapply run_factories_order; [exact Ha|exact A|exact B].
    + apply bind_ok in A as (e1 & A & E1). apply bind_ok in B as (e2 & B & E2). injection E1 as _ <-. injection E2 as _ <-. destruct Ha as [Ee Ha].
      rewrite Ee, B in A. injection A as <-. split; [reflexivity|exact Ha].
Qed.

(** *** Kinds and roles of the networks do not depend on the orders *)

Lemma parse_link_count k eo ro eo' ro' arcs locs h nets dups h' nets' dups' :
  some_order ro -> some_order ro' ->
  parse_link k eo ro arcs locs = Ok (h, nets, dups) -> parse_link k eo' ro' arcs locs = Ok (h', nets', dups') -> length nets = length nets'.
Proof.
  unfold parse_link. intros P Q. destruct (arc_pass arcs) as [kept d]. intros R R'. apply bind_ok in R as (ns & A & R). apply bind_ok in R' as (ns' & A' & R').
  rewrite A in A'. injection A' as <-. cbv zeta in R, R'. injection R as <- <- _. injection R' as <- <- _.
  set (roots := map fst (filter (fun p => snd (snd p)) (combine (seq 0 (length ns)) ns))). 
  destruct (is_physical k).
  - rewrite !map_length.
    set (f1 := fun n => match nth_error (add_all (map fst ns) (concat (map (edge_adds k locs (map fst ns)) (eo (map edge_of kept))))) n with Some x => n_role x | None => [] end).
    set (f2 := fun n => match nth_error (add_all (map fst ns) (concat (map (edge_adds k locs (map fst ns)) (eo' (map edge_of kept))))) n with Some x => n_role x | None => [] end).
    assert (E : forall n, f1 n = f2 n).
    { intros n. unfold f1, f2. rewrite !nth_add_all. destruct (nth_error (map fst ns) n) as [x|]; cbn [option_map]; [|reflexivity]. destruct (added _ n), (added _ n); reflexivity. }
    destruct (dedup_spec (map f1 (ro roots))) as [N1 I1]. destruct (dedup_spec (map f2 (ro' roots))) as [N2 I2].
    apply Permutation_length. apply NoDup_Permutation; [assumption..|]. intros s. rewrite I1, I2, !in_map_iff. split; intros (n & En & Hn); exists n; (split; [congruence|]).
    + eapply Permutation_in; [|exact Hn]. eapply Permutation_trans; [apply Permutation_sym, P|apply Q].
    + eapply Permutation_in; [|exact Hn]. eapply Permutation_trans; [apply Permutation_sym, Q|apply P].
  - assert (L : length (ro roots) = length (ro' roots)) by (rewrite <- (Permutation_length (P roots)); apply (Permutation_length (Q roots))).
    destruct (ro roots), (ro' roots); try discriminate L; reflexivity.
Qed.

Definition shape (w : net) : kind * str := (w_kind w, w_role w).
Definition same_shapes (l l' : list net) : Prop := map shape l = map shape l'.
Definition same_dicts {K} (d d' : list (K * list net)) : Prop := Forall2 (fun p q => fst p = fst q /\ same_shapes (snd p) (snd q)) d d'.

Lemma run_factory_shapes k link outside role st1 st2 ws1 st1' ws2 st2' : ls_errors st1 = ls_errors st2 ->
  run_factory element_str number find_id eo1 ro1 k link outside role st1 = Ok (ws1, st1') ->
  run_factory element_str number find_id eo2 ro2 k link outside role st2 = Ok (ws2, st2') -> same_shapes ws1 ws2.
Proof.
  intros Ee R1 R2.
  apply run_factory_inv in R1 as (arcs & e1 & entries & e2 & h & nets & dups & added & A & B & C & _ & -> & _).
  apply run_factory_inv in R2 as (arcs' & e1' & entries' & e2' & h' & nets' & dups' & added' & A' & B' & C' & _ & -> & _).
  rewrite <- Ee, A in A'. injection A' as <- <-. rewrite B in B'. injection B' as <- <-.
  pose proof (parse_link_count _ _ _ _ _ _ _ _ _ _ _ _ _ (proj2 H1 _) (proj2 H2 _) C C') as L.
  unfold same_shapes. rewrite !map_map. unfold shape. cbn [w_kind w_role]. clear -L. revert nets' L. induction nets as [|x l IH]; intros [|y l'] L; try discriminate L; [reflexivity|].
  cbn [map]. f_equal. apply IH. injection L as L. exact L.
Qed.
Lemma run_factories_shapes : forall ks link outside role st1 st2 ws1 st1' ws2 st2', alike st1 st2 ->
  run_factories element_str number find_id eo1 ro1 ks link outside role st1 = Ok (ws1, st1') ->
  run_factories element_str number find_id eo2 ro2 ks link outside role st2 = Ok (ws2, st2') -> same_shapes ws1 ws2.
Proof.
  induction ks as [|k ks IH]; intros link outside role st1 st2 ws1 st1' ws2 st2' Ha R1 R2; cbn [run_factories] in R1, R2.
  - injection R1 as <- _. injection R2 as <- _. reflexivity.
  - apply bind_ok in R1 as ([w1 s1] & A & R1). apply bind_ok in R1 as ([w1' s1'] & A' & R1). injection R1 as <- _.
    apply bind_ok in R2 as ([w2 s2] & B & R2). apply bind_ok in R2 as ([w2' s2'] & B' & R2). injection R2 as <- _. cbn [fst snd] in *.
    unfold same_shapes. rewrite !map_app. f_equal.
    + eapply run_factory_shapes; [apply Ha|exact A|exact B].
    + eapply IH; [|exact A'|exact B']. eapply run_factory_order; [exact Ha|exact A|exact B].
Qed.

Lemma same_dicts_get {K} eqb (d d' : list (K * list net)) k : same_dicts d d' ->
  same_shapes (match dict_get eqb d k with Some l => l | None => [] end) (match dict_get eqb d' k with Some l => l | None => [] end).
Proof.
  induction 1 as [|[a l] [b l'] d d' [E S] H IH]; [reflexivity|]. cbn [fst snd] in *. subst b. cbn [dict_get]. destruct (eqb a k); [exact S|exact IH].
Qed.
Lemma same_dicts_set {K} eqb (d d' : list (K * list net)) k l l' : same_dicts d d' -> same_shapes l l' -> same_dicts (dict_set eqb d k l) (dict_set eqb d' k l').
Proof.
  intros H S. induction H as [|[a m] [b m'] d d' [E T] H IH]; [repeat constructor; exact S|]. cbn [fst snd] in *. subst b. cbn [dict_set].
  destruct (eqb a k); constructor; auto.
Qed.
Lemma same_shapes_app a a' b b' : same_shapes a a' -> same_shapes b b' -> same_shapes (a ++ b) (a' ++ b').
Proof. unfold same_shapes. intros E F. rewrite !map_app. congruence. Qed.

Lemma links_loop_shapes : forall l d1 d2 st1 st2 d1' st1' d2' st2', alike st1 st2 -> same_dicts d1 d2 ->
  links_loop element_str number find_id eo1 ro1 l d1 st1 = Ok (d1', st1') ->
  links_loop element_str number find_id eo2 ro2 l d2 st2 = Ok (d2', st2') -> same_dicts d1' d2'.
Proof.
  induction l as [|[link outside] l IH]; intros d1 d2 st1 st2 d1' st1' d2' st2' Ha Hd R1 R2.
  - cbn [links_loop] in R1, R2. injection R1 as <- _. injection R2 as <- _. exact Hd.
  - cbn [links_loop] in R1, R2. apply bind_ok in R1 as ([x1 s1] & A & R1). apply bind_ok in R2 as ([x2 s2] & B & R2). cbn [fst snd] in *.
    assert (G : same_dicts x1 x2 /\ alike s1 s2); [|destruct G as [G1 G2]; exact (IH _ _ _ _ _ _ _ _ G2 G1 R1 R2)].
    split.
    2:{ eapply (links_loop_order [(link, outside)] d1 d2 st1 st2 x1 s1 x2 s2); [exact Ha| |]; cbn [links_loop]; [rewrite A|rewrite B]; reflexivity. }
    clear R1 R2 IH. unfold one_link in A, B. cbn [fst snd] in A, B. destruct (attr_prefixed link (u "xlink:role")) as [[role|]|]; cbn [bind] in A, B; [| |discriminate].
    + apply bind_ok in A as ([w1 t1] & A & E1). apply bind_ok in B as ([w2 t2] & B & E2). cbn [fst snd] in *. injection E1 as <- _. injection E2 as <- _.
      unfold extend_role. apply same_dicts_set; [exact Hd|]. apply same_shapes_app; [apply same_dicts_get, Hd|].
      unfold parse_xml_link in A, B. destruct (x_tag link) as [tag|]; [|discriminate]. destruct (factories tag) as [|k ks].
      * apply bind_ok in A as (e1 & A & E1). apply bind_ok in B as (e2 & B & E2). injection E1 as <- _. injection E2 as <- _. reflexivity.
      * eapply run_factories_shapes; [exact Ha|exact A|exact B].
    + apply bind_ok in A as (e1 & A & E1). apply bind_ok in B as (e2 & B & E2). injection E1 as <- _. injection E2 as <- _. exact Hd.
Qed.

Lemma group_shapes l l' : same_shapes l l' -> same_dicts (group l) (group l').
Proof.
  unfold group. assert (G : forall l l' d d', same_shapes l l' -> same_dicts d d' -> same_dicts
    (fold_left (fun d w => dict_set wclass_eqb d (class_of_kind (w_kind w)) (match dict_get wclass_eqb d (class_of_kind (w_kind w)) with Some g => g | None => [] end ++ [w])) l d)
    (fold_left (fun d w => dict_set wclass_eqb d (class_of_kind (w_kind w)) (match dict_get wclass_eqb d (class_of_kind (w_kind w)) with Some g => g | None => [] end ++ [w])) l' d')).
  { clear. induction l as [|w l IH]; intros [|w' l'] d d' S D; try discriminate S; [exact D|]. injection S as E F S. cbn [fold_left]. apply IH; [exact S|].
    rewrite E. apply same_dicts_set; [exact D|]. apply same_shapes_app; [apply same_dicts_get, D|]. unfold same_shapes, shape. cbn. congruence. }
  intros S. apply G; [exact S|constructor].
Qed.
Lemma filter_shapes (f : net -> bool) l l' : (forall w w', shape w = shape w' -> f w = f w') -> same_shapes l l' -> same_shapes (filter f l) (filter f l').
Proof.
  intros Hf. revert l'. induction l as [|w l IH]; intros [|w' l'] S; try discriminate S; [reflexivity|]. unfold same_shapes in S. cbn [map] in S.
  assert (E : shape w = shape w') by congruence. assert (S' : map shape l = map shape l') by congruence. cbn [filter]. rewrite <- (Hf _ _ E). specialize (IH _ S').
  destruct (f w); [|exact IH]. unfold same_shapes in *. cbn [map]. congruence.
Qed.
Lemma combine_groups_shapes fu1 sh1 fu2 sh2 : forall gs gs' h h' r r', same_dicts gs gs' ->
  combine_groups fu1 sh1 gs h = Ok r -> combine_groups fu2 sh2 gs' h' = Ok r' -> same_shapes (fst r) (fst r').
Proof.
  intros gs gs' h h' r r' D. revert h h' r r'. induction D as [|[c g] [c' g'] gs gs' [E S] D IH]; intros h h' r r' R R'; cbn [combine_groups] in R, R'.
  - injection R as <-. injection R' as <-. reflexivity.
  - cbn [fst snd] in S. apply bind_ok in R as (x & _ & R). apply bind_ok in R' as (x' & _ & R').
    assert (S' : map shape (rev g) = map shape (rev g')) by (rewrite !map_rev; f_equal; exact S).
    destruct (rev g) as [|w rg]; [discriminate|]. destruct (rev g') as [|w' rg']; [discriminate|].
    apply bind_ok in R as (y & R & F). apply bind_ok in R' as (y' & R' & F'). injection F as <-. injection F' as <-. cbn [fst].
    specialize (IH _ _ _ _ R R'). unfold same_shapes in *. cbn [map] in *. unfold shape at 1 3. cbn [w_kind w_role]. rewrite IH. unfold shape in S' at 1 3. congruence.
Qed.
Lemma combine_roles_shapes fu1 sh1 fu2 sh2 : forall d d' h h' r r', same_dicts d d' ->
  combine_roles fu1 sh1 d h = Ok r -> combine_roles fu2 sh2 d' h' = Ok r' -> same_shapes (fst r) (fst r').
Proof.
  intros d d' h h' r r' D. revert h h' r r'. induction D as [|[c g] [c' g'] d d' [E S] D IH]; intros h h' r r' R R'; cbn [combine_roles] in R, R'.
  - injection R as <-. injection R' as <-. reflexivity.
  - cbn [fst snd] in S. apply bind_ok in R as (a & A & R). apply bind_ok in R as (b & B & R). injection R as <-.
    apply bind_ok in R' as (a' & A' & R'). apply bind_ok in R' as (b' & B' & R'). injection R' as <-. cbn [fst].
    apply same_shapes_app; [|exact (IH _ _ _ _ B B')]. unfold combine_role in A, A'. apply bind_ok in A as (x & X & A). apply bind_ok in A' as (x' & X' & A').
    injection A as <-. injection A' as <-. cbn [fst].
    assert (P : forall w w', shape w = shape w' -> physical w = physical w') by (unfold shape, physical; intros w w' K; congruence).
    apply same_shapes_app; [apply filter_shapes; assumption|]. eapply combine_groups_shapes; [|exact X|exact X'].
    apply group_shapes, filter_shapes; [|exact S]. intros w w' K. f_equal. apply P, K.
Qed.
Lemma filing_shapes fuel fuel' sh sh' docs es ws1 st1 ws2 st2 :
  parse_networks element_str number find_id eo1 ro1 fuel sh docs es = Ok (ws1, st1) ->
  parse_networks element_str number find_id eo2 ro2 fuel' sh' docs es = Ok (ws2, st2) -> same_shapes ws1 ws2.
Proof.
  unfold parse_networks. intros R1 R2. apply bind_ok in R1 as ([d1 s1] & A & R1). apply bind_ok in R1 as (c1 & C1 & R1). injection R1 as <- _.
  apply bind_ok in R2 as ([d2 s2] & B & R2). apply bind_ok in R2 as (c2 & C2 & R2). injection R2 as <- _. cbn [fst snd] in *.
  assert (Hr : forall s, alike s s) by (intros s; split; [reflexivity|apply Permutation_refl]).
  eapply combine_roles_shapes; [|exact C1|exact C2]. eapply links_loop_shapes; [apply Hr|constructor|exact A|exact B].
Qed.

Lemma filter_perm {A} (f : A -> bool) l l' : Permutation l l' -> Permutation (filter f l) (filter f l').
Proof.
  induction 1 as [|a l l' _ IH|a b l|l l' l'' _ IH1 _ IH2]; cbn; [constructor| | |eapply perm_trans; eauto].
  - destruct (f a); [constructor|]; exact IH.
  - destruct (f a), (f b); try apply Permutation_refl. apply perm_swap.
Qed.
Lemma filing_order fuel fuel' sh sh' docs es ws1 st1 ws2 st2 :
  parse_networks element_str number find_id eo1 ro1 fuel sh docs es = Ok (ws1, st1) ->
  parse_networks element_str number find_id eo2 ro2 fuel' sh' docs es = Ok (ws2, st2) ->
  ls_errors st1 = ls_errors st2 /\ forall e, Permutation (labels_of st1 e) (labels_of st2 e).
Proof.
  unfold parse_networks. intros R1 R2. apply bind_ok in R1 as ([d1 s1] & A & R1). apply bind_ok in R1 as (c1 & _ & R1). injection R1 as _ <-.
  apply bind_ok in R2 as ([d2 s2] & B & R2). apply bind_ok in R2 as (c2 & _ & R2). injection R2 as _ <-. cbn [fst snd].
  assert (Hr : forall s, alike s s) by (intros s; split; [reflexivity|apply Permutation_refl]).
  destruct (links_loop_order _ _ _ _ _ _ _ _ _ (Hr _) A B) as [Ee Ha]. split; [exact Ee|]. intros e.
  unfold labels_of. cbn [ls_added]. apply Permutation_map, filter_perm, Ha.
Qed.
End Orders.

(** ** Reports *)

Lemma create_role (x : xml) : exists e, create "MISSING_LINK_ROLE" (Some x) [] = Ok e.
Proof. destruct (create _ _ _) as [e|e] eqn:E; [eauto|]. vm_compute in E. discriminate. Qed.
Lemma create_type (x : xml) t : exists e, create "UNSUPPORTED_LINK_TYPE" (Some x) [(u "type", t)] = Ok e.
Proof. destruct (create _ _ _) as [e|e] eqn:E; [eauto|]. vm_compute in E. discriminate. Qed.
