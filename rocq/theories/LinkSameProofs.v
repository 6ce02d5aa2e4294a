(** Two readings of the same documents have networks with the same content (C75, C96). *)
From Verif Require Import Base Regex QNameModel ErrBase ErrTable ErrModel CtxModel InlineModel NetModel NetSpec NetProofs NetLinkProofs NetCombineProofs NetProps
  LangModel DtsProofs LinkModel LinkSpec LinkProofs LinkLoopProofs LinkOrderProofs LinkNetProofs.
Local Open Scope nat_scope.
Local Opaque insert create.

(** ** One link *)

(** The same nodes, with their children in some order. *)
Definition same_node (x y : node) : Prop := set_children y (n_kids x) = x /\ Permutation (n_kids x) (n_kids y).
Definition same_heap (h h' : heap) : Prop := Forall2 same_node h h'.
Definition same_members (l l' : list nat) : Prop := forall n, In n l <-> In n l'.
Definition same_nets (ns ns' : list (list nat)) : Prop :=
  (forall l, In l ns -> exists l', In l' ns' /\ same_members l l') /\ (forall l', In l' ns' -> exists l, In l ns /\ same_members l l').

Lemma same_nth h h' n : same_heap h h' -> match nth_error h n, nth_error h' n with Some x, Some y => same_node x y | None, None => True | _, _ => False end.
Proof. intros H. revert n. induction H as [|x y h h' Hx H IH]; intros [|n]; cbn; [exact I|exact I|exact Hx|apply IH]. Qed.
Lemma same_children_perm h h' n : same_heap h h' -> Permutation (get_children h n) (get_children h' n).
Proof. intros H. pose proof (same_nth h h' n H) as G. unfold get_children. destruct (nth_error h n), (nth_error h' n); try (exfalso; exact G); [exact (proj2 G)|constructor]. Qed.
Lemma same_object h h' n : same_heap h h' -> object h n = object h' n.
Proof. intros H. pose proof (same_nth h h' n H) as G. unfold object. destruct (nth_error h n), (nth_error h' n); try (exfalso; exact G); [|reflexivity]. destruct G as [G _]. rewrite <- G. reflexivity. Qed.
Lemma same_heap_sym h h' : same_heap h h' -> same_heap h' h.
Proof.
  induction 1 as [|x y h h' [A B] H IH]; constructor; [|exact IH]. split; [|apply Permutation_sym, B]. rewrite <- A. destruct y. reflexivity.
Qed.
Lemma same_reach h h' i j : same_heap h h' -> reach h i j -> reach h' i j.
Proof. intros H. induction 1 as [|j k _ IH Hk]; [constructor|]. eapply reach_step; [exact IH|]. eapply Permutation_in; [apply (same_children_perm h h' j H)|exact Hk]. Qed.
Lemma same_shows h h' l l' o : same_heap h h' -> same_members l l' -> shows h l o -> shows h' l' o.
Proof. intros H M (r & n & Hr & Hn & Ho). exists r, n. split; [apply M, Hr|]. split; [eapply same_reach; eassumption|]. rewrite <- (same_object h h' n H). exact Ho. Qed.
Lemma same_relates h h' l l' o o' : same_heap h h' -> same_members l l' -> relates h l o o' -> relates h' l' o o'.
Proof.
  intros H M (r & n & m & Hr & Hn & Hm & Ho & Ho'). exists r, n, m. split; [apply M, Hr|]. split; [eapply same_reach; eassumption|].
  split; [eapply Permutation_in; [apply (same_children_perm h h' n H)|exact Hm]|]. rewrite <- !(same_object h h' _ H). auto.
Qed.

Lemma Forall2_nth {A B} (P : A -> B -> Prop) l l' : length l = length l' ->
  (forall n x y, nth_error l n = Some x -> nth_error l' n = Some y -> P x y) -> Forall2 P l l'.
Proof.
  revert l'. induction l as [|x l IH]; intros [|y l'] E H; try discriminate E; [constructor|]. constructor; [apply (H 0); reflexivity|].
  apply IH; [cbn in E; lia|]. intros n a b Ha Hb. apply (H (S n)); assumption.
Qed.
Lemma added_perm l l' n : Permutation l l' -> Permutation (added l n) (added l' n).
Proof. intros H. unfold added. apply Permutation_map, filter_perm, H. Qed.
Lemma same_adds h l l' : Permutation l l' -> same_heap (add_all h l) (add_all h l').
Proof.
  intros H. apply Forall2_nth; [rewrite !add_all_length; reflexivity|]. intros n x y. rewrite !nth_add_all. destruct (nth_error h n) as [z|]; [|discriminate]. cbn [option_map].
  pose proof (added_perm l l' n H) as P. intros Hx Hy.
  assert (Q : Permutation (match added l n with [] => n_kids z | _ => stable_sort (order_leb h) (n_kids z ++ added l n) end)
                          (match added l' n with [] => n_kids z | _ => stable_sort (order_leb h) (n_kids z ++ added l' n) end)).
  { assert (R : forall a, Permutation (match a with [] => n_kids z | _ => stable_sort (order_leb h) (n_kids z ++ a) end) (n_kids z ++ a)).
    { intros [|c a]; [rewrite app_nil_r; apply Permutation_refl|]. apply Permutation_sym, stable_sort_perm. }
    eapply Permutation_trans; [apply R|]. eapply Permutation_trans; [apply Permutation_app_head, P|]. apply Permutation_sym, R. }
  destruct (added l n) as [|c a] eqn:E, (added l' n) as [|c' a'] eqn:E'; injection Hx as <-; injection Hy as <-; cbn [set_children n_kids] in *.
  - split; [destruct z; reflexivity|apply Permutation_refl].
  - exfalso. exact (Permutation_nil_cons P).
  - exfalso. exact (Permutation_nil_cons (Permutation_sym P)).
  - split; [reflexivity|exact Q].
Qed.

Lemma concat_perm {A B} (f : A -> list B) l l' : Permutation l l' -> Permutation (concat (map f l)) (concat (map f l')).
Proof.
  induction 1 as [|x l l' _ IH|x y l|l1 l2 l3 _ IH1 _ IH2]; cbn; [constructor|apply Permutation_app_head, IH| |eapply perm_trans; eassumption].
  rewrite !app_assoc. apply Permutation_app_tail, Permutation_app_comm.
Qed.

Lemma parse_link_twice k eo ro eo' ro' arcs locs h nets dups h' nets' dups' :
  some_order eo -> some_order ro -> some_order eo' -> some_order ro' ->
  parse_link k eo ro arcs locs = Ok (h, nets, dups) -> parse_link k eo' ro' arcs locs = Ok (h', nets', dups') ->
  same_heap h h' /\ same_nets nets nets'.
Proof.
  intros Ho Hr Ho' Hr' P P'. apply parse_link_inv in P as (_ & _ & Eh & roots & Er & En). apply parse_link_inv in P' as (_ & _ & Eh' & roots' & Er' & En').
  assert (Hh : same_heap h h').
  { rewrite Eh, Eh'. apply same_adds, concat_perm. eapply Permutation_trans; [apply Permutation_sym, Ho|apply Ho']. }
  split; [exact Hh|].
  assert (Hm : same_members roots roots').
  { intros n. rewrite Er, Er'. split; apply Permutation_in; [eapply Permutation_trans; [apply Permutation_sym, Hr|apply Hr']|eapply Permutation_trans; [apply Permutation_sym, Hr'|apply Hr]]. }
  cbv zeta in En, En'.
  set (role := fun n => match nth_error h n with Some x => n_role x | None => [] end) in *.
  set (role' := fun n => match nth_error h' n with Some x => n_role x | None => [] end) in *.
  assert (Erole : forall n, role n = role' n).
  { intros n. unfold role, role'. pose proof (same_nth h h' n Hh) as G. destruct (nth_error h n), (nth_error h' n); try (exfalso; exact G); [|reflexivity]. destruct G as [G _]. rewrite <- G. reflexivity. }
  rewrite En, En'. destruct (is_physical k).
  - assert (G : forall r, In r (dedup (map role roots)) <-> In r (dedup (map role' roots'))).
    { intros r. rewrite !(proj2 (dedup_spec _)), !in_map_iff. split; intros (n & E & Hn); exists n; (split; [congruence|apply Hm, Hn]). }
    assert (M : forall r, same_members (filter (fun n => str_eqb (role n) r) roots) (filter (fun n => str_eqb (role' n) r) roots')).
    { intros r n. rewrite !filter_In, Erole, (Hm n). reflexivity. }
    split; intros l Hl; apply in_map_iff in Hl as (r & <- & Hl); eexists; (split; [apply in_map_iff; exists r; split; [reflexivity|apply G, Hl]|apply M]).
  - destruct roots as [|a roots], roots' as [|a' roots'].
    + split; intros l [].
    + exfalso. apply (proj2 (Hm a')). left. reflexivity.
    + exfalso. apply (proj1 (Hm a)). left. reflexivity.
    + split; intros l [<-|[]]; (eexists; split; [left; reflexivity|exact Hm]).
Qed.

(** ** All links *)

Section Both.
Variable element_str : xml -> str.
Variable number : str -> Q.
Variable find_id : str -> option found.
Variable eo1 eo2 : nat -> list edge -> list edge.
Variable ro1 ro2 : nat -> list nat -> list nat.
Hypothesis H1 : orders eo1 ro1.
Hypothesis H2 : orders eo2 ro2.
Notation run_ok := (run_ok element_str number find_id).

Definition same_run (r r' : run) : Prop :=
  r_role r = r_role r' /\ r_kind r = r_kind r' /\ r_base r = r_base r' /\ same_heap (r_heap r) (r_heap r') /\ same_nets (r_nets r) (r_nets r').

Lemma run_factory_both k link outside role st1 st2 ws1 st1' ws2 st2' : ls_errors st1 = ls_errors st2 -> length (ls_heap st1) = length (ls_heap st2) ->
  run_factory element_str number find_id eo1 ro1 k link outside role st1 = Ok (ws1, st1') ->
  run_factory element_str number find_id eo2 ro2 k link outside role st2 = Ok (ws2, st2') ->
  exists r1 r2, same_run r1 r2 /\ run_ok r1 /\ run_ok r2 /\ r_role r1 = role /\ r_base r1 = length (ls_heap st1) /\
    ls_heap st1' = ls_heap st1 ++ heap_of [r1] /\ ws1 = nets_of r1 /\ ls_heap st2' = ls_heap st2 ++ heap_of [r2] /\ ws2 = nets_of r2 /\ ls_errors st1' = ls_errors st2'.
Proof.
  intros Ee El R1 R2.
  apply run_factory_inv in R1 as (arcs & e1 & entries & e2 & h & nets & dups & added & A & B & C & _ & -> & ->).
  apply run_factory_inv in R2 as (arcs' & e1' & entries' & e2' & h' & nets' & dups' & added' & A' & B' & C' & _ & -> & ->).
  rewrite <- Ee, A in A'. injection A' as <- <-. rewrite B in B'. injection B' as <- <-.
  destruct (parse_link_twice _ _ _ _ _ _ _ _ _ _ _ _ _ (proj1 H1 _) (proj2 H1 _) (proj1 H2 _) (proj2 H2 _) C C') as [Sh Sn].
  exists (Run link outside role k (length (ls_heap st1)) arcs entries h nets), (Run link outside role k (length (ls_heap st2)) arcs entries h' nets').
  split; [repeat split; try assumption; apply Sn|].
  split; [exists (ls_errors st1), e1, e2, (eo1 (ls_runs st1)), (ro1 (ls_runs st1)), dups; destruct H1; cbn; auto|].
  split; [exists (ls_errors st1), e1, e2, (eo2 (ls_runs st2)), (ro2 (ls_runs st2)), dups'; destruct H2; cbn; auto|].
  unfold heap_of. cbn [ls_heap r_base r_heap r_role flat_map ls_errors]. rewrite !app_nil_r. repeat split.
Qed.

Definition both (st1 st2 st1' st2' : lstate) (rs1 rs2 : list run) : Prop :=
  Forall2 same_run rs1 rs2 /\ (forall r, In r rs1 -> run_ok r) /\ (forall r, In r rs2 -> run_ok r) /\
  based (length (ls_heap st1)) rs1 /\ based (length (ls_heap st2)) rs2 /\ ls_heap st1' = ls_heap st1 ++ heap_of rs1 /\ ls_heap st2' = ls_heap st2 ++ heap_of rs2 /\
  ls_errors st1' = ls_errors st2' /\ length (ls_heap st1') = length (ls_heap st2').
Lemma same_heap_length h h' : same_heap h h' -> length h = length h'.
Proof. induction 1; cbn; congruence. Qed.
Lemma same_heap_of_length rs1 rs2 : Forall2 same_run rs1 rs2 -> length (heap_of rs1) = length (heap_of rs2).
Proof.
  unfold heap_of. induction 1 as [|r r' rs rs' (_ & _ & _ & S & _) _ IH]; [reflexivity|]. cbn [flat_map]. rewrite !app_length, !map_length, IH, (same_heap_length _ _ S). reflexivity.
Qed.

Lemma run_factories_both : forall ks link outside role st1 st2 ws1 st1' ws2 st2', ls_errors st1 = ls_errors st2 -> length (ls_heap st1) = length (ls_heap st2) ->
  run_factories element_str number find_id eo1 ro1 ks link outside role st1 = Ok (ws1, st1') ->
  run_factories element_str number find_id eo2 ro2 ks link outside role st2 = Ok (ws2, st2') ->
  exists rs1 rs2, both st1 st2 st1' st2' rs1 rs2 /\ (forall r, In r rs1 -> r_role r = role) /\ ws1 = flat_map nets_of rs1 /\ ws2 = flat_map nets_of rs2.
Proof.
  induction ks as [|k ks IH]; intros link outside role st1 st2 ws1 st1' ws2 st2' Ee El R1 R2; cbn [run_factories] in R1, R2.
  - injection R1 as <- <-. injection R2 as <- <-. exists [], []. unfold both. cbn. rewrite !app_nil_r. repeat split; try assumption; try (intros r []). constructor.
  - apply bind_ok in R1 as ([w1 s1] & A & R1). apply bind_ok in R1 as ([w1' s1'] & A' & R1). injection R1 as <- <-.
    apply bind_ok in R2 as ([w2 s2] & B & R2). apply bind_ok in R2 as ([w2' s2'] & B' & R2). injection R2 as <- <-. cbn [fst snd] in *.
    destruct (run_factory_both _ _ _ _ _ _ _ _ _ _ Ee El A B) as (r1 & r2 & S & O1 & O2 & Er & Eb & Eh1 & -> & Eh2 & -> & Ee').
    assert (El' : length (ls_heap s1) = length (ls_heap s2)).
    { rewrite Eh1, Eh2, !app_length, El. f_equal. apply same_heap_of_length. constructor; [exact S|constructor]. }
    destruct (IH _ _ _ _ _ _ _ _ _ Ee' El' A' B') as (rs1 & rs2 & (F & P1 & P2 & B1 & B2 & G1 & G2 & Ee'' & El'') & Hr & -> & ->).
    assert (Eb2 : r_base r2 = length (ls_heap st2)) by (destruct S as (_ & _ & S & _); congruence).
    exists (r1 :: rs1), (r2 :: rs2). split; [|split; [intros r [<-|Hin]; auto|split; reflexivity]].
    split; [constructor; assumption|]. split; [intros r [<-|Hin]; auto|]. split; [intros r [<-|Hin]; auto|].
    split; [split; [exact Eb|]; rewrite Eh1, app_length in B1; unfold heap_of in B1; cbn in B1; rewrite app_nil_r, map_length in B1; exact B1|].
    split; [split; [exact Eb2|]; rewrite Eh2, app_length in B2; unfold heap_of in B2; cbn in B2; rewrite app_nil_r, map_length in B2; exact B2|].
    split; [rewrite G1, Eh1, <- app_assoc; f_equal; symmetry; apply (heap_of_app [r1] rs1)|].
    split; [rewrite G2, Eh2, <- app_assoc; f_equal; symmetry; apply (heap_of_app [r2] rs2)|]. split; assumption.
Qed.

Lemma links_loop_both : forall l d1 d2 st1 st2 d1' st1' d2' st2', ls_errors st1 = ls_errors st2 -> length (ls_heap st1) = length (ls_heap st2) ->
  links_loop element_str number find_id eo1 ro1 l d1 st1 = Ok (d1', st1') ->
  links_loop element_str number find_id eo2 ro2 l d2 st2 = Ok (d2', st2') -> NoDup (dict_keys d1) -> NoDup (dict_keys d2) ->
  exists rs1 rs2, both st1 st2 st1' st2' rs1 rs2 /\ NoDup (dict_keys d1') /\ NoDup (dict_keys d2') /\
    (forall R, nets_in d1' R = nets_in d1 R ++ flat_map nets_of (filter (fun r => str_eqb (r_role r) R) rs1)) /\
    (forall R, nets_in d2' R = nets_in d2 R ++ flat_map nets_of (filter (fun r => str_eqb (r_role r) R) rs2)).
Proof.
  induction l as [|[link outside] l IH]; intros d1 d2 st1 st2 d1' st1' d2' st2' Ee El R1 R2 N1 N2; cbn [links_loop] in R1, R2.
  - injection R1 as <- <-. injection R2 as <- <-. exists [], []. unfold both. cbn. rewrite !app_nil_r.
    repeat split; try assumption; try (intros r []); try (intros R; rewrite app_nil_r; reflexivity). constructor.
  - apply bind_ok in R1 as ([x1 s1] & A & R1). apply bind_ok in R2 as ([x2 s2] & B & R2). cbn [fst snd] in *. unfold one_link in A, B. cbn [fst snd] in A, B.
    destruct (attr_prefixed link (u "xlink:role")) as [[role|]|]; cbn [bind] in A, B; [| |discriminate].
    + apply bind_ok in A as ([w1 t1] & A & E1). apply bind_ok in B as ([w2 t2] & B & E2). cbn [fst snd] in *. injection E1 as <- <-. injection E2 as <- <-.
      assert (G : exists rs1 rs2, both st1 st2 t1 t2 rs1 rs2 /\ (forall r, In r rs1 -> r_role r = role) /\ w1 = flat_map nets_of rs1 /\ w2 = flat_map nets_of rs2).
      { unfold parse_xml_link in A, B. destruct (x_tag link) as [tag|]; [|discriminate]. destruct (factories tag) as [|k ks].
        - apply bind_ok in A as (e1 & A & E1). apply bind_ok in B as (e2 & B & E2). injection E1 as <- <-. injection E2 as <- <-.
          rewrite Ee, B in A. injection A as <-. exists [], []. unfold both. cbn. rewrite !app_nil_r. repeat split; try assumption; try (intros r []). constructor.
        - eapply run_factories_both; [exact Ee|exact El|exact A|exact B]. }
      destruct G as (rs1 & rs2 & (F & P1 & P2 & B1 & B2 & G1 & G2 & Ee' & El') & Hr & -> & ->).
      assert (Hr2 : forall r, In r rs2 -> r_role r = role).
      { clear -F Hr. induction F as [|r r' rs rs' (S & _) F IH]; [intros r []|]. intros x [<-|Hx]; [rewrite <- S; apply Hr; left; reflexivity|]. apply IH; [|exact Hx]. intros y Hy. apply Hr. right. exact Hy. }
      destruct (IH _ _ _ _ _ _ _ _ Ee' El' R1 R2) as (qs1 & qs2 & (F' & P1' & P2' & B1' & B2' & G1' & G2' & Ee'' & El'') & N1' & N2' & X1 & X2);
        [apply (dict_set_keys_nodup _ str_reflect), N1|apply (dict_set_keys_nodup _ str_reflect), N2|].
      exists (rs1 ++ qs1), (rs2 ++ qs2).
      assert (Gen : forall rs qs (d : by_role) R, (forall r, In r rs -> r_role r = role) ->
        nets_in (extend_role d role (flat_map nets_of rs)) R ++ flat_map nets_of (filter (fun r => str_eqb (r_role r) R) qs) =
        nets_in d R ++ flat_map nets_of (filter (fun r => str_eqb (r_role r) R) (rs ++ qs))).
      { clear. intros rs qs d R Hrole. rewrite nets_extend, <- app_assoc. f_equal. rewrite filter_app, flat_map_app'. f_equal.
        induction rs as [|r rs IH1]; [destruct (str_eqb role R); reflexivity|]. cbn [filter flat_map]. rewrite (Hrole r (or_introl eq_refl)).
        specialize (IH1 (fun r' Hr' => Hrole r' (or_intror Hr'))). destruct (str_eqb role R); [cbn; rewrite IH1; reflexivity|exact IH1]. }
      split; [|split; [exact N1'|split; [exact N2'|split; intros R; [rewrite X1|rewrite X2]; apply Gen; assumption]]].
      split; [apply Forall2_app; assumption|]. split; [intros r Hin; apply in_app_or in Hin as [Hin|Hin]; auto|]. split; [intros r Hin; apply in_app_or in Hin as [Hin|Hin]; auto|].
      split; [apply based_app; split; [exact B1|rewrite G1, app_length in B1'; exact B1']|]. split; [apply based_app; split; [exact B2|rewrite G2, app_length in B2'; exact B2']|].
      split; [rewrite heap_of_app, app_assoc; congruence|]. split; [rewrite heap_of_app, app_assoc; congruence|]. split; assumption.
    + apply bind_ok in A as (e1 & A & E1). apply bind_ok in B as (e2 & B & E2). injection E1 as <- <-. injection E2 as <- <-.
      rewrite Ee, B in A. injection A as <-. exact (IH d1 d2 (with_errors st1 e2) (with_errors st2 e2) d1' st1' d2' st2' eq_refl El R1 R2 N1 N2).
Qed.

(** ** The filing *)

Variable fuel1 fuel2 : nat.
Variable sh1 sh2 : list nat -> list nat.
Hypothesis S1 : some_order sh1.
Hypothesis S2 : some_order sh2.

Section Readings.
Variable rs1 rs2 : list run.
Variable ws1 ws2 : list net.
Variable h1 h2 : heap.
Variable d1 d2 : by_role.
Hypothesis Hsame : Forall2 same_run rs1 rs2.
Hypothesis O1 : forall r, In r rs1 -> run_ok r.
Hypothesis O2 : forall r, In r rs2 -> run_ok r.
Hypothesis B1 : based 0 rs1.
Hypothesis B2 : based 0 rs2.
Hypothesis N1 : NoDup (dict_keys d1).
Hypothesis N2 : NoDup (dict_keys d2).
Hypothesis G1 : forall R, nets_in d1 R = flat_map nets_of (filter (fun r => str_eqb (r_role r) R) rs1).
Hypothesis G2 : forall R, nets_in d2 R = flat_map nets_of (filter (fun r => str_eqb (r_role r) R) rs2).
Hypothesis C1 : combine_roles fuel1 sh1 d1 (heap_of rs1) = Ok (ws1, h1).
Hypothesis C2 : combine_roles fuel2 sh2 d2 (heap_of rs2) = Ok (ws2, h2).

Lemma same_run_in r : In r rs1 -> exists r', In r' rs2 /\ same_run r r'.
Proof.
  clear -Hsame. induction Hsame as [|a b l l' S F IH]; intros H; [destruct H|]. destruct H as [<-|H]; [exists b; split; [left; reflexivity|exact S]|].
  destruct (IH F H) as (r' & Hr & Hs). exists r'. split; [right; exact Hr|exact Hs].
Qed.

Lemma logical_shown R k o : is_physical k = false ->
  (exists w, In w ws1 /\ w_kind w = k /\ w_role w = R /\ shows h1 (w_roots w) o) -> exists w, In w ws2 /\ w_kind w = k /\ w_role w = R /\ shows h2 (w_roots w) o.
Proof.
  intros Hk H. apply (combined_shows element_str number find_id rs1 B1 O1 fuel1 sh1 S1 d1 N1 G1 ws1 h1 C1 R k o Hk) in H as (r & net & Hr & Er & Ek & Hn & Hs).
  apply (combined_shows element_str number find_id rs2 B2 O2 fuel2 sh2 S2 d2 N2 G2 ws2 h2 C2 R k o Hk).
  destruct (same_run_in r Hr) as (r' & Hr' & A & B & _ & Sh & [Sn _]). destruct (Sn net Hn) as (net' & Hn' & M). exists r', net'.
  split; [exact Hr'|]. split; [congruence|]. split; [congruence|]. split; [exact Hn'|]. eapply same_shows; eassumption.
Qed.
Lemma logical_related R k o o' : is_physical k = false ->
  (exists w, In w ws1 /\ w_kind w = k /\ w_role w = R /\ relates h1 (w_roots w) o o') -> exists w, In w ws2 /\ w_kind w = k /\ w_role w = R /\ relates h2 (w_roots w) o o'.
Proof.
  intros Hk H. apply (combined_relates element_str number find_id rs1 B1 O1 fuel1 sh1 S1 d1 N1 G1 ws1 h1 C1 R k o o' Hk) in H as (r & net & Hr & Er & Ek & Hn & Hs).
  apply (combined_relates element_str number find_id rs2 B2 O2 fuel2 sh2 S2 d2 N2 G2 ws2 h2 C2 R k o o' Hk).
  destruct (same_run_in r Hr) as (r' & Hr' & A & B & _ & Sh & [Sn _]). destruct (Sn net Hn) as (net' & Hn' & M). exists r', net'.
  split; [exact Hr'|]. split; [congruence|]. split; [congruence|]. split; [exact Hn'|]. eapply same_relates; eassumption.
Qed.
End Readings.

(** The nodes of physical networks are left as they are. *)
Section Physical.
Variable rs : list run.
Variable ws : list net.
Variable h : heap.
Variable d : by_role.
Variable fuel : nat.
Variable sh : list nat -> list nat.
Hypothesis S : some_order sh.
Hypothesis O : forall r, In r rs -> run_ok r.
Hypothesis B : based 0 rs.
Hypothesis N : NoDup (dict_keys d).
Hypothesis G : forall R, nets_in d R = flat_map nets_of (filter (fun r => str_eqb (r_role r) R) rs).
Hypothesis C : combine_roles fuel sh d (heap_of rs) = Ok (ws, h).

Lemma phys_nth r n : In r rs -> is_physical (r_kind r) = true -> n < length (r_heap r) -> nth_error h (r_base r + n) = nth_error (heap_of rs) (r_base r + n).
Proof.
  intros Hr Hp Hn. rewrite (heap_at rs B r n Hr Hn).
  exact (physical_nodes_kept element_str number find_id rs B O fuel sh S d N G ws h C r n Hr Hp Hn).
Qed.
Lemma phys_reach r i n : In r rs -> is_physical (r_kind r) = true -> i < length (r_heap r) ->
  (reach h (r_base r + i) n <-> reach (heap_of rs) (r_base r + i) n).
Proof.
  intros Hr Hp Hi. pose proof (reach_at element_str number find_id rs B O r i) as RA. split; intros H.
  - induction H as [|j k _ IH Hk]; [constructor|]. eapply reach_step; [exact IH|]. apply (RA j Hr Hi) in IH as (m & -> & Hm & _).
    unfold get_children in *. rewrite (phys_nth r m Hr Hp Hm) in Hk. exact Hk.
  - induction H as [|j k H IH Hk]; [constructor|]. eapply reach_step; [exact IH|]. apply (RA j Hr Hi) in H as (m & -> & Hm & _).
    unfold get_children in *. rewrite (phys_nth r m Hr Hp Hm). exact Hk.
Qed.
End Physical.

(** ** Two readings *)

Variable docs : list xml.
Variable es : repo xml.
Variable ws1 ws2 : list net.
Variable st1 st2 : lstate.
Hypothesis P1 : parse_networks element_str number find_id eo1 ro1 fuel1 sh1 docs es = Ok (ws1, st1).
Hypothesis P2 : parse_networks element_str number find_id eo2 ro2 fuel2 sh2 docs es = Ok (ws2, st2).

Lemma logical_unique (ws : list net) : NoDup (map (fun w => (w_kind w, w_role w)) (filter logical ws)) ->
  forall w w', In w ws -> In w' ws -> w_kind w = w_kind w' -> w_role w = w_role w' -> is_physical (w_kind w) = false -> w = w'.
Proof.
  intros Ho w w' Hw Hw' Kk Kr Kp.
  assert (F : In w (filter logical ws)) by (apply filter_In; split; [exact Hw|]; unfold logical, physical; rewrite Kp; reflexivity).
  assert (F' : In w' (filter logical ws)) by (apply filter_In; split; [exact Hw'|]; unfold logical, physical; rewrite <- Kk, Kp; reflexivity).
  revert F F' Ho. generalize (filter logical ws) as l. clear -Kk Kr. induction l as [|a l IH]; intros F F' Ho; [destruct F|].
  cbn [map] in Ho. inversion Ho as [|x m Hn Ho']; subst. destruct F as [->|F], F' as [->|F']; [reflexivity| | |auto];
    exfalso; apply Hn; apply in_map_iff; eexists; (split; [|eassumption]); congruence.
Qed.

Lemma two_readings :
  (forall w1 w2, In w1 ws1 -> In w2 ws2 -> w_kind w1 = w_kind w2 -> w_role w1 = w_role w2 -> is_physical (w_kind w1) = false ->
     same_content (ls_heap st1) (ls_heap st2) (w_roots w1) (w_roots w2)) /\
  (forall w1, In w1 ws1 -> is_physical (w_kind w1) = true ->
     exists w2, In w2 ws2 /\ w_kind w1 = w_kind w2 /\ w_role w1 = w_role w2 /\ same_tree (ls_heap st1) (ls_heap st2) (w_roots w1) (w_roots w2)).
Proof.
  unfold parse_networks in P1, P2.
  apply bind_ok in P1 as ([d1 t1] & L1 & Q1). apply bind_ok in Q1 as ([x1 g1] & C1 & Q1). injection Q1 as <- <-.
  apply bind_ok in P2 as ([d2 t2] & L2 & Q2). apply bind_ok in Q2 as ([x2 g2] & C2 & Q2). injection Q2 as <- <-. cbn [fst snd ls_heap] in *.
  destruct (links_loop_both _ _ _ _ _ _ _ _ _ eq_refl eq_refl L1 L2 (NoDup_nil _) (NoDup_nil _)) as (rs1 & rs2 & (F & O1 & O2 & B1 & B2 & E1 & E2 & _) & N1 & N2 & X1 & X2).
  cbn [ls_heap app length] in *. rewrite E1 in C1. rewrite E2 in C2. unfold nets_in in X1 at 2, X2 at 2. cbn [dict_get app] in X1, X2.
  assert (F' : Forall2 same_run rs2 rs1).
  { clear -F. induction F as [|r r' rs rs' (A & B & C & Sh & Sn & Sn') F IH]; constructor; [|exact IH]. repeat split; try congruence; [apply same_heap_sym, Sh| |].
    - intros l Hl. destruct (Sn' l Hl) as (l' & Hl' & M). exists l'. split; [exact Hl'|]. intros n. symmetry. apply M.
    - intros l Hl. destruct (Sn l Hl) as (l' & Hl' & M). exists l'. split; [exact Hl'|]. intros n. symmetry. apply M. }
  split.
  - intros w1 w2 Hw1 Hw2 Kk Kr Kp.
    pose proof (logical_unique x1 (combined_once element_str number find_id rs1 B1 O1 fuel1 sh1 S1 d1 N1 X1 x1 g1 C1)) as U1.
    pose proof (logical_unique x2 (combined_once element_str number find_id rs2 B2 O2 fuel2 sh2 S2 d2 N2 X2 x2 g2 C2)) as U2.
    assert (Kp2 : is_physical (w_kind w2) = false) by congruence. split.
    + intros o. split; intros Ho.
      * destruct (logical_shown rs1 rs2 x1 x2 g1 g2 d1 d2 F O1 O2 B1 B2 N1 N2 X1 X2 C1 C2 (w_role w1) (w_kind w1) o Kp (ex_intro _ w1 (conj Hw1 (conj eq_refl (conj eq_refl Ho))))) as (w & Hw & Ek & Er & Hs).
        rewrite (U2 w2 w Hw2 Hw); [exact Hs|congruence|congruence|exact Kp2].
      * destruct (combined_shows element_str number find_id rs2 B2 O2 fuel2 sh2 S2 d2 N2 X2 x2 g2 C2 (w_role w2) (w_kind w2) o Kp2) as [T _].
        destruct (T (ex_intro _ w2 (conj Hw2 (conj eq_refl (conj eq_refl Ho))))) as (r & net & Hr & Er & Ek & Hn & Hs).
        destruct (same_run_in rs2 rs1 F' r Hr) as (r' & Hr' & A & B & _ & Sh & [Sn _]). destruct (Sn net Hn) as (net' & Hn' & M).
        destruct (proj2 (combined_shows element_str number find_id rs1 B1 O1 fuel1 sh1 S1 d1 N1 X1 x1 g1 C1 (w_role w1) (w_kind w1) o Kp)) as (w & Hw & Ek' & Er' & Hs').
        { exists r', net'. split; [exact Hr'|]. split; [congruence|]. split; [congruence|]. split; [exact Hn'|]. eapply same_shows; eassumption. }
        rewrite (U1 w1 w Hw1 Hw); [exact Hs'|congruence|congruence|exact Kp].
    + intros o o'. split; intros Ho.
      * destruct (logical_related rs1 rs2 x1 x2 g1 g2 d1 d2 F O1 O2 B1 B2 N1 N2 X1 X2 C1 C2 (w_role w1) (w_kind w1) o o' Kp (ex_intro _ w1 (conj Hw1 (conj eq_refl (conj eq_refl Ho))))) as (w & Hw & Ek & Er & Hs).
        rewrite (U2 w2 w Hw2 Hw); [exact Hs|congruence|congruence|exact Kp2].
      * destruct (combined_relates element_str number find_id rs2 B2 O2 fuel2 sh2 S2 d2 N2 X2 x2 g2 C2 (w_role w2) (w_kind w2) o o' Kp2) as [T _].
        destruct (T (ex_intro _ w2 (conj Hw2 (conj eq_refl (conj eq_refl Ho))))) as (r & net & Hr & Er & Ek & Hn & Hs).
        destruct (same_run_in rs2 rs1 F' r Hr) as (r' & Hr' & A & B & _ & Sh & [Sn _]). destruct (Sn net Hn) as (net' & Hn' & M).
        destruct (proj2 (combined_relates element_str number find_id rs1 B1 O1 fuel1 sh1 S1 d1 N1 X1 x1 g1 C1 (w_role w1) (w_kind w1) o o' Kp)) as (w & Hw & Ek' & Er' & Hs').
        { exists r', net'. split; [exact Hr'|]. split; [congruence|]. split; [congruence|]. split; [exact Hn'|]. eapply same_relates; eassumption. }
        rewrite (U1 w1 w Hw1 Hw); [exact Hs'|congruence|congruence|exact Kp].
  - intros w1 Hw1 Kp. apply (combined_physical element_str number find_id rs1 B1 O1 fuel1 sh1 S1 d1 N1 X1 x1 g1 C1 w1 Kp) in Hw1 as (r & Hr & Hin).
    unfold nets_of in Hin. apply in_map_iff in Hin as (net & <- & Hn). cbn [w_kind w_role w_roots] in *.
    destruct (same_run_in rs1 rs2 F r Hr) as (r' & Hr' & A & B & Eb & Sh & [Sn _]). destruct (Sn net Hn) as (net' & Hn' & M).
    assert (Kp' : is_physical (r_kind r') = true) by congruence.
    exists (Net (r_kind r') (r_role r') (map (Nat.add (r_base r')) net')). split.
    { apply (combined_physical element_str number find_id rs2 B2 O2 fuel2 sh2 S2 d2 N2 X2 x2 g2 C2 (Net (r_kind r') (r_role r') (map (Nat.add (r_base r')) net')) Kp'). exists r'. split; [exact Hr'|].
      unfold nets_of. apply in_map_iff. exists net'. split; [reflexivity|exact Hn']. }
    cbn [w_kind w_role w_roots]. split; [exact B|]. split; [exact A|]. exists (fun n => n). split.
    + intros m. rewrite <- Eb. split.
      * intros Hm. apply in_map_iff in Hm as (n & <- & Hin). exists (r_base r + n). split; [apply in_map, M, Hin|reflexivity].
      * intros (n & Hin & <-). apply in_map_iff in Hin as (n' & <- & Hin). apply in_map, M, Hin.
    + intros a n Ha Hre. apply in_map_iff in Ha as (i & <- & Hi). pose proof (root_inside element_str number find_id rs1 O1 r net i Hr Hn Hi) as L.
      apply (phys_reach rs1 x1 g1 d1 fuel1 sh1 S1 O1 B1 N1 X1 C1 r i n Hr Kp L) in Hre. apply (reach_at element_str number find_id rs1 B1 O1 r i n Hr L) in Hre as (m & -> & Hm & _).
      rewrite (physical_nodes_kept element_str number find_id rs1 B1 O1 fuel1 sh1 S1 d1 N1 X1 x1 g1 C1 r m Hr Kp Hm).
      pose proof Hm as Hm'. rewrite (same_heap_length _ _ Sh) in Hm'.
      rewrite Eb, (physical_nodes_kept element_str number find_id rs2 B2 O2 fuel2 sh2 S2 d2 N2 X2 x2 g2 C2 r' m Hr' Kp' Hm').
      pose proof (same_nth _ _ m Sh) as Q. apply nth_error_Some in Hm. apply nth_error_Some in Hm'.
      destruct (nth_error (r_heap r) m) as [x|]; [|congruence]. destruct (nth_error (r_heap r') m) as [y|]; [|congruence]. destruct Q as [Q1 Q2].
      exists (shift_node (r_base r') x), (shift_node (r_base r') y). split; [reflexivity|]. split; [reflexivity|].
      split; [rewrite <- Q1; reflexivity|]. rewrite map_id. unfold shift_node. cbn [n_kids set_children]. apply Permutation_map, Q2.
Qed.
End Both.
