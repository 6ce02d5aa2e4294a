(** The nodes of the networks of a filing. *)
From Verif Require Import Base QNameModel ErrBase ErrTable ErrModel CtxModel NetModel NetSpec NetProofs NetLinkProofs NetCombineProofs
  LangModel LinkModel LinkSpec LinkProofs LinkLoopProofs LinkNetProofs.
Local Open Scope nat_scope.
Local Opaque insert create.

(** ** Combination keeps what nodes point to *)

Definition object_of (h : heap) (n : nat) : option obj := option_map n_obj (nth_error h n).
Definition same_objects (h h' : heap) : Prop := forall n, object_of h' n = object_of h n.

Lemma same_objects_trans h1 h2 h3 : same_objects h1 h2 -> same_objects h2 h3 -> same_objects h1 h3.
Proof. intros A B n. rewrite B. apply A. Qed.
Lemma objects_add_all h adds : same_objects h (add_all h adds).
Proof. intros n. unfold object_of. rewrite nth_add_all. destruct (nth_error h n) as [x|]; [|reflexivity]. cbn. destruct (added adds n); reflexivity. Qed.
Lemma objects_roots agg : forall roots h A h' A', combine_roots h agg A roots = (h', A') -> same_objects h h'.
Proof.
  induction roots as [|r roots IH]; intros h A h' A' H; cbn [combine_roots] in H.
  - injection H as <- _. intros n. reflexivity.
  - destruct (find _ agg) as [p|]; [|eapply IH, H]. eapply same_objects_trans; [apply objects_add_all|eapply IH, H].
Qed.
Lemma objects_loop fuel shuffle : forall networks h A h' A', combine_loop fuel shuffle h A networks = Some (h', A') -> same_objects h h'.
Proof.
  induction networks as [|roots networks IH]; intros h A h' A' H; cbn [combine_loop] in H.
  - injection H as <- _. intros n. reflexivity.
  - destruct (all_descendants fuel h A) as [agg|]; [|discriminate]. destruct (combine_roots h (shuffle agg) A roots) as [h1 A1] eqn:E1.
    eapply same_objects_trans; [eapply objects_roots, E1|eapply IH, H].
Qed.
Lemma objects_networks fuel shuffle h networks h' roots : combine_networks fuel shuffle h networks = Ok (h', roots) -> same_objects h h'.
Proof.
  unfold combine_networks. destruct (rev networks) as [|a [|b rest]]; [discriminate| |].
  - intros [= <- _] n. reflexivity.
  - destruct (combine_loop fuel shuffle h a (b :: rest)) as [[h1 r1]|] eqn:E; [|discriminate]. intros [= <- _]. eapply objects_loop, E.
Qed.
Lemma objects_groups fuel shuffle : forall gs h ws h', combine_groups fuel shuffle gs h = Ok (ws, h') -> same_objects h h'.
Proof.
  induction gs as [|[c g] gs IH]; intros h ws h' H; cbn [combine_groups] in H.
  - injection H as _ <-. intros n. reflexivity.
  - apply bind_ok in H as ([h1 rs] & H1 & H). destruct (rev g) as [|w _]; [discriminate|]. cbn [fst snd] in H.
    apply bind_ok in H as ([ws2 h2] & H2 & H). injection H as _ <-. cbn [fst snd].
    eapply same_objects_trans; [eapply objects_networks, H1|eapply IH, H2].
Qed.
Lemma objects_roles fuel shuffle : forall d h ws h', combine_roles fuel shuffle d h = Ok (ws, h') -> same_objects h h'.
Proof.
  induction d as [|[R l] d IH]; intros h ws h' H; cbn [combine_roles] in H.
  - injection H as _ <-. intros n. reflexivity.
  - apply bind_ok in H as ([w1 h1] & H1 & H). cbn [fst snd] in H. apply bind_ok in H as ([w2 h2] & H2 & H). injection H as _ <-. cbn [fst snd].
    eapply same_objects_trans; [|eapply IH, H2]. unfold combine_role in H1. apply bind_ok in H1 as ([w3 h3] & H3 & H1). injection H1 as _ <-. cbn [fst snd].
    eapply objects_groups, H3.
Qed.

(** ** What nodes point to *)

Section Nodes.
Variable element_str : xml -> str.
Variable number : str -> Q.
Variable find_id : str -> option found.
Variable edge_order : nat -> list edge -> list edge.
Variable root_order : nat -> list nat -> list nat.
Hypothesis Horders : orders edge_order root_order.
Variable fuel : nat.
Variable shuffle : list nat -> list nat.
Hypothesis Hshuffle : some_order shuffle.

Definition from_lookup (o : obj) : Prop :=
  is_element (o_type o) || match o_type o with OFact => true | _ => false end = true -> exists i fd, find_id i = Some fd /\ o = obj_of_found fd.

Lemma entry_lookup l : forall i es entries es', link_entries element_str find_id i l es = Ok (entries, es') ->
  forall lab o r, In (lab, Some (o, r)) entries -> from_lookup o.
Proof.
  induction l as [|[x around] l IH]; intros i es entries es' H; cbn [link_entries] in H.
  - injection H as <- _. intros lab o r [].
  - apply bind_ok in H as (lb & Hl & H). apply bind_ok in H as ([o1 es1] & Ho & H). cbn [fst snd] in H. apply bind_ok in H as ([r1 es2] & Hr & H).
    cbn [fst snd] in H. injection H as <- <-. intros lab o r [E|E]; [|eapply IH; eassumption]. injection E as -> ->.
    unfold link_object in Ho. apply bind_ok in Ho as (t & _ & Ho). destruct (str_eqb t (u "locator")).
    + apply bind_ok in Ho as (href & _ & Ho). cbv zeta in Ho. destruct (find_id (last (split_char (ch "#") href) [])) as [fd|] eqn:Ef.
      * injection Ho as <- _ _. intros _. eauto.
      * apply bind_ok in Ho as (es3 & _ & Ho). discriminate.
    + destruct (str_eqb t (u "resource")).
      * apply bind_ok in Ho as ([[rs|] es3] & _ & Ho); cbn [fst snd] in Ho; [|discriminate]. injection Ho as <- _ _. unfold from_lookup. cbn [o_type]. destruct rs; cbn; discriminate.
      * apply bind_ok in Ho as (es3 & _ & Ho). discriminate.
Qed.

Lemma run_object r n x : run_ok element_str number find_id r -> nth_error (r_heap r) n = Some x ->
  from_lookup (n_obj x) /\ accepts (r_kind r) (o_type (n_obj x)) = None.
Proof.
  intros (es & es1 & es2 & eo & ro & dups & Heo & Hro & Ha & He & Hp) Hx.
  destruct (link_obj _ _ _ _ _ _ _ _ _ _ Hp Hx) as (l & Hm & Ho). pose proof (proj2 Hm) as Hl. rewrite nth_error_map in Hl.
  destruct (nth_error (r_entries r) (n_loc x)) as [[lab o]|] eqn:Een; [|discriminate]. injection Hl as <-.
  cbn [loc_of l_obj snd] in Ho. destruct o as [[ob rs]|]; [|discriminate]. cbn in Ho. injection Ho as Ho. rewrite <- Ho. split.
  - eapply entry_lookup; [exact He|]. eapply nth_error_In, Een.
  - apply parse_link_inv in Hp as (Hacc & _). apply (Hacc (loc_of (lab, Some (ob, rs))) ob); [|reflexivity].
    apply in_map. eapply nth_error_In, Een.
Qed.

Lemma filing_nodes docs es ws st : parse_networks element_str number find_id edge_order root_order fuel shuffle docs es = Ok (ws, st) ->
  (forall w r n, In w ws -> In r (w_roots w) -> reach (ls_heap st) r n ->
     exists o, object_of (ls_heap st) n = Some o /\ from_lookup o /\ accepts (w_kind w) (o_type o) = None) /\
  NoDup (map (fun w => (w_kind w, w_role w)) (filter logical ws)).
Proof.
  intros H. unfold parse_networks in H. apply bind_ok in H as ([d st1] & Hl & H). cbn [fst snd] in H. apply bind_ok in H as ([ws' h'] & Hc & H). cbn [fst snd] in H. injection H as <- <-.
  cbn [ls_heap]. destruct (links_loop_any element_str number find_id edge_order root_order Horders (sorted_links docs) [] (LState es [] [] 0) d st1 Hl) as (rs & O & B & E & N & G); [constructor|].
  cbn in B, E. rewrite E in Hc. split; [|eapply combined_once; eassumption]. intros w r n Hw Hr Hn.
  destruct (network_places element_str number find_id rs B O fuel shuffle Hshuffle d N G ws' h' Hc w r n Hw Hr Hn) as (r' & Hr' & _ & Hk & Hown).
  assert (Hlt : n - r_base r' < length (r_heap r')) by (unfold own in Hown; lia).
  assert (En : n = r_base r' + (n - r_base r')) by (unfold own in Hown; lia).
  destruct (nth_error (r_heap r') (n - r_base r')) as [x|] eqn:Ex; [|apply nth_error_None in Ex; lia].
  destruct (run_object r' _ x (O r' Hr') Ex) as [F A]. exists (n_obj x). split; [|rewrite <- Hk; split; assumption].
  rewrite (objects_roles _ _ _ _ _ _ Hc n). unfold object_of. rewrite En, (heap_at rs B r' _ Hr' Hlt), Ex. reflexivity.
Qed.
End Nodes.
