(** C120: the arc name that a network says all its arcs have. *)
From Coq Require Import QArith.
From Verif Require Import Base NetModel NetSpec NetProofs NetLinkProofs NetCombineProofs NetProps NetRootProps.
Local Open Scope nat_scope.

(** ** Model *)

(** parsers/XML/networks/xml_extended_link_parser.py 150-247: the arc that is passed to [create_node] for a link
    element with this label, in physical networks for each of the arc roles; [NetModel.logical_nodes] and
    [NetModel.physical_nodes] make the nodes of it (see [chosen_arc_used]). *)
Definition chosen_arc (k : kind) (kept : list arc) (label role : str) : option arc :=
  let node_arcs := node_to_arcs kept label in
  let to := filter (fun a => str_eqb (a_to a) label) node_arcs in
  let from := filter (fun a => str_eqb (a_from a) label) node_arcs in
  match to, from with
  | [], [] => None
  | _, _ =>
      if is_physical k then find (fun a => str_eqb (a_role a) role) (to ++ filter (fun a => negb (str_eqb (a_to a) label)) node_arcs)
      else hd_error (to ++ from)
  end.
(** The arcs come with the names of their elements, printed (qname_from_str(xml_arc.tag, xml_arc)).  The name
    of an arc: of those with the same ends and role the parser keeps the first
    (xml_extended_link_parser.py 128-139). *)
Definition element_name (named : list (arc * str)) (a : arc) : str :=
  match find (fun p => edge_eqb (edge_of a) (edge_of (fst p))) named with Some p => snd p | None => [] end.
(** [create_node] of the classes in parsers/XML/networks/xml_*_network_factory.py: link:unknown without arc, else
    the name of the arc; but xml_footnote_network_factory.py 75-85 has link:unknown for arcs from the label.  That the link may not know the prefix link (then an exception is raised) is left out. *)
Definition node_arc_name (k : kind) (named : list (arc * str)) (label role : str) : str :=
  match chosen_arc k (fst (arc_pass (map fst named))) label role with
  | None => u "link:unknown"
  | Some a =>
      match k with
      | KFootnote => if str_eqb (a_from a) label then u "link:unknown" else element_name named a
      | _ => element_name named a
      end
  end.
(** networks/i_network.py 92-101 get_arc_name: that of the first root.  [get_arc_name] of a node gives what
    [create_node] stored. *)
Definition get_arc_name (k : kind) (named : list (arc * str)) (locs : list loc) (h : heap) (roots : list nat) : option str :=
  match roots with
  | [] => None
  | r :: _ =>
      match nth_error h r with
      | Some x => option_map (fun l => node_arc_name k named (l_label l) (n_role x)) (nth_error locs (n_loc x))
      | None => None
      end
  end.

(** The nodes of [NetModel] are made of the chosen arc. *)
Lemma chosen_arc_used k kept i label o :
  (is_physical k = false -> exists root, logical_nodes k kept i label o =
     (do! n <- create_node k i label (chosen_arc k kept label []) o ; Ok [(n, root)])) /\
  (is_physical k = true -> physical_nodes k kept i label o = (do! n <- create_node k i label None o ; Ok [(n, true)]) /\ (forall role, chosen_arc k kept label role = None) \/
     exists roles root, physical_nodes k kept i label o =
       map_res (fun role => do! n <- create_node k i label (chosen_arc k kept label role) o ; Ok (n, root role)) roles).
Proof.
  unfold logical_nodes, physical_nodes, chosen_arc. cbv zeta.
  destruct (filter (fun a => str_eqb (a_to a) label) (node_to_arcs kept label)) as [|a to], (filter (fun a => str_eqb (a_from a) label) (node_to_arcs kept label)) as [|b from];
    split; intros Hk; rewrite ?Hk; cbn [app hd_error]; try (eexists; reflexivity); [left; auto| | |];
    right; eexists _, _; reflexivity.
Qed.

(** ** Specification *)

(** The name is written on an arc that starts at the label. *)
Definition on_arc_from (named : list (arc * str)) (label name : str) : Prop :=
  exists a, In (a, name) named /\ a_from a = label.
Definition no_arc_at (named : list (arc * str)) (label : str) : Prop :=
  forall a name, In (a, name) named -> a_from a <> label /\ a_to a <> label.

(** ** Theorems *)

Lemma element_name_in named a : In (edge_of a) (map edge_of (map fst named)) ->
  exists b, In (b, element_name named a) named /\ edge_of b = edge_of a.
Proof.
  intros H. unfold element_name. destruct (find _ named) as [[b q]|] eqn:E.
  - apply find_some in E as [Hin He]. apply edge_eqb_eq in He. exists b. auto.
  - exfalso. rewrite map_map in H. apply in_map_iff in H as (p & Ep & Hp). apply (find_none _ _ E) in Hp.
    rewrite <- Ep, (proj2 (edge_eqb_eq _ _) eq_refl) in Hp. discriminate.
Qed.

Section Link.
Variables (k : kind) (eo : list edge -> list edge) (ro : list nat -> list nat) (named : list (arc * str)) (locs : list loc).
Variables (h : heap) (nets : list (list nat)) (dups : list arc) (net : list nat).
Hypotheses (H : parse_link k eo ro (map fst named) locs = Ok (h, nets, dups)) (Hro : some_order ro) (Hnet : In net nets).

Lemma root_name r : In r net -> exists x l, made_for h locs r x l /\ 
  ((k <> KFootnote -> on_arc_from named (l_label l) (node_arc_name k named (l_label l) (n_role x))) /\
   (k = KFootnote -> node_arc_name k named (l_label l) (n_role x) = u "link:unknown") \/
   no_arc_at named (l_label l) /\ node_arc_name k named (l_label l) (n_role x) = u "link:unknown").
Proof.
  intros Hr. destruct (root_untargeted _ _ _ _ _ _ _ _ _ H Hro Hnet r Hr) as (x & l & Hm & Hno). exists x, l. split; [exact Hm|].
  unfold node_arc_name, chosen_arc. cbv zeta. set (label := l_label l) in *.
  destruct (arc_pass_kept (map fst named)) as (_ & Hi & Hc & _). set (kept := fst (arc_pass (map fst named))) in *.
  assert (Hkept : forall a q, In (a, q) named -> exists b, In b kept /\ edge_of b = edge_of a).
  { intros a q Hin. assert (He : In (edge_of a) (map edge_of kept)) by (apply Hi, in_map; apply (in_map fst) in Hin; exact Hin).
    apply in_map_iff in He as (b & Eb & Hb). eauto. }
  assert (Hgood : forall a, In a kept -> a_from a = label ->
    (k <> KFootnote -> on_arc_from named label (match k with KFootnote => if str_eqb (a_from a) label then u "link:unknown" else element_name named a | _ => element_name named a end)) /\
    (k = KFootnote -> match k with KFootnote => if str_eqb (a_from a) label then u "link:unknown" else element_name named a | _ => element_name named a end = u "link:unknown")).
  { intros a Ha Hf. split; [|intros ->; rewrite Hf, str_eqb_refl; reflexivity]. intros Hk.
    replace (match k with KFootnote => _ | _ => _ end) with (element_name named a) by (destruct k; congruence || reflexivity). destruct (element_name_in named a) as (b & Hb & Eb); [apply in_map, Hc, Ha|]. exists b. split; [exact Hb|]. unfold edge_of in Eb. congruence. }
  set (to := filter (fun a => str_eqb (a_to a) label) (node_to_arcs kept label)). set (from := filter (fun a => str_eqb (a_from a) label) (node_to_arcs kept label)).
  assert (Hto : forall a, In a to <-> In a kept /\ a_to a = label).
  { intros a. unfold to. rewrite filter_In, node_to_arcs_in, str_eqb_eq. tauto. }
  assert (Hfrom : forall a, In a from <-> In a kept /\ a_from a = label).
  { intros a. unfold from. rewrite filter_In, node_to_arcs_in, str_eqb_eq. tauto. }
  assert (Hcase : to = [] /\ from = [] \/ exists a, In a to \/ In a from).
  { destruct to as [|a ?]; [|right; exists a; left; left; reflexivity]. destruct from as [|a ?]; [left; auto|right; exists a; right; left; reflexivity]. }
  destruct Hcase as [[Et Ef]|(a & Ha)].
  - rewrite Et, Ef. right. split; [|reflexivity]. intros b q Hin. destruct (Hkept b q Hin) as (c & Hck & Ec). unfold edge_of in Ec. split; intros E.
    + assert (In c from) as Hx by (apply Hfrom; split; [exact Hck|congruence]). rewrite Ef in Hx. destruct Hx.
    + assert (In c to) as Hx by (apply Hto; split; [exact Hck|congruence]). rewrite Et in Hx. destruct Hx.
  - left. set (sorted := to ++ filter (fun a => negb (str_eqb (a_to a) label)) (node_to_arcs kept label)).
    assert (E : forall A (t f : list arc) (x y : A), (In a t \/ In a f) -> match t, f with [], [] => x | _, _ => y end = y) by (intros A [|? t] [|? f] y z [[]|[]]; reflexivity).
    rewrite (E _ to from _ _ Ha). destruct (is_physical k) eqn:Hk.
    + assert (Ht : touches (map fst named) label (n_role x)).
      { destruct (proj1 (proj2 (C19_nodes_physical _ _ _ _ _ _ _ _ H Hk)) r x l Hm) as [Ht|Hn]; [exact Ht|]. exfalso. apply (Hn (a_role a)).
        exists a. rewrite Hto, Hfrom in Ha. split; [apply Hc; tauto|]. split; [tauto|reflexivity]. }
      destruct Ht as (b & Hb & Hbl & Hbr). unfold relevant in Hno. rewrite Hk in Hno.
      assert (Hbf : exists c, In c kept /\ a_from c = label /\ a_to c <> label /\ a_role c = n_role x).
      { assert (Nt : a_to b <> label) by (apply Hno, filter_In; split; [exact Hb|apply str_eqb_eq, Hbr]).
        apply in_map_iff in Hb as ([b' q] & Eb & Hb). cbn in Eb. subst b'. destruct (Hkept b q Hb) as (c & Hck & Ec). unfold edge_of in Ec.
        exists c. split; [exact Hck|]. repeat split; try congruence. destruct Hbl; congruence. }
      destruct (find (fun a => str_eqb (a_role a) (n_role x)) sorted) as [c|] eqn:Ec.
      * apply find_some in Ec as [Hin Hr0]. apply str_eqb_eq in Hr0. apply in_app_iff in Hin as [Hin|Hin].
        -- apply Hto in Hin as [Hin Hl]. exfalso. apply (Hno c); [apply filter_In; split; [apply Hc, Hin|apply str_eqb_eq, Hr0]|exact Hl].
        -- apply filter_In in Hin as [Hin Hl]. apply node_to_arcs_in in Hin as [Hin [Hf|Hf]]; [apply Hgood; assumption|].
           rewrite Hf, str_eqb_refl in Hl. discriminate.
      * exfalso. destruct Hbf as (c & Hck & Hcf & Hct & Hcr).
        assert (Hin : In c sorted) by (apply in_app_iff; right; apply filter_In; split; [apply node_to_arcs_in; auto|apply negb_true_iff, str_eqb_neq, Hct]).
        apply (find_none _ _ Ec) in Hin. rewrite Hcr, str_eqb_refl in Hin. discriminate.
    + unfold relevant in Hno. rewrite Hk in Hno.
      assert (Et : to = []) by (destruct to as [|c t]; [reflexivity|]; exfalso; destruct (proj1 (Hto c) (or_introl eq_refl)) as [H1 H2]; apply (Hno c (Hc _ H1) H2)).
      rewrite Et in *. destruct from as [|c f]; [destruct Ha as [[]|[]]|]. cbn [app hd_error]. destruct (proj1 (Hfrom c) (or_introl eq_refl)) as [H1 H2]. apply Hgood; assumption.
Qed.

(** The name given is written on an arc of the link that starts at one of the roots; only if a root has no arc
    at all it may be link:unknown.  Not so for footnotes. *)
Theorem C120_given : k <> KFootnote -> exists name, get_arc_name k named locs h net = Some name /\
  exists r x l, In r net /\ made_for h locs r x l /\
    (on_arc_from named (l_label l) name \/ no_arc_at named (l_label l) /\ name = u "link:unknown").
Proof.
  intros Hk. pose proof (proj1 (C21_networks _ _ _ _ _ _ _ _ H) net Hnet) as Hne. pose proof root_name as G.
  destruct net as [|r rest]; [congruence|]. destruct (G r (or_introl eq_refl)) as (x & l & Hm & Hn). cbn [get_arc_name].
  rewrite (proj1 Hm), (proj2 Hm). cbn [option_map]. eexists. split; [reflexivity|]. exists r, x, l. split; [left; reflexivity|].
  split; [exact Hm|]. destruct Hn as [[Hn _]|Hn]; [left; apply Hn, Hk|right; exact Hn].
Qed.
(** Networks of footnotes never say the name of their arcs. *)
Theorem C120_footnotes_refuted : k = KFootnote -> get_arc_name k named locs h net = Some (u "link:unknown").
Proof.
  intros Hk. pose proof (proj1 (C21_networks _ _ _ _ _ _ _ _ H) net Hnet) as Hne. pose proof root_name as G.
  destruct net as [|r rest]; [congruence|]. destruct (G r (or_introl eq_refl)) as (x & l & Hm & Hn). cbn [get_arc_name].
  rewrite (proj1 Hm), (proj2 Hm). cbn [option_map]. f_equal. destruct Hn as [[_ Hn]|[_ Hn]]; auto.
Qed.
(** The name of a node below another is written on an arc that leads to it. *)
Theorem C120_children p n x l : some_order eo -> In n (get_children h p) -> made_for h locs n x l ->
  (k = KFootnote -> forall a name, In (a, name) named -> a_to a = l_label l -> a_from a <> l_label l) ->
  exists a, In (a, node_arc_name k named (l_label l) (n_role x)) named /\ a_to a = l_label l.
Proof.
  intros Heo Hn Hm Hloop. set (label := l_label l) in *.
  destruct (arc_pass_kept (map fst named)) as (_ & Hi & Hc & _). set (kept := fst (arc_pass (map fst named))) in *.
  assert (Harc : exists a, In a kept /\ a_to a = label /\ (is_physical k = true -> a_role a = n_role x)).
  { unfold get_children in Hn. destruct (nth_error h p) as [y|] eqn:Ey; [|destruct Hn]. destruct (link_obj _ _ _ _ _ _ _ _ _ _ H Ey) as (lp & Mp & _).
    assert (Ha : exists a, In a (map fst named) /\ a_to a = label /\ (is_physical k = true -> a_role a = n_role x)).
    { destruct (is_physical k) eqn:Hk.
      - apply (proj2 (C19_physical_child_iff_arc _ _ _ _ _ _ _ _ _ _ _ H Heo Hk Mp) n x l Hm) in Hn as [Er (a & Ha & _ & Ht & Hr)]. exists a. repeat split; [exact Ha|exact Ht|congruence].
      - apply (C19_logical_child_iff_arc _ _ _ _ _ _ _ _ _ _ _ _ _ _ H Heo Hk Mp Hm) in Hn as (role & a & Ha & _ & Ht & _). exists a. repeat split; [exact Ha|exact Ht|discriminate]. }
    destruct Ha as (a & Ha & Ht & Hr). assert (He : In (edge_of a) (map edge_of kept)) by (apply Hi, in_map, Ha).
    apply in_map_iff in He as (b & Eb & Hb). unfold edge_of in Eb. exists b. split; [exact Hb|]. split; [congruence|]. intros E. specialize (Hr E). congruence. }
  destruct Harc as (a & Ha & Hat & Har). unfold node_arc_name, chosen_arc. cbv zeta. fold kept.
  set (to := filter (fun a => str_eqb (a_to a) label) (node_to_arcs kept label)). set (from := filter (fun a => str_eqb (a_from a) label) (node_to_arcs kept label)).
  assert (Hto : forall a, In a to <-> In a kept /\ a_to a = label).
  { intros b. unfold to. rewrite filter_In, node_to_arcs_in, str_eqb_eq. tauto. }
  assert (Hin : In a to) by (apply Hto; auto).
  assert (Hgood : forall b, In b to -> exists c, In (c, match k with KFootnote => if str_eqb (a_from b) label then u "link:unknown" else element_name named b | _ => element_name named b end) named /\ a_to c = label).
  { intros b Hb. apply Hto in Hb as [Hb Hbt]. destruct (element_name_in named b) as (c & Hcn & Ec); [apply in_map, Hc, Hb|]. unfold edge_of in Ec.
    assert (Ef : k = KFootnote -> str_eqb (a_from b) label = false).
    { intros E. apply str_eqb_neq. intros Ef. apply (Hloop E c _ Hcn); congruence. }
    exists c. split; [|congruence]. destruct k; try exact Hcn. rewrite (Ef eq_refl). exact Hcn. }
  destruct to as [|b to'] eqn:Et; [destruct Hin|]. destruct (is_physical k) eqn:Hk; [|cbn [app hd_error]; apply Hgood; left; reflexivity].
  rewrite <- Et in *. clear Et.
  assert (G : forall l1 l2, In a l1 -> exists c, In c l1 /\ find (fun a => str_eqb (a_role a) (n_role x)) (l1 ++ l2) = Some c).
  { specialize (Har eq_refl). clear -Har. induction l1 as [|d l1 IH]; intros l2 Hd; [destruct Hd|]. cbn. destruct (str_eqb (a_role d) (n_role x)) eqn:E; [exists d; auto|].
    destruct Hd as [->|Hd]; [rewrite Har, str_eqb_refl in E; discriminate|]. destruct (IH l2 Hd) as (c & H1 & H2). exists c. auto. }
  match goal with |- context [find _ (?l1 ++ ?l2)] => destruct (G l1 l2 Hin) as (c & Hcin & ->) end. apply Hgood, Hcin.
Qed.
(** If all arcs of the link have one name, and every link element that stands for something has an arc, it is that
    name. *)
Theorem C120_uniform_partial name : k <> KFootnote -> (forall a q, In (a, q) named -> q = name) ->
  (forall l o, In l locs -> l_obj l = Some o -> exists a, In a (map fst named) /\ (a_from a = l_label l \/ a_to a = l_label l)) ->
  get_arc_name k named locs h net = Some name.
Proof.
  intros Hk Hone Hall. destruct (C120_given Hk) as (q & -> & r & x & l & Hr & Hm & [(a & Ha & _)|[Hno _]]); f_equal; [apply (Hone a q Ha)|].
  exfalso. destruct (link_obj _ _ _ _ _ _ _ _ _ _ H (proj1 Hm)) as (l2 & Hm2 & Ho). assert (l2 = l) as -> by (destruct Hm, Hm2; congruence).
  destruct (Hall l _ (nth_error_In _ _ (proj2 Hm)) Ho) as (a & Ha & Hl).
  apply in_map_iff in Ha as ([b q'] & <- & Hb). destruct (Hno b q' Hb), Hl; auto.
Qed.
End Link.

(** The network combined from several of one role gives the name that the last of them gave: combining keeps the
    nodes, each with the name stored in it, and the first root is that of the last network. *)
Theorem C120_combined fuel shuffle h networks last h' roots (stored : nat -> str) : some_order shuffle -> last <> [] ->
  combine_networks fuel shuffle h (networks ++ [last]) = Ok (h', roots) -> option_map stored (hd_error roots) = option_map stored (hd_error last).
Proof.
  intros Hs Hl Hc. destruct (C22_roots _ _ _ _ _ _ _ Hs Hc) as (more & -> & _). destruct last; [congruence|reflexivity].
Qed.

(** ** Examples *)

Definition calc_arcs : list (arc * str) :=
  [(arc' "a" "b" "sum" 1 1, u "link:calculationArc"); (arc' "a" "c" "sum" 2 1, u "link:calculationArc")].
Example C120_example : exists h, parse_link KCalculation (fun l => l) (fun l => l) (map fst calc_arcs) locs_abc = Ok (h, [[0]], []) /\
  get_arc_name KCalculation calc_arcs locs_abc h [0] = Some (u "link:calculationArc") /\
  (forall a q, In (a, q) calc_arcs -> q = u "link:calculationArc") /\
  (forall l o, In l locs_abc -> l_obj l = Some o -> exists a, In a (map fst calc_arcs) /\ (a_from a = l_label l \/ a_to a = l_label l)).
Proof.
  eexists. split; [reflexivity|]. split; [reflexivity|]. split.
  - intros a q [E|[E|[]]]; injection E as _ <-; reflexivity.
  - intros l o [<-|[<-|[<-|[]]]] _; [exists (arc' "a" "b" "sum" 1 1)|exists (arc' "a" "b" "sum" 1 1)|exists (arc' "a" "c" "sum" 2 1)]; cbn; auto.
Qed.
(** In physical networks each role has its own. *)
Definition label_arcs : list (arc * str) := [(arc' "a" "b" "r" 1 1, u "link:labelArc"); (arc' "a" "c" "s" 1 1, u "own:arc")].
Example C120_physical_example : exists h n1 n2, parse_link KPhysicalDefinition (fun l => l) (fun l => l) (map fst label_arcs) locs_abc = Ok (h, [n1; n2], []) /\
  get_arc_name KPhysicalDefinition label_arcs locs_abc h n1 = Some (u "link:labelArc") /\ get_arc_name KPhysicalDefinition label_arcs locs_abc h n2 = Some (u "own:arc").
Proof. do 3 eexists. split; [reflexivity|]. split; reflexivity. Qed.
Example C120_footnotes_example : exists h n1 n2, parse_link KFootnote (fun l => l) (fun l => l) (map fst label_arcs) locs_abc = Ok (h, [n1; n2], []) /\
  get_arc_name KFootnote label_arcs locs_abc h n1 = Some (u "link:unknown") /\ node_arc_name KFootnote label_arcs (u "b") (u "r") = u "link:labelArc".
Proof. do 3 eexists. split; [reflexivity|]. split; reflexivity. Qed.
(** All arcs have one name, but there is also a locator without arc: whether the name is given, or link:unknown,
    depends on the order of a set. *)
Definition locs_abcd : list loc := locs_abc ++ [Loc (u "d") (con 4)].
Theorem C120_order_refuted : exists h,
  parse_link KCalculation (fun l => l) (fun l => l) (map fst calc_arcs) locs_abcd = Ok (h, [[0; 3]], []) /\
  parse_link KCalculation (fun l => l) (fun l => rev l) (map fst calc_arcs) locs_abcd = Ok (h, [[3; 0]], []) /\
  get_arc_name KCalculation calc_arcs locs_abcd h [0; 3] = Some (u "link:calculationArc") /\
  get_arc_name KCalculation calc_arcs locs_abcd h [3; 0] = Some (u "link:unknown").
Proof. eexists. repeat split. Qed.
(** Two networks combined: the name comes from the second. *)
Example C120_combined_example : exists h', combine_networks 10 (fun l => l) [bare 1; Node 1 (Obj 1 OConcept) [] 1 0 None []] [[0]; [1]] = Ok (h', [1; 0]).
Proof. eexists. reflexivity. Qed.
(** Arcs of other names below the root do not show. *)
Definition mixed_arcs : list (arc * str) :=
  [(arc' "a" "b" "dim" 1 1, u "link:definitionArc"); (arc' "b" "c" "own" 2 1, u "own:arc")].
Theorem C120_same_name_refuted : exists h, parse_link KLogicalDefinition (fun l => l) (fun l => l) (map fst mixed_arcs) locs_abc = Ok (h, [[0]], []) /\
  get_arc_name KLogicalDefinition mixed_arcs locs_abc h [0] = Some (u "link:definitionArc") /\ node_arc_name KLogicalDefinition mixed_arcs (u "c") (u "own") = u "own:arc" /\ reach h 0 2.
Proof.
  eexists. split; [reflexivity|]. split; [reflexivity|]. split; [reflexivity|].
  apply (reach_step _ 0 1); [apply (reach_step _ 0 0); [constructor|left; reflexivity]|left; reflexivity].
Qed.
Print Assumptions C120_given.
Print Assumptions C120_footnotes_refuted.
Print Assumptions C120_uniform_partial.
Print Assumptions C120_children.
Print Assumptions C120_combined.
Print Assumptions C120_order_refuted.
Print Assumptions C120_same_name_refuted.
